(** * Proofs: binary32 operations round to nearest, ties to even

    Integers only: a positive rational [a / b] times a power of two stands for
    the exact result of an operation. *)

From Coq Require Import ZArith Bool Lia Floats.SpecFloat.
From Verif Require Import Base F32 SpecFacts SpecRound.
Open Scope Z_scope.

(** ** Remainder bits *)

(** the record stands for [a / b]: the quotient, whether the rest is at least a
    half, and whether it is neither zero nor a half *)
Definition repr (w : shr_record) (a b : Z) : Prop :=
  0 < b /\ shr_m w = a / b /\ 0 <= a /\
  shr_r w = (b <=? 2 * (a mod b)) /\
  shr_s w = negb ((a mod b =? 0) || (2 * (a mod b) =? b)).

Lemma shr_1_m m r s : 0 <= m -> shr_1 {| shr_m := m; shr_r := r; shr_s := s |} =
  {| shr_m := m / 2; shr_r := Z.odd m; shr_s := r || s |}.
Proof.
  intros H. rewrite <- Z.div2_div. destruct m as [|p|p]; [reflexivity| |lia].
  destruct p; reflexivity.
Qed.

Lemma repr_shr_1 w a b : repr w a b -> repr (shr_1 w) a (2 * b).
Proof.
  intros (Hb & Hm & Ha & Hr & Hs). destruct w as [m r s]. cbn [shr_m shr_r shr_s] in *.
  assert (0 <= m) by (rewrite Hm; apply Z.div_pos; lia).
  rewrite shr_1_m by assumption. unfold repr. cbn [shr_m shr_r shr_s].
  pose proof (Z.div_mod a b ltac:(lia)) as D. pose proof (Z.mod_pos_bound a b Hb) as R. rewrite <- Hm in D.
  pose proof (Z.div_mod m 2 ltac:(lia)) as D2. pose proof (Z.mod_pos_bound m 2 ltac:(lia)) as R2.
  assert (M : a mod (2 * b) = (m mod 2) * b + a mod b).
  { symmetry. apply Z.mod_unique_pos with (q := m / 2); nia. }
  split; [lia|]. split.
  { rewrite Hm, Z.div_div by lia. f_equal. lia. }
  split; [exact Ha|]. rewrite M, Hr, Hs. rewrite (Zmod_odd m). destruct (Z.odd m); split.
  - symmetry. apply Z.leb_le. lia.
  - destruct (Z.leb_spec b (2 * (a mod b))), (Z.eqb_spec (a mod b) 0), (Z.eqb_spec (2 * (a mod b)) b),
      (Z.eqb_spec (1 * b + a mod b) 0), (Z.eqb_spec (2 * (1 * b + a mod b)) (2 * b)); cbn; try reflexivity; lia.
  - symmetry. apply Z.leb_gt. lia.
  - destruct (Z.leb_spec b (2 * (a mod b))), (Z.eqb_spec (a mod b) 0), (Z.eqb_spec (2 * (a mod b)) b),
      (Z.eqb_spec (0 * b + a mod b) 0), (Z.eqb_spec (2 * (0 * b + a mod b)) (2 * b)); cbn; try reflexivity; lia.
Qed.

Lemma repr_iter p : forall w a b, repr w a b -> repr (iter_pos shr_1 p w) a (2 ^ Zpos p * b).
Proof.
  induction p as [p IH|p IH|]; intros w a b H; cbn [iter_pos].
  - replace (2 ^ Zpos p~1 * b) with (2 ^ Zpos p * (2 ^ Zpos p * (2 * b))).
    + apply IH, IH, repr_shr_1, H.
    + replace (Zpos p~1) with (Zpos p + Zpos p + 1) by lia. rewrite !Z.pow_add_r by lia. lia.
  - replace (2 ^ Zpos p~0 * b) with (2 ^ Zpos p * (2 ^ Zpos p * b)).
    + apply IH, IH, H.
    + replace (Zpos p~0) with (Zpos p + Zpos p) by lia. rewrite !Z.pow_add_r by lia. lia.
  - change (2 ^ 1) with 2. apply repr_shr_1, H.
Qed.

Lemma repr_shr w a b e n : repr w a b -> repr (fst (shr w e n)) a (2 ^ Z.max 0 n * b) /\ snd (shr w e n) = e + Z.max 0 n.
Proof.
  intros H. destruct n as [|p|p]; cbn [shr fst snd].
  - change (2 ^ Z.max 0 0) with 1. rewrite Z.mul_1_l. split; [exact H|lia].
  - rewrite Z.max_r by lia. split; [apply repr_iter, H|reflexivity].
  - rewrite Z.max_l by lia. change (2 ^ 0) with 1. rewrite Z.mul_1_l. split; [exact H|lia].
Qed.

(** ** Rounding to an integer *)

Definition nearest_int (x a b : Z) : Prop :=
  2 * Z.abs (x * b - a) <= b /\ (2 * Z.abs (x * b - a) = b -> Z.even x = true).

Lemma rne_spec w a b : repr w a b -> nearest_int (round_nearest_even (shr_m w) (loc_of_shr_record w)) a b.
Proof.
  intros (Hb & Hm & Ha & Hr & Hs). destruct w as [m r s]. cbn [shr_m shr_r shr_s] in *.
  pose proof (Z.div_mod a b ltac:(lia)) as D. pose proof (Z.mod_pos_bound a b Hb) as R. rewrite <- Hm in D.
  set (t := a mod b) in *. clearbody t. unfold nearest_int.
  destruct (Z.leb_spec b (2 * t)), (Z.eqb_spec t 0), (Z.eqb_spec (2 * t) b); cbn in Hs; subst r s;
    cbn [loc_of_shr_record round_nearest_even]; try lia.
  - destruct (Z.even m) eqn:E.
    + split; [lia|]. intros _. exact E.
    + replace ((m + 1) * b - a) with (b - t) by lia. split; [lia|]. intros _.
      rewrite Z.add_1_r, Z.even_succ, <- Z.negb_even, E. reflexivity.
Qed.

(** ** Digits *)

Lemma digits_bound m : 0 < m -> 2 ^ (Zdigits2 m - 1) <= m < 2 ^ Zdigits2 m.
Proof.
  destruct m as [|p|p]; try lia. intros _. cbn [Zdigits2].
  induction p as [p IH|p IH|]; cbn [digits2_pos]; try (rewrite Pos2Z.inj_succ).
  - replace (Z.succ (Zpos (digits2_pos p)) - 1) with (Z.succ (Zpos (digits2_pos p) - 1)) by lia.
    rewrite !Z.pow_succ_r by lia. lia.
  - replace (Z.succ (Zpos (digits2_pos p)) - 1) with (Z.succ (Zpos (digits2_pos p) - 1)) by lia.
    rewrite !Z.pow_succ_r by lia. lia.
  - cbn. lia.
Qed.
Lemma digits_pos m : 0 < m -> 0 < Zdigits2 m.
Proof. destruct m; cbn; lia. Qed.
Lemma digits_le m k : 0 <= m < 2 ^ k -> 0 <= k -> Zdigits2 m <= k.
Proof.
  intros [H0 H] Hk. destruct (Z.eq_dec m 0) as [->|N]; [exact Hk|].
  destruct (digits_bound m ltac:(lia)) as [L _]. pose proof (digits_pos m ltac:(lia)).
  destruct (Z.le_gt_cases (Zdigits2 m) k) as [|G]; [assumption|].
  assert (2 ^ k <= 2 ^ (Zdigits2 m - 1)) by (apply Z.pow_le_mono_r; lia). lia.
Qed.

Lemma le_digits m k : 0 <= m -> 2 ^ k <= m -> 0 <= k -> k + 1 <= Zdigits2 m.
Proof.
  intros H0 H Hk. assert (0 < 2 ^ k) by (apply Z.pow_pos_nonneg; lia).
  destruct (digits_bound m ltac:(lia)) as [_ L]. pose proof (digits_pos m ltac:(lia)).
  destruct (Z.le_gt_cases (k + 1) (Zdigits2 m)) as [|G]; [assumption|].
  assert (2 ^ Zdigits2 m <= 2 ^ k) by (apply Z.pow_le_mono_r; lia). lia.
Qed.

(** ** Patterns and values *)

Lemma some_eq (A : Type) (x y : A) : Some x = Some y -> x = y.
Proof. congruence. Qed.

Definition sg (s : bool) : Z := if s then -1 else 1.

Lemma scaled_zero s : f32_scaled (bits_of_sf (S754_zero s)) = Some 0.
Proof. destruct s; reflexivity. Qed.

Lemma pattern_fields s e m : 0 <= e < 256 -> 0 <= m < 2 ^ 23 ->
  let x := (if s : bool then 2 ^ 31 else 0) + e * 2 ^ 23 + m in
  (x / 2 ^ 23) mod 2 ^ 8 = e /\ x mod 2 ^ 23 = m /\ (x <? 2 ^ 31) = negb s /\ Z.even x = Z.even m.
Proof.
  intros He Hm x. subst x. change (2 ^ 23) with 8388608 in *. change (2 ^ 31) with (256 * 8388608). change (2 ^ 8) with 256.
  assert (D : ((if s then 256 * 8388608 else 0) + e * 8388608 + m) / 8388608 = (if s then 256 else 0) + e).
  { symmetry. apply Z.div_unique_pos with (r := m); destruct s; lia. }
  split.
  { rewrite D. symmetry. apply Z.mod_unique_pos with (q := if s then 1 else 0); destruct s; lia. }
  split.
  { symmetry. apply Z.mod_unique_pos with (q := (if s then 256 else 0) + e); destruct s; lia. }
  split.
  { destruct s; cbn [negb]; [apply Z.ltb_ge|apply Z.ltb_lt]; lia. }
  rewrite Z.even_add, Z.even_add, Z.even_mul. change (Z.even 8388608) with true.
  rewrite orb_true_r. destruct s; cbn; destruct (Z.even m); reflexivity.
Qed.

Lemma scaled_finite s m e : Zpos m < 2 ^ 24 -> -149 <= e <= 104 -> (Zpos m < 2 ^ 23 -> e = -149) ->
  f32_scaled (bits_of_sf (S754_finite s m e)) = Some (sg s * (Zpos m * 2 ^ (e + 149))) /\
  Z.even (bits_of_sf (S754_finite s m e)) = Z.even (Zpos m).
Proof.
  intros Hm He Hn. unfold bits_of_sf. destruct (Z.ltb_spec (Zpos m) (2 ^ 23)) as [L|L].
  - specialize (Hn L). subst e.
    destruct (pattern_fields s 0 (Zpos m)) as (F1 & F2 & F3 & F4); [lia..|]. rewrite Z.mul_0_l, Z.add_0_r in F1, F2, F3, F4.
    split; [|exact F4]. unfold f32_scaled. rewrite F1, F2, F3. cbn [Z.eqb]. f_equal.
    change (2 ^ (-149 + 149)) with 1. destruct s; cbn [negb sg]; lia.
  - change (2 ^ 24) with (2 ^ 23 + 2 ^ 23) in Hm.
    destruct (pattern_fields s (e + 150) (Zpos m - 2 ^ 23)) as (F1 & F2 & F3 & F4); [lia..|].
    split.
    + unfold f32_scaled. rewrite F1, F2, F3.
      destruct (Z.eqb_spec (e + 150) 255); [lia|]. destruct (Z.eqb_spec (e + 150) 0); [lia|]. f_equal.
      replace (2 ^ 23 + (Zpos m - 2 ^ 23)) with (Zpos m) by ring. replace (e + 150 - 1) with (e + 149) by lia.
      destruct s; reflexivity.
    + rewrite F4. rewrite Z.even_sub. change (Z.even (2 ^ 23)) with true. destruct (Z.even (Zpos m)); reflexivity.
Qed.

Lemma scaled_form y w : 0 <= y < 2 ^ 32 -> f32_scaled y = Some w ->
  exists s M j, w = sg s * (M * 2 ^ j) /\ 0 <= M < 2 ^ 24 /\ 0 <= j.
Proof.
  intros Hy. unfold f32_scaled.
  pose proof (Z.mod_pos_bound y (2 ^ 23) ltac:(lia)) as Rm.
  pose proof (Z.mod_pos_bound (y / 2 ^ 23) (2 ^ 8) ltac:(lia)) as Re.
  set (m := y mod 2 ^ 23) in *. set (e := (y / 2 ^ 23) mod 2 ^ 8) in *. clearbody m e.
  destruct (Z.eqb_spec e 255); [discriminate|]. destruct (Z.eqb_spec e 0); intros H; apply some_eq in H; rewrite <- H; clear H.
  - exists (negb (y <? 2 ^ 31)), m, 0. split; [|lia]. destruct (y <? 2 ^ 31); cbn [negb sg]; lia.
  - exists (negb (y <? 2 ^ 31)), (2 ^ 23 + m), (e - 1). split; [|lia]. destruct (y <? 2 ^ 31); reflexivity.
Qed.

(** ** Nearest *)

(** as in [nearest], for the scaled value [P / Q] *)
Definition near (x : f32) (P Q : Z) : Prop :=
  exists v, f32_scaled x = Some v /\
  forall y w, 0 <= y < 2 ^ 32 -> f32_scaled y = Some w ->
    Z.abs (v * Q - P) <= Z.abs (w * Q - P) /\
    (Z.abs (v * Q - P) = Z.abs (w * Q - P) -> w <> v -> Z.even x = true).

Lemma near_nearest x P Q num den : 0 < Q -> 0 < den -> P * den = num * 2 ^ 149 * Q -> near x P Q -> nearest x num den.
Proof.
  intros HQ Hd E (v & Hv & N). exists v. split; [exact Hv|]. intros y w Hy Hw. destruct (N y w Hy Hw) as [N1 N2].
  set (c := 2 ^ 149) in *. clearbody c.
  assert (S : forall z, Z.abs (z * den - num * c) * Q = Z.abs (z * Q - P) * den).
  { intros z. rewrite <- (Z.abs_eq Q) at 1 by lia. rewrite <- (Z.abs_eq den) at 2 by lia. rewrite <- !Z.abs_mul. f_equal. lia. }
  pose proof (S v) as Sv. pose proof (S w) as Sw. split.
  - apply Z.mul_le_mono_pos_r with (p := Q); [exact HQ|]. rewrite Sv, Sw. apply Z.mul_le_mono_nonneg_r; lia.
  - intros Heq. apply N2. rewrite Heq in Sv. rewrite Sv in Sw. apply Z.mul_reg_r in Sw; lia.
Qed.

Lemma nearest_int_best x a b t : 0 < b -> nearest_int x a b ->
  Z.abs (x * b - a) <= Z.abs (t * b - a) /\ (Z.abs (x * b - a) = Z.abs (t * b - a) -> t <> x -> Z.even x = true).
Proof.
  intros Hb [N1 N2]. destruct (Z.eq_dec t x) as [->|D]; [split; [lia|congruence]|].
  assert (G : b <= Z.abs (t * b - x * b)).
  { rewrite <- Z.mul_sub_distr_r, Z.abs_mul, (Z.abs_eq b) by lia. nia. }
  split; [lia|]. intros E _. apply N2. lia.
Qed.

(** any number is a multiple of [2 ^ F] or less than [2 ^ (23 + F)] *)
Lemma near_of_int x s R F a b : 0 <= F -> 0 < b -> 0 <= a -> nearest_int R a b ->
  f32_scaled x = Some (sg s * (R * 2 ^ F)) -> Z.even x = Z.even R -> (0 < F -> 2 ^ 23 * b <= a) ->
  near x (sg s * (a * 2 ^ F)) b.
Proof.
  intros HF Hb Ha HR Hx He Hbig. eexists. split; [exact Hx|]. intros y w Hy Hw.
  destruct (scaled_form y w Hy Hw) as (s' & M & j & -> & HM & Hj).
  assert (HP : 0 < 2 ^ F) by (apply Z.pow_pos_nonneg; lia).
  assert (EV : Z.abs (sg s * (R * 2 ^ F) * b - sg s * (a * 2 ^ F)) = Z.abs (R * b - a) * 2 ^ F).
  { rewrite <- (Z.abs_eq (2 ^ F)) at 3 by lia. rewrite <- Z.abs_mul.
    destruct s; cbn [sg]; [rewrite <- Z.abs_opp|]; f_equal; ring. }
  rewrite EV, He. destruct (Z.le_gt_cases F j) as [L|L].
  - pose (t := sg s * (sg s' * (M * 2 ^ (j - F)))).
    assert (Ht : sg s' * (M * 2 ^ j) = sg s * (t * 2 ^ F)).
    { subst t. replace j with (j - F + F) at 1 by lia. rewrite Z.pow_add_r by lia. destruct s, s'; cbn [sg]; ring. }
    rewrite Ht.
    assert (EW : Z.abs (sg s * (t * 2 ^ F) * b - sg s * (a * 2 ^ F)) = Z.abs (t * b - a) * 2 ^ F).
    { rewrite <- (Z.abs_eq (2 ^ F)) at 3 by lia. rewrite <- Z.abs_mul.
      destruct s; cbn [sg]; [rewrite <- Z.abs_opp|]; f_equal; ring. }
    rewrite EW. destruct (nearest_int_best R a b t Hb HR) as [B1 B2]. split.
    + apply Z.mul_le_mono_nonneg_r; lia.
    + intros E D. apply B2; [apply Z.mul_reg_r in E; lia|]. intros ->. apply D. reflexivity.
  - specialize (Hbig ltac:(lia)).
    destruct (nearest_int_best R a b (2 ^ 23) Hb HR) as [B1 _].
    assert (W : M * 2 ^ j < 2 ^ 23 * 2 ^ F).
    { replace F with (j + 1 + (F - j - 1)) by lia. rewrite !Z.pow_add_r by lia.
      assert (1 <= 2 ^ (F - j - 1)) by (apply (Z.pow_le_mono_r 2 0); lia).
      assert (0 < 2 ^ j) by (apply Z.pow_pos_nonneg; lia). change (2 ^ 24) with (2 ^ 23 * 2 ^ 1) in HM.
      change (2 ^ 1) with 2 in *. set (u := 2 ^ 23) in *. assert (0 < u) by (subst u; reflexivity). clearbody u.
      set (g := 2 ^ j) in *. set (h := 2 ^ (F - j - 1)) in *. clearbody g h.
      apply Z.lt_le_trans with (u * 2 * g); [apply Z.mul_lt_mono_pos_r; lia|].
      replace (u * (g * 2 * h)) with (u * 2 * g * h) by ring. nia. }
    assert (0 <= M * 2 ^ j) by (apply Z.mul_nonneg_nonneg; [lia|apply Z.pow_nonneg; lia]).
    set (u := 2 ^ 23) in *. set (q := M * 2 ^ j) in *. set (g := 2 ^ F) in *. clearbody u q g.
    assert (G : Z.abs (R * b - a) * g < Z.abs (sg s' * q * b - sg s * (a * g))).
    { apply Z.le_lt_trans with (Z.abs (u * b - a) * g); [apply Z.mul_le_mono_nonneg_r; lia|].
      rewrite (Z.abs_neq (u * b - a)) by lia.
      assert (q * b < u * g * b) by (apply Z.mul_lt_mono_pos_r; lia).
      assert (0 <= q * b) by (apply Z.mul_nonneg_nonneg; lia).
      replace (- (u * b - a) * g) with (a * g - u * g * b) by ring.
      destruct s, s'; cbn [sg]; lia. }
    split; lia.
Qed.

(** ** Rounding a located number *)

(** a finite number in canonical form and its value times [2 ^ 149] *)
Definition fin (f : spec_float) (v : Z) : Prop :=
  match f with
  | S754_zero _ => v = 0
  | S754_finite s m e => Zpos m < 2 ^ 24 /\ -149 <= e <= 104 /\ (Zpos m < 2 ^ 23 -> e = -149) /\
      v = sg s * (Zpos m * 2 ^ (e + 149))
  | _ => False
  end.

Lemma fin_scaled f v : fin f v -> f32_scaled (bits_of_sf f) = Some v.
Proof.
  destruct f as [s|s| |s m e]; cbn [fin]; try contradiction.
  - intros ->. apply scaled_zero.
  - intros (H1 & H2 & H3 & ->). apply scaled_finite; assumption.
Qed.

Definition fx (e : Z) : Z := Z.max (e - 24) (-149).
Lemma fexp_fx e : fexp 24 128 e = fx e.
Proof. reflexivity. Qed.

(** the second adjustment only undoes a carry *)
Lemma finish s R E : 0 <= R <= 2 ^ 24 -> -149 <= E <= 103 -> (-149 < E -> 2 ^ 23 <= R) ->
  let f := let '(w, e) := shr_fexp 24 128 R E loc_Exact in
    match shr_m w with
    | Z0 => S754_zero s
    | Zpos m => if Zle_bool e (128 - 24) then S754_finite s m e else S754_infinity s
    | _ => S754_nan
    end in
  fin f (sg s * (R * 2 ^ (E + 149))) /\ Z.even (bits_of_sf f) = Z.even R.
Proof.
  intros HR HE HB. unfold shr_fexp. rewrite fexp_fx. cbn [shr_record_of_loc].
  destruct (Z.eq_dec R (2 ^ 24)) as [->|N].
  - replace (fx (Zdigits2 (2 ^ 24) + E) - E) with 1 by (unfold fx; change (Zdigits2 (2 ^ 24)) with 25; lia).
    change (shr {| shr_m := 2 ^ 24; shr_r := false; shr_s := false |} E 1)
      with ({| shr_m := 2 ^ 23; shr_r := false; shr_s := false |}, E + 1).
    cbv beta iota zeta. cbn [shr_m]. change (2 ^ 23) with (Zpos 8388608).
    destruct (Zle_bool (E + 1) (128 - 24)) eqn:L; [|apply Z.leb_gt in L; lia].
    destruct (scaled_finite s 8388608 (E + 1)) as [F1 F2]; [reflexivity|lia|intros C; vm_compute in C; discriminate|].
    rewrite F2. split; [|reflexivity]. cbn [fin].
    split; [reflexivity|]. split; [lia|]. split; [intros C; vm_compute in C; discriminate|]. f_equal.
    replace (E + 1 + 149) with (1 + (E + 149)) by lia. rewrite (Z.pow_add_r 2 1) by lia. change (2 ^ 24) with (8388608 * 2 ^ 1). ring.
  - assert (D : Zdigits2 R <= 24) by (apply digits_le; lia).
    assert (S : forall w n, n <= 0 -> shr w E n = (w, E)) by (intros w [|p|p] Hn; [reflexivity|lia|reflexivity]).
    rewrite S by (unfold fx; lia). cbv beta iota zeta. cbn [shr_m].
    destruct R as [|m|m]; [|clear N|lia].
    + split; [cbn [fin]; destruct s; reflexivity|destruct s; reflexivity].
    + destruct (Zle_bool E (128 - 24)) eqn:L; [|apply Z.leb_gt in L; lia].
      assert (Hm : Zpos m < 2 ^ 24).
      { assert (Zpos m <> 2 ^ 24 \/ Zpos m = 2 ^ 24) as [?|C] by lia; [lia|].
        rewrite C in D. vm_compute in D. exfalso. apply D. reflexivity. }
      split; [|apply scaled_finite; lia]. cbn [fin]. repeat split; lia.
Qed.

Lemma round_aux_fin s m e l a b : repr (shr_record_of_loc m l) a b ->
  let E := fx (Zdigits2 m + e) in e <= E -> E <= 103 ->
  (exists v, fin (binary_round_aux 24 128 s m e l) v) /\
  near (bits_of_sf (binary_round_aux 24 128 s m e l)) (sg s * (a * 2 ^ (E + 149))) (2 ^ (E - e) * b).
Proof.
  intros H E He HE. remember (binary_round_aux 24 128 s m e l) as f eqn:Hf. assert (E149 : -149 <= E) by (subst E; unfold fx; lia).
  assert (Hm : m = a / b) by (destruct H as (_ & Hm & _); destruct l as [|[]]; exact Hm).
  assert (Hb : 0 < b) by apply H. assert (Ha : 0 <= a) by apply H.
  destruct (repr_shr _ a b e (E - e) H) as [S1 S2]. rewrite Z.max_r in S1, S2 by lia.
  unfold binary_round_aux in Hf. unfold shr_fexp at 1 in Hf. rewrite fexp_fx in Hf. fold E in Hf.
  destruct (shr (shr_record_of_loc m l) e (E - e)) as [w1 e1]. cbn [fst snd] in S1, S2.
  replace e1 with E in Hf by lia. clear S2 e1. cbv beta iota zeta in Hf.
  pose proof (rne_spec w1 _ _ S1) as N. set (R := round_nearest_even (shr_m w1) (loc_of_shr_record w1)) in *.
  set (B := 2 ^ (E - e) * b) in *.
  assert (P : 0 < 2 ^ (E - e)) by (apply Z.pow_pos_nonneg; lia).
  assert (HB : 0 < B) by (subst B; apply Z.mul_pos_pos; lia).
  pose proof (Z.div_mod a b ltac:(lia)) as D. pose proof (Z.mod_pos_bound a b Hb) as M. rewrite <- Hm in D.
  assert (0 <= m) by (rewrite Hm; apply Z.div_pos; lia).
  assert (Up : a < 2 ^ 24 * B).
  { assert (m < 2 ^ (24 + (E - e))).
    { destruct (Z.eq_dec m 0) as [->|]; [apply Z.pow_pos_nonneg; lia|].
      destruct (digits_bound m ltac:(lia)) as [_ L]. pose proof (digits_pos m ltac:(lia)).
      eapply Z.lt_le_trans; [exact L|]. apply Z.pow_le_mono_r; [lia|]. subst E. unfold fx. lia. }
    subst B. rewrite Z.mul_assoc, <- Z.pow_add_r by lia. set (q := 2 ^ (24 + (E - e))) in *. clearbody q. nia. }
  assert (Lo : -149 < E -> 2 ^ 23 * B <= a).
  { intros HE'. assert (Ed : E = Zdigits2 m + e - 24) by (subst E; unfold fx in *; lia).
    destruct (Z.eq_dec m 0) as [Z0|]; [rewrite Z0 in Ed; cbn in Ed; lia|].
    destruct (digits_bound m ltac:(lia)) as [L _]. subst B. rewrite Z.mul_assoc, <- Z.pow_add_r by lia.
    replace (23 + (E - e)) with (Zdigits2 m - 1) by lia. set (q := 2 ^ (Zdigits2 m - 1)) in *. clearbody q. nia. }
  clearbody B.
  assert (HR : 0 <= R <= 2 ^ 24).
  { destruct N as [N _]. set (u := 2 ^ 24) in *. clearbody u R. split; nia. }
  assert (HR2 : -149 < E -> 2 ^ 23 <= R).
  { intros HE'. specialize (Lo HE'). destruct N as [N _]. set (u := 2 ^ 23) in *. clearbody u R. nia. }
  destruct (finish s R E HR ltac:(lia) HR2) as [F1 F2]. cbv beta zeta in F1, F2. fold R in Hf. rewrite <- Hf in F1, F2. clear Hf. split; [eexists; exact F1|]. apply fin_scaled in F1.
  eapply near_of_int; [lia|exact HB|exact Ha|exact N|exact F1|exact F2|].
  intros HF. apply Lo. lia.
Qed.
Lemma round_aux_near s m e l a b : repr (shr_record_of_loc m l) a b ->
  let E := fx (Zdigits2 m + e) in e <= E -> E <= 103 ->
  near (bits_of_sf (binary_round_aux 24 128 s m e l)) (sg s * (a * 2 ^ (E + 149))) (2 ^ (E - e) * b).
Proof. intros H E H1 H2. exact (proj2 (round_aux_fin s m e l a b H H1 H2)). Qed.

(** ** Division *)

Lemma repr_location a b : 0 <= a -> 0 < b -> repr (shr_record_of_loc (a / b) (new_location b (a mod b))) a b.
Proof.
  intros Ha Hb. pose proof (Z.mod_pos_bound a b Hb) as M. unfold repr.
  assert (Q : new_location b (a mod b) = if a mod b =? 0 then loc_Exact else loc_Inexact (Z.compare (2 * (a mod b)) b)).
  { unfold new_location, new_location_even, new_location_odd. set (t := a mod b) in *. clearbody t.
    destruct (Z.even b) eqn:Ev; destruct (Z.eqb_spec t 0) as [->|Nz].
    - reflexivity.
    - destruct (Zeq_bool t 0) eqn:Z0; [apply Zeq_bool_eq in Z0; contradiction|]. reflexivity.
    - reflexivity.
    - destruct (Zeq_bool t 0) eqn:Z0; [apply Zeq_bool_eq in Z0; contradiction|]. f_equal.
      assert (b <> 2 * t) by (intros ->; rewrite Z.even_mul in Ev; discriminate).
      destruct (Z.compare_spec (2 * t + 1) b), (Z.compare_spec (2 * t) b); try reflexivity; lia. }
  rewrite Q. set (t := a mod b) in *. clearbody t.
  destruct (Z.eqb_spec t 0) as [->|Nz]; [|destruct (Z.compare_spec (2 * t) b)]; cbn [shr_record_of_loc shr_m shr_r shr_s];
    (split; [exact Hb|]); (split; [reflexivity|]); (split; [exact Ha|]).
  - destruct (Z.leb_spec b (2 * 0)); [lia|]. split; reflexivity.
  - destruct (Z.leb_spec b (2 * t)); [|lia]. destruct (Z.eqb_spec (2 * t) b); [|lia]. split; reflexivity.
  - destruct (Z.leb_spec b (2 * t)); [lia|]. destruct (Z.eqb_spec (2 * t) b); [lia|]. split; reflexivity.
  - destruct (Z.leb_spec b (2 * t)); [|lia]. destruct (Z.eqb_spec (2 * t) b); [lia|]. split; reflexivity.
Qed.

Lemma quotient_digits a b da db : 0 < b < 2 ^ db -> 2 ^ (da - 1) <= a -> 0 < a -> 0 <= db -> da - db <= Zdigits2 (a / b).
Proof.
  intros [Hb Hb'] Ha Ha' Hd. assert (0 <= a / b) by (apply Z.div_pos; lia).
  destruct (Z.le_gt_cases (da - db) 0).
  - destruct (Z.eq_dec (a / b) 0) as [->|]; [cbn; lia|]. pose proof (digits_pos (a / b) ltac:(lia)). lia.
  - replace (da - db) with (da - db - 1 + 1) by lia. apply le_digits; [lia| |lia].
    apply Z.div_le_lower_bound; [lia|].
    replace (da - 1) with (db + (da - db - 1)) in Ha by lia. rewrite Z.pow_add_r in Ha by lia.
    set (u := 2 ^ (da - db - 1)) in *. assert (0 < u) by (subst u; apply Z.pow_pos_nonneg; lia). clearbody u. nia.
Qed.
Lemma quotient_digits_le a b da db : 2 ^ (db - 1) <= b -> 0 <= a < 2 ^ da -> 1 <= db -> 0 <= da -> Zdigits2 (a / b) <= Z.max 0 (da - db + 1).
Proof.
  intros Hb Ha Hd Hda. assert (0 < 2 ^ (db - 1)) by (apply Z.pow_pos_nonneg; lia).
  assert (0 <= a / b) by (apply Z.div_pos; lia). apply digits_le; [|lia]. split; [lia|].
  apply Z.div_lt_upper_bound; [lia|].
  destruct (Z.le_gt_cases (da - db + 1) 0).
  - rewrite Z.max_l by lia. change (2 ^ 0) with 1.
    assert (2 ^ da <= 2 ^ (db - 1)) by (apply Z.pow_le_mono_r; lia). lia.
  - rewrite Z.max_r by lia. replace da with (db - 1 + (da - db + 1)) in Ha by lia. rewrite Z.pow_add_r in Ha by lia.
    set (u := 2 ^ (da - db + 1)) in *. assert (0 < u) by (subst u; apply Z.pow_pos_nonneg; lia). clearbody u. nia.
Qed.

(** the quotient of two finite numbers that is not too large is correctly rounded *)
Theorem div_fin s mx ex s' my ey j :
  Zdigits2 (Zpos mx) + ex - (Zdigits2 (Zpos my) + ey) <= 126 -> 0 <= ex + j -> 0 <= ey + j ->
  (exists v, fin (SFdiv 24 128 (S754_finite s mx ex) (S754_finite s' my ey)) v) /\
  nearest (bits_of_sf (SFdiv 24 128 (S754_finite s mx ex) (S754_finite s' my ey)))
    (sg (xorb s s') * (Zpos mx * 2 ^ (ex + j))) (Zpos my * 2 ^ (ey + j)).
Proof.
  intros Hbig Hx Hy. cbn [SFdiv]. unfold SFdiv_core_binary. rewrite fexp_fx.
  set (d1 := Zdigits2 (Zpos mx)) in *. set (d2 := Zdigits2 (Zpos my)) in *.
  set (e' := Z.min (fx (d1 + ex - (d2 + ey))) (ex - ey)). set (t := ex - ey - e').
  assert (Ht : 0 <= t) by (subst t e'; lia).
  replace (match t with Z0 => Zpos mx | Zpos _ => Z.shiftl (Zpos mx) t | Zneg _ => 0 end) with (Zpos mx * 2 ^ t).
  2: { destruct t eqn:Et; [change (2 ^ 0) with 1; lia|symmetry; apply Z.shiftl_mul_pow2; lia|lia]. }
  assert (Pt : 0 < 2 ^ t) by (apply Z.pow_pos_nonneg; lia).
  pose proof (digits_bound (Zpos mx) ltac:(lia)) as [L1 U1]. pose proof (digits_bound (Zpos my) ltac:(lia)) as [L2 U2].
  pose proof (digits_pos (Zpos mx) ltac:(lia)) as G1. pose proof (digits_pos (Zpos my) ltac:(lia)) as G2.
  fold d1 in L1, U1, G1. fold d2 in L2, U2, G2. clearbody d1 d2.
  set (a := Zpos mx * 2 ^ t). assert (Ha : 0 < a) by (subst a; lia).
  assert (La : 2 ^ (d1 + t - 1) <= a).
  { replace (d1 + t - 1) with (d1 - 1 + t) by lia. rewrite Z.pow_add_r by lia. apply Z.mul_le_mono_nonneg_r; lia. }
  assert (Ua : a < 2 ^ (d1 + t)).
  { rewrite Z.pow_add_r by lia. apply Z.mul_lt_mono_pos_r; lia. }
  pose proof (quotient_digits a (Zpos my) (d1 + t) d2 ltac:(lia) La Ha ltac:(lia)) as Q1.
  pose proof (quotient_digits_le a (Zpos my) (d1 + t) d2 L2 ltac:(lia) ltac:(lia) ltac:(lia)) as Q2.
  pose proof (repr_location a (Zpos my) ltac:(lia) ltac:(lia)) as R.
  unfold Z.modulo, Z.div in Q1, Q2, R. destruct (Z.div_eucl a (Zpos my)) as [q r].
  cbv beta iota zeta.
  assert (B1 : e' <= fx (Zdigits2 q + e')) by (subst t e'; unfold fx in *; lia).
  assert (B2 : fx (Zdigits2 q + e') <= 103) by (subst t e'; unfold fx in *; lia).
  destruct (round_aux_fin (xorb s s') q e' _ a (Zpos my) R B1 B2) as [FN N]. split; [exact FN|]. clear FN. cbv beta zeta in N.
  set (E := fx (Zdigits2 q + e')) in *. assert (-149 <= E) by (subst E; unfold fx; lia). clearbody E.
  assert (0 < 2 ^ (E - e')) by (apply Z.pow_pos_nonneg; lia). assert (0 < 2 ^ (ey + j)) by (apply Z.pow_pos_nonneg; lia).
  refine (near_nearest _ _ _ _ _ _ _ _ N); [lia|lia|].
  subst a. replace (sg (xorb s s') * (Zpos mx * 2 ^ t * 2 ^ (E + 149)) * (Zpos my * 2 ^ (ey + j)))
    with (sg (xorb s s') * Zpos mx * Zpos my * (2 ^ t * 2 ^ (E + 149) * 2 ^ (ey + j))) by ring.
  replace (sg (xorb s s') * (Zpos mx * 2 ^ (ex + j)) * 2 ^ 149 * (2 ^ (E - e') * Zpos my))
    with (sg (xorb s s') * Zpos mx * Zpos my * (2 ^ (ex + j) * 2 ^ 149 * 2 ^ (E - e'))) by ring.
  f_equal. rewrite <- !Z.pow_add_r by lia. f_equal. subst t. lia.
Qed.
Theorem div_nearest s mx ex s' my ey j :
  Zdigits2 (Zpos mx) + ex - (Zdigits2 (Zpos my) + ey) <= 126 -> 0 <= ex + j -> 0 <= ey + j ->
  nearest (bits_of_sf (SFdiv 24 128 (S754_finite s mx ex) (S754_finite s' my ey)))
    (sg (xorb s s') * (Zpos mx * 2 ^ (ex + j))) (Zpos my * 2 ^ (ey + j)).
Proof. intros H1 H2 H3. exact (proj2 (div_fin s mx ex s' my ey j H1 H2 H3)). Qed.

Lemma nearest_scale x num den c : 0 < c -> nearest x (num * c) (den * c) -> nearest x num den.
Proof.
  intros Hc (v & Hv & N). exists v. split; [exact Hv|]. intros y w Hy Hw. destruct (N y w Hy Hw) as [N1 N2].
  set (k := 2 ^ 149) in *. clearbody k.
  assert (S : forall z, Z.abs (z * (den * c) - num * c * k) = Z.abs (z * den - num * k) * c).
  { intros z. rewrite <- (Z.abs_eq c) at 3 by lia. rewrite <- Z.abs_mul. f_equal. ring. }
  rewrite !S in N1, N2. split.
  - apply Z.mul_le_mono_pos_r with (p := c); assumption.
  - intros E. apply N2. rewrite E. reflexivity.
Qed.

(** ** Small integers *)

Lemma shift_pos_pow k m : Zpos (shift_pos k m) = Zpos m * 2 ^ Zpos k.
Proof. rewrite shift_pos_correct. apply Z.mul_comm. Qed.

Lemma round_small s m : Zpos m < 2 ^ 24 -> exists m' k, 0 <= k <= 23 /\ Zpos m' = Zpos m * 2 ^ k /\
  Zdigits2 (Zpos m') = 24 /\ binary_round 24 128 s m 0 = S754_finite s m' (- k).
Proof.
  intros Hm. unfold binary_round. rewrite fexp_fx.
  change (Zpos (digits2_pos m)) with (Zdigits2 (Zpos m)).
  pose proof (digits_bound (Zpos m) ltac:(lia)) as [L U]. pose proof (digits_pos (Zpos m) ltac:(lia)) as G.
  pose proof (digits_le (Zpos m) 24 ltac:(lia) ltac:(lia)) as D.
  set (d := Zdigits2 (Zpos m)) in *. pose (k := 24 - d).
  assert (exists m', shl_align m 0 (fx (d + 0)) = (m', - k) /\ Zpos m' = Zpos m * 2 ^ k) as (m' & E & Hm').
  { replace (fx (d + 0)) with (- k) by (subst k; unfold fx; lia). unfold shl_align.
    assert (0 <= k) by (subst k; lia). clearbody k. destruct k as [|p|p]; [| |lia].
    - exists m. split; [reflexivity|]. change (2 ^ 0) with 1. lia.
    - exists (shift_pos p m). split; [reflexivity|]. apply shift_pos_pow. }
  exists m', k. rewrite E. split; [subst k; lia|]. split; [exact Hm'|].
  assert (0 < 2 ^ k) by (apply Z.pow_pos_nonneg; subst k; lia).
  assert (D' : Zdigits2 (Zpos m') = 24).
  { apply Z.le_antisymm.
    - apply digits_le; [|lia]. split; [lia|]. rewrite Hm'. replace 24 with (d + k) by (subst k; lia).
      rewrite Z.pow_add_r by (subst k; lia). apply Z.mul_lt_mono_pos_r; lia.
    - change 24 with (23 + 1). apply le_digits; [lia| |lia]. rewrite Hm'. replace 23 with (d - 1 + k) by (subst k; lia).
      rewrite Z.pow_add_r by (subst k; lia). apply Z.mul_le_mono_nonneg_r; lia. }
  split; [exact D'|].
  assert (S : shr_fexp 24 128 (Zpos m') (- k) loc_Exact = ({| shr_m := Zpos m'; shr_r := false; shr_s := false |}, - k)).
  { unfold shr_fexp. rewrite fexp_fx, D'. replace (fx (24 + - k) - - k) with 0 by (unfold fx; subst k; lia). reflexivity. }
  unfold binary_round_aux. rewrite S. cbv beta iota zeta. cbn [shr_m].
  change (round_nearest_even (Zpos m') (loc_of_shr_record {| shr_m := Zpos m'; shr_r := false; shr_s := false |})) with (Zpos m').
  rewrite S. cbv beta iota zeta. cbn [shr_m].
  destruct (Zle_bool (- k) (128 - 24)) eqn:Le; [reflexivity|]. apply Z.leb_gt in Le. subst k. lia.
Qed.

Theorem quotient_100 n : Z.abs n < 2 ^ 24 ->
  nearest (bits_of_sf (SFdiv 24 128 (binary_normalize 24 128 n 0 false) (binary_normalize 24 128 100 0 false))) n 100.
Proof.
  intros Hn. change (binary_normalize 24 128 100 0 false) with (S754_finite false 13107200 (-17)).
  destruct n as [|m|m].
  - exists 0. split; [reflexivity|]. intros y w _ _. rewrite !Z.mul_0_l, !Z.sub_0_r. change (Z.abs 0) with 0. split; [lia|]. intros E D. lia.
  - cbn [binary_normalize]. destruct (round_small false m ltac:(lia)) as (m' & k & Hk & Hm' & D & ->).
    pose proof (div_nearest false m' (- k) false 13107200 (-17) 24) as N.
    rewrite D in N. change (Zdigits2 13107200) with 24 in N. specialize (N ltac:(lia) ltac:(lia) ltac:(lia)).
    apply (nearest_scale _ _ _ (2 ^ 24)); [reflexivity|]. change (13107200 * 2 ^ (-17 + 24)) with (100 * 2 ^ 24) in N.
    replace (sg (xorb false false) * (Zpos m' * 2 ^ (- k + 24))) with (Zpos m * 2 ^ 24) in N; [exact N|].
    cbn [xorb sg]. rewrite Hm', Z.mul_1_l, <- Z.mul_assoc, <- Z.pow_add_r by lia. do 2 f_equal. lia.
  - cbn [binary_normalize]. destruct (round_small true m ltac:(lia)) as (m' & k & Hk & Hm' & D & ->).
    pose proof (div_nearest true m' (- k) false 13107200 (-17) 24) as N.
    rewrite D in N. change (Zdigits2 13107200) with 24 in N. specialize (N ltac:(lia) ltac:(lia) ltac:(lia)).
    apply (nearest_scale _ _ _ (2 ^ 24)); [reflexivity|]. change (13107200 * 2 ^ (-17 + 24)) with (100 * 2 ^ 24) in N.
    replace (sg (xorb true false) * (Zpos m' * 2 ^ (- k + 24))) with (Zneg m * 2 ^ 24) in N; [exact N|].
    cbn [xorb sg]. rewrite Hm', <- Z.mul_assoc, <- Z.pow_add_r by lia. replace (k + (- k + 24)) with 24 by lia. lia.
Qed.
