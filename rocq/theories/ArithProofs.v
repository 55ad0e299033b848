(** * Proofs: errors of binary32 operations

    A number stands for its value times [2 ^ 149], an integer.  The results of
    the operations of F32.v on small numbers are nearest to the exact results,
    and thus near them. *)

From Coq Require Import ZArith Bool Lia Floats.SpecFloat.
From Verif Require Import Base F32 SpecFacts SpecRound RoundProofs.
Open Scope Z_scope.

(** ** Representable numbers *)

Lemma fin_range f v : fin f v -> 0 <= bits_of_sf f < 2 ^ 32.
Proof.
  destruct f as [s|s| |s m e]; cbn [fin]; try contradiction.
  - intros _. destruct s; vm_compute; split; congruence.
  - intros (H1 & H2 & H3 & _). unfold bits_of_sf.
    change (2 ^ 23) with 8388608 in *. change (2 ^ 31) with 2147483648. change (2 ^ 32) with 4294967296. change (2 ^ 24) with 16777216 in *.
    destruct (Z.ltb_spec (Zpos m) 8388608), s; lia.
Qed.

Lemma sg_mul s x : Z.abs (sg s * x) = Z.abs x.
Proof. destruct s; cbn [sg]; lia. Qed.

Lemma grid_pos s m h : Zpos m < 2 ^ 24 -> 0 <= h <= 252 -> exists f, fin f (sg s * (Zpos m * 2 ^ h)).
Proof.
  intros Hm Hh. pose proof (digits_bound (Zpos m) ltac:(lia)) as [L U]. pose proof (digits_pos (Zpos m) ltac:(lia)) as G.
  pose proof (digits_le (Zpos m) 24 ltac:(lia) ltac:(lia)) as D.
  set (d := Zdigits2 (Zpos m)) in *. clearbody d.
  pose (k := Z.min (24 - d) h). assert (Hk : 0 <= k) by (subst k; lia).
  assert (Pk : 0 < 2 ^ k) by (apply Z.pow_pos_nonneg; lia).
  assert (exists m', Zpos m' = Zpos m * 2 ^ k) as (m' & Em').
  { destruct (Zpos m * 2 ^ k) as [|p|p] eqn:E; [lia|eauto|lia]. }
  exists (S754_finite s m' (h - k - 149)). cbn [fin]. rewrite Em'.
  split.
  { apply Z.lt_le_trans with (2 ^ (d + k)).
    - rewrite Z.pow_add_r by lia. apply Z.mul_lt_mono_pos_r; lia.
    - apply Z.pow_le_mono_r; subst k; lia. }
  split; [subst k; lia|]. split.
  - intros C. destruct (Z.le_gt_cases (24 - d) h) as [Q|Q]; [|subst k; lia].
    exfalso. assert (2 ^ 23 <= Zpos m * 2 ^ k); [|lia].
    replace 23 with (d - 1 + k) by (subst k; lia). rewrite Z.pow_add_r by lia. apply Z.mul_le_mono_nonneg_r; lia.
  - f_equal. rewrite <- Z.mul_assoc, <- Z.pow_add_r by (subst k; lia). do 2 f_equal. lia.
Qed.

Lemma grid t h : Z.abs t <= 2 ^ 24 -> 0 <= h <= 251 -> exists f, fin f (t * 2 ^ h).
Proof.
  intros Ht Hh. destruct (Z.eq_dec (Z.abs t) (2 ^ 24)) as [E|N].
  - destruct (grid_pos (t <? 0) 8388608 (h + 1)) as (f & F); [reflexivity|lia|]. exists f.
    replace (t * 2 ^ h) with (sg (t <? 0) * (8388608 * 2 ^ (h + 1))); [exact F|].
    rewrite Z.pow_add_r by lia. change (2 ^ 1) with 2. change (2 ^ 24) with 16777216 in *.
    destruct (Z.ltb_spec t 0); cbn [sg]; [replace t with (-16777216) by lia|replace t with 16777216 by lia]; ring.
  - destruct t as [|p|p].
    + exists (S754_zero false). reflexivity.
    + destruct (grid_pos false p h) as (f & F); [lia|lia|]. exists f.
      replace (Zpos p * 2 ^ h) with (sg false * (Zpos p * 2 ^ h)) by (change (sg false) with 1; ring). exact F.
    + destruct (grid_pos true p h) as (f & F); [lia|lia|]. exists f.
      replace (Zneg p * 2 ^ h) with (sg true * (Zpos p * 2 ^ h)) by (change (sg true) with (-1); change (Zneg p) with (- Zpos p); ring). exact F.
Qed.

(** ** Nearest to [P / Q] *)

Definition rnd (f : spec_float) (P Q : Z) : Prop :=
  0 < Q /\ exists v, fin f v /\ forall g w, fin g w -> Z.abs (v * Q - P) <= Z.abs (w * Q - P).

Lemma rnd_near f v P Q : 0 < Q -> fin f v -> near (bits_of_sf f) P Q -> rnd f P Q.
Proof.
  intros HQ F (v' & E & N). split; [exact HQ|]. exists v. split; [exact F|]. intros g w G.
  rewrite (fin_scaled _ _ F) in E. apply some_eq in E. subst v'.
  apply (N (bits_of_sf g) w); [apply (fin_range g w), G|apply fin_scaled, G].
Qed.

Lemma rnd_exact f v P Q : 0 < Q -> fin f v -> P = v * Q -> rnd f P Q.
Proof.
  intros HQ F ->. split; [exact HQ|]. exists v. split; [exact F|]. intros g w _. rewrite Z.sub_diag. apply Z.abs_nonneg.
Qed.

Lemma rnd_scale f P Q P' Q' : 0 < Q' -> P * Q' = P' * Q -> rnd f P Q -> rnd f P' Q'.
Proof.
  intros HQ' E (HQ & v & F & N). split; [exact HQ'|]. exists v. split; [exact F|]. intros g w G. specialize (N g w G).
  assert (S : forall z, Z.abs (z * Q - P) * Q' = Z.abs (z * Q' - P') * Q).
  { intros z. rewrite <- (Z.abs_eq Q') at 1 by lia. rewrite <- (Z.abs_eq Q) at 2 by lia. rewrite <- !Z.abs_mul. f_equal.
    rewrite !Z.mul_sub_distr_r, E. ring. }
  pose proof (S v) as Sv. pose proof (S w) as Sw.
  apply Z.mul_le_mono_pos_r with (p := Q); [exact HQ|]. rewrite <- Sv, <- Sw. apply Z.mul_le_mono_nonneg_r; lia.
Qed.

(** within half of the last place of numbers up to [2 ^ j], and not beyond *)
Lemma rnd_error f P Q j : rnd f P Q -> -125 <= j <= 100 -> Z.abs P <= 2 ^ (149 + j) * Q ->
  exists v, fin f v /\ 2 * Z.abs (v * Q - P) <= 2 ^ (125 + j) * Q /\ Z.abs v <= 2 ^ (149 + j) /\ (0 <= P -> 0 <= v) /\ (P <= 0 -> v <= 0).
Proof.
  intros (HQ & v & F & N) Hj HP. exists v. split; [exact F|].
  replace (149 + j) with (24 + (125 + j)) in * by lia. set (h := 125 + j) in *.
  assert (Hh : 0 <= h <= 251) by (subst h; lia). clearbody h. clear Hj.
  rewrite Z.pow_add_r in * by lia. change (2 ^ 24) with 16777216 in *.
  assert (Hu : 0 < 2 ^ h) by (apply Z.pow_pos_nonneg; lia).
  assert (G : forall t, Z.abs t <= 16777216 -> Z.abs (v * Q - P) <= Z.abs (t * 2 ^ h * Q - P)).
  { intros t Ht. destruct (grid t h Ht Hh) as (g & Fg). exact (N g _ Fg). }
  set (u := 2 ^ h) in *. clearbody u. clear N F.
  split; [|split; [|split]].
  - pose (t := (2 * P + u * Q) / (2 * (u * Q))).
    assert (HuQ : 0 < u * Q) by (apply Z.mul_pos_pos; lia).
    pose proof (Z.div_mod (2 * P + u * Q) (2 * (u * Q)) ltac:(lia)) as D.
    pose proof (Z.mod_pos_bound (2 * P + u * Q) (2 * (u * Q)) ltac:(lia)) as M. fold t in D.
    set (x := u * Q) in *. set (y := (2 * P + x) mod (2 * x)) in *. clearbody y t.
    assert (Z.abs P <= 16777216 * x) by (subst x; lia).
    assert (Ht : Z.abs t <= 16777216) by (clear G; clearbody x; nia).
    specialize (G t Ht). replace (t * u * Q) with (t * x) in G by (subst x; ring). clearbody x.
    replace (t * x - P) with ((x - y) * 1 - (t * x - P)) in G by nia. nia.
  - pose proof (G 16777216 ltac:(lia)) as G1. pose proof (G (-16777216) ltac:(lia)) as G2.
    destruct (Z.le_gt_cases (Z.abs v) (16777216 * u)) as [|C]; [assumption|exfalso].
    assert (v > 16777216 * u \/ v < - (16777216 * u)) as [C1|C1] by lia.
    + assert (16777216 * u * Q < v * Q) by (apply Z.mul_lt_mono_pos_r; lia). lia.
    + assert (v * Q < - (16777216 * u) * Q) by (apply Z.mul_lt_mono_pos_r; lia). lia.
  - intros H0. pose proof (G 0 ltac:(lia)) as G0. nia.
  - intros H0. pose proof (G 0 ltac:(lia)) as G0. nia.
Qed.

(** ** Rounding exact numbers *)

Lemma repr_exact m : 0 <= m -> repr (shr_record_of_loc m loc_Exact) m 1.
Proof.
  intros Hm. unfold repr. cbn [shr_record_of_loc shr_m shr_r shr_s]. rewrite Z.div_1_r, Z.mod_1_r.
  repeat split; lia.
Qed.

Lemma round_aux_rnd s m e j : 0 <= m -> 0 <= e + j -> 149 <= j ->
  e <= fx (Zdigits2 m + e) -> fx (Zdigits2 m + e) <= 103 ->
  rnd (binary_round_aux 24 128 s m e loc_Exact) (sg s * (m * 2 ^ (e + j))) (2 ^ (j - 149)).
Proof.
  intros Hm Hj Hj' H1 H2. destruct (round_aux_fin s m e loc_Exact m 1 (repr_exact m Hm) H1 H2) as [(v & F) N].
  set (E := fx (Zdigits2 m + e)) in *. assert (-149 <= E) by (subst E; unfold fx; lia). clearbody E.
  rewrite Z.mul_1_r in N. apply (rnd_near _ v) in N; [|apply Z.pow_pos_nonneg; lia|exact F].
  revert N. apply rnd_scale; [apply Z.pow_pos_nonneg; lia|].
  rewrite <- !Z.mul_assoc, <- !Z.pow_add_r by lia. do 3 f_equal. lia.
Qed.

Lemma binary_round_rnd s m e j : 0 <= e + j -> 149 <= j -> Zdigits2 (Zpos m) + e <= 127 ->
  rnd (binary_round 24 128 s m e) (sg s * (Zpos m * 2 ^ (e + j))) (2 ^ (j - 149)).
Proof.
  intros Hj Hj' Hd. unfold binary_round. rewrite fexp_fx. change (Zpos (digits2_pos m)) with (Zdigits2 (Zpos m)).
  pose proof (digits_bound (Zpos m) ltac:(lia)) as [L U]. pose proof (digits_pos (Zpos m) ltac:(lia)) as G.
  set (d := Zdigits2 (Zpos m)) in *. unfold shl_align.
  destruct (fx (d + e) - e) as [|p|p] eqn:E.
  - apply round_aux_rnd; fold d; unfold fx in *; lia.
  - apply round_aux_rnd; fold d; unfold fx in *; lia.
  - assert (Ee : fx (d + e) = e - Zpos p) by lia. rewrite Ee. clear E.
    assert (P : 0 < 2 ^ Zpos p) by (apply Z.pow_pos_nonneg; lia).
    assert (Hm : Zpos (shift_pos p m) = Zpos m * 2 ^ Zpos p) by apply shift_pos_pow.
    assert (D : Zdigits2 (Zpos (shift_pos p m)) = d + Zpos p).
    { apply Z.le_antisymm.
      - apply digits_le; [|lia]. split; [lia|]. rewrite Hm, Z.pow_add_r by lia. apply Z.mul_lt_mono_pos_r; lia.
      - replace (d + Zpos p) with (d - 1 + Zpos p + 1) by lia. apply le_digits; [lia| |lia]. rewrite Hm, Z.pow_add_r by lia.
        apply Z.mul_le_mono_nonneg_r; lia. }
    assert (Dd : fx (Zdigits2 (Zpos (shift_pos p m)) + (e - Zpos p)) = e - Zpos p).
    { rewrite D. replace (d + Zpos p + (e - Zpos p)) with (d + e) by lia. exact Ee. }
    pose proof (round_aux_rnd s (Zpos (shift_pos p m)) (e - Zpos p) (j + Zpos p)) as N.
    rewrite Dd in N. specialize (N ltac:(lia) ltac:(lia) ltac:(lia) ltac:(lia) ltac:(unfold fx in *; lia)).
    revert N. apply rnd_scale; [apply Z.pow_pos_nonneg; lia|]. rewrite Hm.
    rewrite <- !Z.mul_assoc, <- !Z.pow_add_r by lia. do 3 f_equal. lia.
Qed.

Lemma normalize_rnd M e z j : 0 <= e + j -> 149 <= j -> Zdigits2 (Z.abs M) + e <= 127 ->
  rnd (binary_normalize 24 128 M e z) (M * 2 ^ (e + j)) (2 ^ (j - 149)).
Proof.
  intros Hj Hj' Hd. destruct M as [|m|m]; cbn [binary_normalize].
  - apply (rnd_exact _ 0); [apply Z.pow_pos_nonneg; lia|reflexivity|ring].
  - replace (Zpos m * 2 ^ (e + j)) with (sg false * (Zpos m * 2 ^ (e + j))) by (change (sg false) with 1; ring).
    apply binary_round_rnd; assumption.
  - replace (Zneg m * 2 ^ (e + j)) with (sg true * (Zpos m * 2 ^ (e + j)))
      by (change (sg true) with (-1); change (Zneg m) with (- Zpos m); ring).
    apply binary_round_rnd; assumption.
Qed.

(** ** Operations *)

Lemma fin_fun f v w : fin f v -> fin f w -> v = w.
Proof.
  intros H1 H2. apply fin_scaled in H1, H2. rewrite H1 in H2. apply some_eq in H2. exact H2.
Qed.

(** exponents of numbers up to [2 ^ 21] *)
Lemma fin_exponent s m e v : fin (S754_finite s m e) v -> Z.abs v <= 2 ^ 170 ->
  Zdigits2 (Zpos m) + e <= 22 /\ e <= 0 /\ -149 <= e /\ v = sg s * (Zpos m * 2 ^ (e + 149)).
Proof.
  cbn [fin]. intros (H1 & H2 & H3 & ->) Hv. rewrite sg_mul in Hv. rewrite Z.abs_eq in Hv.
  2: { apply Z.mul_nonneg_nonneg; [lia|]. apply Z.pow_nonneg. lia. }
  pose proof (digits_bound (Zpos m) ltac:(lia)) as [L _]. pose proof (digits_pos (Zpos m) ltac:(lia)) as G.
  assert (D : Zdigits2 (Zpos m) + e <= 22).
  { destruct (Z.le_gt_cases (Zdigits2 (Zpos m) + e) 22) as [|C]; [assumption|exfalso].
    assert (2 ^ (Zdigits2 (Zpos m) - 1) * 2 ^ (e + 149) <= 2 ^ 170).
    { eapply Z.le_trans; [|exact Hv]. apply Z.mul_le_mono_nonneg_r; [apply Z.pow_nonneg; lia|exact L]. }
    rewrite <- Z.pow_add_r in H by lia. apply Z.pow_le_mono_r_iff in H; lia. }
  split; [exact D|]. split; [|split; [lia|reflexivity]].
  destruct (Z.lt_ge_cases (Zpos m) (2 ^ 23)) as [C|C]; [specialize (H3 C); lia|].
  pose proof (le_digits (Zpos m) 23 ltac:(lia) C ltac:(lia)). lia.
Qed.

Lemma le_150_170 x : x <= 2 ^ 150 -> x <= 2 ^ 170.
Proof. intros H. eapply Z.le_trans; [exact H|]. apply Z.pow_le_mono_r; lia. Qed.

Lemma mul_rnd x y a b : fin x a -> fin y b -> Z.abs a <= 2 ^ 170 -> Z.abs b <= 2 ^ 170 ->
  rnd (SFmul 24 128 x y) (a * b) (2 ^ 149).
Proof.
  intros Fx Fy Ha Hb.
  destruct x as [s|s| |s m e]; [|contradiction..|].
  { cbn [fin] in Fx. subst a. destruct y as [s'|s'| |s' m' e']; [|contradiction..|];
      (apply (rnd_exact _ 0); [reflexivity|reflexivity|ring]). }
  destruct y as [s'|s'| |s' m' e']; [|contradiction..|].
  { cbn [fin] in Fy. subst b. apply (rnd_exact _ 0); [reflexivity|reflexivity|ring]. }
  cbn [SFmul].
  destruct (fin_exponent _ _ _ _ Fx Ha) as (D1 & E1 & E1' & Va). destruct (fin_exponent _ _ _ _ Fy Hb) as (D2 & E2 & E2' & Vb).
  cbn [fin] in Fx, Fy. destruct Fx as (M1 & _ & N1 & _). destruct Fy as (M2 & _ & N2 & _).
  assert (P : Zpos (m * m') = Zpos m * Zpos m') by reflexivity.
  pose proof (digits_bound (Zpos m) ltac:(lia)) as [L1 U1]. pose proof (digits_pos (Zpos m) ltac:(lia)) as G1.
  pose proof (digits_bound (Zpos m') ltac:(lia)) as [L2 U2]. pose proof (digits_pos (Zpos m') ltac:(lia)) as G2.
  set (d1 := Zdigits2 (Zpos m)) in *. set (d2 := Zdigits2 (Zpos m')) in *. clearbody d1 d2.
  assert (Dle : Zdigits2 (Zpos (m * m')) <= d1 + d2).
  { apply digits_le; [|lia]. split; [lia|]. rewrite P, Z.pow_add_r by lia. apply Z.mul_lt_mono_nonneg; lia. }
  assert (Dge : e + e' > -149 -> 24 <= Zdigits2 (Zpos (m * m'))).
  { intros C. change 24 with (23 + 1). apply le_digits; [lia| |lia]. rewrite P.
    assert (2 ^ 23 <= Zpos m) by (destruct (Z.lt_ge_cases (Zpos m) (2 ^ 23)); [specialize (N1 H); lia|assumption]).
    assert (2 ^ 23 <= Zpos m') by (destruct (Z.lt_ge_cases (Zpos m') (2 ^ 23)); [specialize (N2 H0); lia|assumption]).
    change (2 ^ 23) with 8388608 in *. nia. }
  pose proof (round_aux_rnd (xorb s s') (Zpos (m * m')) (e + e') 298) as N.
  specialize (N ltac:(lia) ltac:(lia) ltac:(lia) ltac:(unfold fx; lia) ltac:(unfold fx; lia)).
  change (298 - 149) with 149 in N. subst a b. rewrite P in N.
  replace (sg s * (Zpos m * 2 ^ (e + 149)) * (sg s' * (Zpos m' * 2 ^ (e' + 149))))
    with (sg (xorb s s') * (Zpos m * Zpos m' * 2 ^ (e + e' + 298))); [exact N|].
  replace (e + e' + 298) with (e + 149 + (e' + 149)) by lia. rewrite (Z.pow_add_r 2 (e + 149)) by lia.
  destruct s, s'; cbn [xorb sg]; ring.
Qed.

Lemma align_exact m e ez : ez <= e -> Zpos (fst (shl_align m e ez)) = Zpos m * 2 ^ (e - ez).
Proof.
  intros H. unfold shl_align. destruct (ez - e) as [|p|p] eqn:E; cbn [fst].
  - replace (e - ez) with 0 by lia. change (2 ^ 0) with 1. lia.
  - lia.
  - rewrite shift_pos_pow. do 2 f_equal. lia.
Qed.
Lemma cond_sg s x : cond_Zopp s x = sg s * x.
Proof. destruct s; cbn [cond_Zopp]; [change (sg true) with (-1)|change (sg false) with 1]; lia. Qed.

(** an aligned sum *)
Lemma sum_rnd M e0 W : -298 <= e0 <= 2 -> M * 2 ^ (e0 + 298) = W -> Z.abs W <= 2 ^ 309 ->
  rnd (binary_normalize 24 128 M e0 false) W (2 ^ 149).
Proof.
  intros He E HW.
  assert (D : Zdigits2 (Z.abs M) + e0 <= 127).
  { destruct (Z.eq_dec M 0) as [->|NZ]; [cbn; lia|].
    pose proof (digits_bound (Z.abs M) ltac:(lia)) as [L _]. pose proof (digits_pos (Z.abs M) ltac:(lia)) as G.
    assert (Hm : Z.abs M * 2 ^ (e0 + 298) <= 2 ^ 309).
    { rewrite <- (Z.abs_eq (2 ^ (e0 + 298))) by (apply Z.pow_nonneg; lia). rewrite <- Z.abs_mul, E. exact HW. }
    assert (2 ^ (Zdigits2 (Z.abs M) - 1) * 2 ^ (e0 + 298) <= 2 ^ 309).
    { eapply Z.le_trans; [|exact Hm]. apply Z.mul_le_mono_nonneg_r; [apply Z.pow_nonneg; lia|exact L]. }
    rewrite <- Z.pow_add_r in H by lia. apply Z.pow_le_mono_r_iff in H; lia. }
  pose proof (normalize_rnd M e0 false 298 ltac:(lia) ltac:(lia) D) as N. change (298 - 149) with 149 in N.
  rewrite E in N. exact N.
Qed.

Lemma sub_rnd x y a b : fin x a -> fin y b -> Z.abs a <= 2 ^ 150 -> Z.abs b <= 2 ^ 150 ->
  rnd (SFsub 24 128 x y) (a - b) 1.
Proof.
  intros Fx Fy Ha Hb.
  destruct x as [s|s| |s m e]; [|contradiction..|].
  { cbn [fin] in Fx. subst a. destruct y as [s'|s'| |s' m' e']; [|contradiction..|]; cbn [SFsub].
    - cbn [fin] in Fy. subst b. apply (rnd_exact _ 0); [reflexivity| |reflexivity]. destruct (Bool.eqb s (negb s')); reflexivity.
    - apply (rnd_exact _ (- b)); [reflexivity| |ring]. cbn [fin] in *.
      destruct Fy as (M & E & N & ->). split; [exact M|]. split; [exact E|]. split; [exact N|]. destruct s'; cbn [negb sg]; ring. }
  destruct y as [s'|s'| |s' m' e']; [|contradiction..|].
  { cbn [fin] in Fy. subst b. apply (rnd_exact _ a); [reflexivity|exact Fx|ring]. }
  cbn [SFsub].
  destruct (fin_exponent _ _ _ _ Fx (le_150_170 _ Ha)) as (_ & E1 & E1' & Va). destruct (fin_exponent _ _ _ _ Fy (le_150_170 _ Hb)) as (_ & E2 & E2' & Vb).
  rewrite !cond_sg, !align_exact by lia.
  assert (Hab : Z.abs (a - b) <= 2 ^ 160).
  { eapply Z.le_trans with (2 ^ 150 + 2 ^ 150); [lia|]. vm_compute. discriminate. }
  apply (rnd_scale _ ((a - b) * 2 ^ 149) (2 ^ 149)); [lia|ring|].
  apply sum_rnd; [lia| |].
  - rewrite Va, Vb. rewrite !Z.mul_sub_distr_r.
    rewrite <- !Z.mul_assoc, <- !Z.pow_add_r by lia. f_equal; do 3 f_equal; lia.
  - rewrite Z.abs_mul. change 309 with (160 + 149). rewrite (Z.pow_add_r 2 160) by lia.
    rewrite (Z.abs_eq (2 ^ 149)) by (apply Z.pow_nonneg; lia). apply Z.mul_le_mono_nonneg_r; [apply Z.pow_nonneg; lia|exact Hab].
Qed.

Lemma fma_rnd x y z a b c : fin x a -> fin y b -> fin z c -> Z.abs a <= 2 ^ 150 -> Z.abs b <= 2 ^ 150 -> Z.abs c <= 2 ^ 150 ->
  rnd (sf_fma x y z) (a * b + c * 2 ^ 149) (2 ^ 149).
Proof.
  intros Fx Fy Fz Ha Hb Hc.
  assert (K : 0 < 2 ^ 149) by reflexivity.
  assert (Z0 : forall s, a * b = 0 -> rnd (match z with S754_zero sz => if Bool.eqb s sz then z else S754_zero false | _ => z end)
                  (a * b + c * 2 ^ 149) (2 ^ 149)).
  { intros s E. apply (rnd_exact _ c); [exact K| |rewrite E; ring].
    destruct z as [sz|sz| |sz mz ez]; [|contradiction..|exact Fz]. cbn [fin] in Fz. subst c. destruct (Bool.eqb s sz); reflexivity. }
  destruct x as [s|s| |s m e]; [|contradiction..|].
  { cbn [fin] in Fx. subst a. destruct y as [s'|s'| |s' m' e']; [|contradiction..|]; apply Z0; ring. }
  destruct y as [s'|s'| |s' m' e']; [|contradiction..|].
  { cbn [fin] in Fy. subst b. apply Z0; ring. }
  clear Z0. cbn [sf_fma]. unfold prec32, emax32.
  destruct (fin_exponent _ _ _ _ Fx (le_150_170 _ Ha)) as (_ & E1 & E1' & Va). destruct (fin_exponent _ _ _ _ Fy (le_150_170 _ Hb)) as (_ & E2 & E2' & Vb).
  assert (Hab : Z.abs (a * b + c * 2 ^ 149) <= 2 ^ 309).
  { eapply Z.le_trans; [apply Z.abs_triangle|]. rewrite !Z.abs_mul. rewrite (Z.abs_eq (2 ^ 149)) by (apply Z.pow_nonneg; lia).
    eapply Z.le_trans with (2 ^ 150 * 2 ^ 150 + 2 ^ 150 * 2 ^ 149); [|vm_compute; discriminate].
    apply Z.add_le_mono; apply Z.mul_le_mono_nonneg; try lia; apply Z.pow_nonneg; lia. }
  assert (AB : a * b = sg (xorb s s') * (Zpos (m * m') * 2 ^ (e + e' + 298))).
  { rewrite Va, Vb. replace (e + e' + 298) with (e + 149 + (e' + 149)) by lia. rewrite (Z.pow_add_r 2 (e + 149)) by lia.
    change (Zpos (m * m')) with (Zpos m * Zpos m'). destruct s, s'; cbn [xorb sg]; ring. }
  destruct z as [sz|sz| |sz mz ez]; [|contradiction..|].
  { cbn [fin] in Fz. subst c. rewrite Z.mul_0_l, Z.add_0_r in *. rewrite cond_sg.
    assert (N : rnd (binary_normalize 24 128 (sg (xorb s s') * Zpos (m * m')) (e + e') false) (a * b) (2 ^ 149)).
    { apply sum_rnd; [lia| |exact Hab]. rewrite AB. ring. }
    replace (binary_normalize 24 128 (sg (xorb s s') * Zpos (m * m')) (e + e') (xorb s s'))
      with (binary_normalize 24 128 (sg (xorb s s') * Zpos (m * m')) (e + e') false); [exact N|].
    destruct (xorb s s'); reflexivity. }
  destruct (fin_exponent _ _ _ _ Fz (le_150_170 _ Hc)) as (_ & E3 & E3' & Vc).
  apply sum_rnd; [lia| |exact Hab]. rewrite !cond_sg, AB, Vc, Z.mul_add_distr_r.
  rewrite <- !Z.mul_assoc, <- !Z.pow_add_r by lia. f_equal; do 3 f_equal; lia.
Qed.

Lemma rnd_nearest f v num den : 0 < den -> fin f v -> nearest (bits_of_sf f) num den -> rnd f (num * 2 ^ 149) den.
Proof.
  intros HQ F (v' & E & N). split; [exact HQ|]. exists v. split; [exact F|]. intros g w G.
  rewrite (fin_scaled _ _ F) in E. apply some_eq in E. subst v'.
  apply (N (bits_of_sf g) w); [apply (fin_range g w), G|apply fin_scaled, G].
Qed.

(** quotients of small integers *)
Lemma quotient_rnd n d : 0 <= n < 2 ^ 24 -> 0 < d < 2 ^ 24 ->
  rnd (SFdiv 24 128 (binary_normalize 24 128 n 0 false) (binary_normalize 24 128 d 0 false)) (n * 2 ^ 149) d.
Proof.
  intros Hn Hd. destruct d as [|d|d]; [lia| |lia]. cbn [binary_normalize].
  destruct (round_small false d ltac:(lia)) as (d' & kd & Hkd & Ed & Dd & ->).
  destruct n as [|n|n]; [|cbn [binary_normalize]|lia].
  { apply (rnd_exact _ 0); [lia|reflexivity|ring]. }
  destruct (round_small false n ltac:(lia)) as (n' & kn & Hkn & En & Dn & ->).
  destruct (div_fin false n' (- kn) false d' (- kd) 24) as [(v & F) N]; [rewrite Dn, Dd; lia|lia|lia|].
  apply (rnd_nearest _ v) in N; [|apply Z.mul_pos_pos; [lia|apply Z.pow_pos_nonneg; lia]|exact F].
  revert N. apply rnd_scale; [lia|]. rewrite En, Ed. change (sg (xorb false false)) with 1.
  replace (Zpos d * 2 ^ kd * 2 ^ (- kd + 24)) with (Zpos d * 2 ^ 24).
  2: { rewrite <- Z.mul_assoc, <- Z.pow_add_r by lia. do 2 f_equal. lia. }
  replace (Zpos n * 2 ^ kn * 2 ^ (- kn + 24)) with (Zpos n * 2 ^ 24).
  2: { rewrite <- Z.mul_assoc, <- Z.pow_add_r by lia. do 2 f_equal. lia. }
  ring.
Qed.

(** ** Square roots *)

(** a stand-in for the root of [m], the location of which it shares *)
Lemma repr_root m q r : 0 <= m -> Z.sqrtrem m = (q, r) ->
  exists a, repr (shr_record_of_loc q (if Zeq_bool r 0 then loc_Exact else loc_Inexact (if Zle_bool r q then Lt else Gt))) a 4 /\
    0 <= q /\ 4 * q <= a <= 4 * q + 3 /\ (m = q * q -> a = 4 * q) /\ Z.abs (16 * m - a * a) <= 2 * a.
Proof.
  intros Hm E. pose proof (Z.sqrtrem_spec m Hm) as S. rewrite E in S. destruct S as [S1 S2].
  assert (Hq : 0 <= q) by nia.
  assert (R : forall t w, 0 <= t < 4 -> shr_m w = q -> shr_r w = (4 <=? 2 * t) -> shr_s w = negb ((t =? 0) || (2 * t =? 4)) ->
                repr w (4 * q + t) 4).
  { intros t w Ht W1 W2 W3. unfold repr.
    assert (D : (4 * q + t) / 4 = q) by (symmetry; apply Z.div_unique_pos with (r := t); lia).
    assert (M : (4 * q + t) mod 4 = t) by (symmetry; apply Z.mod_unique_pos with (q := q); lia).
    rewrite D, M. repeat split; try assumption; lia. }
  destruct (Zeq_bool r 0) eqn:E0.
  - apply Zeq_bool_eq in E0. exists (4 * q + 0). split; [apply R; [lia|reflexivity..]|]. split; [exact Hq|]. split; [lia|]. split; [lia|]. nia.
  - apply Zeq_bool_neq in E0. destruct (Zle_bool r q) eqn:L.
    + apply Zle_bool_imp_le in L. exists (4 * q + 1). split; [apply R; [lia|reflexivity..]|]. split; [exact Hq|]. split; [lia|]. split; [lia|]. nia.
    + apply Z.leb_gt in L. exists (4 * q + 3). split; [apply R; [lia|reflexivity..]|]. split; [exact Hq|]. split; [lia|]. split; [lia|]. nia.
Qed.

Lemma root_digits m q d : 0 < m -> 0 <= q -> q * q <= m < (q + 1) * (q + 1) -> 2 ^ (d - 1) <= m < 2 ^ d -> 0 < d ->
  Zdigits2 q = (d + 1) / 2.
Proof.
  intros Hm Hq Hs Hd Hd0. pose proof (Z.div_mod (d + 1) 2 ltac:(lia)) as D. pose proof (Z.mod_pos_bound (d + 1) 2 ltac:(lia)) as M.
  set (k := (d + 1) / 2) in *. clearbody k. set (t := (d + 1) mod 2) in *. clearbody t.
  assert (Hk : 0 < k) by lia.
  assert (P : 0 < 2 ^ (k - 1)) by (apply Z.pow_pos_nonneg; lia).
  assert (P2 : 2 ^ k = 2 * 2 ^ (k - 1)) by (rewrite <- Z.pow_succ_r by lia; f_equal; lia).
  apply Z.le_antisymm.
  - apply digits_le; [|lia]. split; [exact Hq|].
    assert (U : 2 ^ d <= 2 ^ k * 2 ^ k) by (rewrite <- Z.pow_add_r by lia; apply Z.pow_le_mono_r; lia). nia.
  - replace k with (k - 1 + 1) by lia. apply le_digits; [exact Hq| |lia].
    assert (L : 2 ^ (k - 1) * 2 ^ (k - 1) <= 2 ^ (d - 1)) by (rewrite <- Z.pow_add_r by lia; apply Z.pow_le_mono_r; lia). nia.
Qed.

(** the square of the root of a number up to one, within four units of [2 ^ -25] *)
Lemma sqrt_error x v : fin x v -> 0 <= v <= 2 ^ 149 ->
  exists w, fin (SFsqrt 24 128 x) w /\ 0 <= w <= 2 ^ 149 /\
    Z.abs (w * w - v * 2 ^ 149) <= 4 * 2 ^ 124 * 2 ^ 149 + 3 * 2 ^ 124 * 2 ^ 124.
Proof.
  intros F Hv. destruct x as [s|s| |s m e]; [|contradiction..|].
  { cbn [fin] in F. subst v. exists 0. split; [reflexivity|]. split; [lia|]. vm_compute. discriminate. }
  assert (Ve : Z.abs v <= 2 ^ 150).
  { rewrite Z.abs_eq by lia. eapply Z.le_trans; [apply Hv|]. vm_compute. discriminate. }
  destruct (fin_exponent _ _ _ _ F (le_150_170 _ Ve)) as (_ & E1 & E1' & Va). clear Ve F.
  assert (Hp : 0 < 2 ^ (e + 149)) by (apply Z.pow_pos_nonneg; lia).
  destruct s; [exfalso; cbn [sg] in Va; nia|]. change (sg false) with 1 in Va. rewrite Z.mul_1_l in Va.
  cbn [SFsqrt]. unfold SFsqrt_core_binary. rewrite fexp_fx.
  pose proof (digits_bound (Zpos m) ltac:(lia)) as [L U]. pose proof (digits_pos (Zpos m) ltac:(lia)) as G.
  set (d := Zdigits2 (Zpos m)) in *. clearbody d.
  assert (Dv : d + e <= 1).
  { destruct (Z.le_gt_cases (d + e) 1) as [|C]; [assumption|exfalso].
    assert (2 ^ (d - 1) * 2 ^ (e + 149) <= 2 ^ 149).
    { eapply Z.le_trans; [|apply Hv]. rewrite Va. apply Z.mul_le_mono_nonneg_r; lia. }
    rewrite <- Z.pow_add_r in H by lia. apply Z.pow_le_mono_r_iff in H; lia. }
  rewrite !Z.div2_div.
  pose proof (Z.div_mod (d + e + 1) 2 ltac:(lia)) as D1. pose proof (Z.mod_pos_bound (d + e + 1) 2 ltac:(lia)) as M1.
  pose proof (Z.div_mod e 2 ltac:(lia)) as D2. pose proof (Z.mod_pos_bound e 2 ltac:(lia)) as M2.
  set (k1 := (d + e + 1) / 2) in *. set (k2 := e / 2) in *.
  set (e' := Z.min (fx k1) k2). set (t := e - 2 * e').
  assert (Ht : 0 <= t) by (subst t e'; lia).
  assert (He' : -149 <= e' <= -23) by (subst e'; unfold fx; lia).
  replace (match t with Z0 => Zpos m | Zpos _ => Z.shiftl (Zpos m) t | Zneg _ => 0 end) with (Zpos m * 2 ^ t).
  2: { destruct t eqn:Et; [change (2 ^ 0) with 1; lia|symmetry; apply Z.shiftl_mul_pow2; lia|lia]. }
  assert (Pt : 0 < 2 ^ t) by (apply Z.pow_pos_nonneg; lia).
  set (m' := Zpos m * 2 ^ t). assert (Hm' : 0 < m') by (subst m'; lia).
  assert (Bm' : 2 ^ (d + t - 1) <= m' < 2 ^ (d + t)).
  { replace (d + t - 1) with (d - 1 + t) by lia. rewrite !Z.pow_add_r by lia.
    split; [apply Z.mul_le_mono_nonneg_r; lia|apply Z.mul_lt_mono_pos_r; lia]. }
  assert (Vm : v * 2 ^ 149 = m' * (2 ^ (e' + 149) * 2 ^ (e' + 149))).
  { rewrite Va. subst m'. rewrite <- !Z.mul_assoc, <- !Z.pow_add_r by lia. do 2 f_equal. subst t. lia. }
  destruct (Z.sqrtrem m') as [q r] eqn:Es. destruct (repr_root m' q r ltac:(lia) Es) as (a & R & Hq & Ha & Ex & Er).
  pose proof (Z.sqrtrem_spec m' ltac:(lia)) as S. rewrite Es in S. destruct S as [S1 S2].
  assert (Dq : Zdigits2 q = (d + t + 1) / 2) by (apply (root_digits m' q (d + t)); [lia|lia|split; [lia|]; replace ((q + 1) * (q + 1)) with (q * q + 2 * q + 1) by ring; lia|exact Bm'|lia]).
  assert (Dq' : Zdigits2 q + e' = k1).
  { rewrite Dq. unfold k1. replace (d + e + 1) with (d + t + 1 + e' * 2) by (subst t; lia). rewrite Z.div_add by lia. reflexivity. }
  assert (B1 : e' <= fx (Zdigits2 q + e')) by (rewrite Dq'; subst e'; lia).
  assert (B2 : fx (Zdigits2 q + e') <= 103) by (rewrite Dq'; unfold fx; lia).
  destruct (round_aux_fin false q e' _ a 4 R B1 B2) as [(w & F) N]. cbv beta zeta in N.
  set (E := fx (Zdigits2 q + e')) in *.
  assert (PE : 0 < 2 ^ (E - e')) by (apply Z.pow_pos_nonneg; lia).
  apply (rnd_near _ w) in N; [|lia|exact F].
  assert (N' : rnd (binary_round_aux 24 128 false q e' (if Zeq_bool r 0 then loc_Exact else loc_Inexact (if Zle_bool r q then Lt else Gt)))
                 (a * 2 ^ (e' + 149)) 4).
  { revert N. apply rnd_scale; [lia|]. change (sg false) with 1.
    replace (E + 149) with (E - e' + (e' + 149)) by lia. rewrite (Z.pow_add_r 2 (E - e')) by lia. ring. }
  clear N. set (g := 2 ^ (e' + 149)) in *.
  assert (Hg : 0 < g) by (apply Z.pow_pos_nonneg; lia).
  assert (Hg4 : g <= 4 * 2 ^ 124).
  { change (4 * 2 ^ 124) with (2 ^ 126). apply Z.pow_le_mono_r; lia. }
  assert (KH : 2 ^ 149 = g * 2 ^ (- e')).
  { subst g. rewrite <- Z.pow_add_r by lia. f_equal. lia. }
  set (H := 2 ^ (- e')) in *. assert (HH : 0 < H) by (apply Z.pow_pos_nonneg; lia). clearbody H.
  assert (Hm2 : m' <= H * H).
  { assert (m' * (g * g) <= (H * H) * (g * g)).
    { rewrite <- Vm. replace (H * H * (g * g)) with (g * H * 2 ^ 149) by (rewrite KH; ring). rewrite <- KH.
      apply Z.mul_le_mono_nonneg_r; [apply Z.pow_nonneg|]; lia. }
    apply Z.mul_le_mono_pos_r in H0; [exact H0|]. apply Z.mul_pos_pos; lia. }
  assert (HA : a <= 4 * H).
  { destruct (Z.le_gt_cases H q) as [C|C]; [|lia]. clear - C S1 S2 Hm2 Hq HH Ex.
    assert (q <= H) by (apply Z.square_le_simpl_nonneg; lia). assert (q = H) by lia. subst q. rewrite Ex; lia. }
  assert (A0 : 0 <= a * g) by (clear - Ha Hq Hg; apply Z.mul_nonneg_nonneg; lia).
  destruct (rnd_error _ _ _ 0 N' ltac:(lia)) as (w' & F' & X1 & X2 & X3 & _).
  { rewrite Z.abs_eq by exact A0. change (149 + 0) with 149. rewrite KH. clear - HA Hg. nia. }
  rewrite (fin_fun _ _ _ F' F) in *. clear w' F'.
  specialize (X3 A0). change (149 + 0) with 149 in X2. change (2 ^ (125 + 0)) with (2 * 2 ^ 124) in X1.
  exists w. split; [exact F|]. split; [lia|].
  rewrite Vm. clear - KH HA Hg4 Hg X1 X2 X3 Er Ha Hq HH. set (u := 2 ^ 124) in *. set (K := 2 ^ 149) in *.
  assert (0 < u) by reflexivity. clearbody u K.
  assert (HAg : 0 <= a * g <= 4 * K) by (rewrite KH; nia).
  assert (Z1 : Z.abs (16 * (m' * (g * g)) - (a * g) * (a * g)) <= 8 * u * (a * g)).
  { replace (16 * (m' * (g * g)) - a * g * (a * g)) with ((16 * m' - a * a) * (g * g)) by ring.
    rewrite Z.abs_mul, (Z.abs_eq (g * g)) by nia.
    eapply Z.le_trans; [apply Z.mul_le_mono_nonneg_r; [nia|exact Er]|].
    replace (2 * a * (g * g)) with (2 * g * (a * g)) by ring. apply Z.mul_le_mono_nonneg_r; lia. }
  set (A := a * g) in *. clearbody A. set (Y := m' * (g * g)) in *. clearbody Y.
  assert (Z2 : Z.abs (4 * w - A) <= 4 * u) by lia.
  assert (Z3 : Z.abs (16 * (w * w) - A * A) <= 4 * u * (8 * K)).
  { replace (16 * (w * w) - A * A) with ((4 * w - A) * (4 * w + A)) by ring. rewrite Z.abs_mul.
    apply Z.mul_le_mono_nonneg; lia. }
  assert (8 * u * A <= 8 * u * (4 * K)) by (apply Z.mul_le_mono_nonneg_l; lia).
  assert (0 <= u * u) by (apply Z.mul_nonneg_nonneg; lia). lia.
Qed.
