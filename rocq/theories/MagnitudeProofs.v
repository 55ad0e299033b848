(** * Proofs: binary32 numbers by their magnitudes *)

From Coq Require Import ZArith List Bool Lia.
From Verif Require Import Base F32 SpecBasic SpecFacts SpecDecimal SpecJsonText JsonText.
Open Scope Z_scope.

Definition inf : Z := 0x7F800000.

Lemma magnitude_parts e m : 0 <= e -> 0 <= m < 2 ^ 23 ->
  magnitude (e * 2 ^ 23 + m) = if e =? 0 then m else (2 ^ 23 + m) * 2 ^ (e - 1).
Proof.
  intros He Hm. unfold magnitude. rewrite Z.div_add_l, Z.div_small, Z.add_0_r by lia.
  rewrite Z.add_comm, Z_mod_plus_full, Z.mod_small by lia. reflexivity.
Qed.
Lemma parts a : 0 <= a -> exists e m, 0 <= e /\ 0 <= m < 2 ^ 23 /\ a = e * 2 ^ 23 + m.
Proof.
  intros H. exists (a / 2 ^ 23), (a mod 2 ^ 23). pose proof (Z.mod_pos_bound a (2 ^ 23) ltac:(lia)).
  pose proof (Z.div_mod a (2 ^ 23) ltac:(lia)). pose proof (Z.div_pos a (2 ^ 23) H ltac:(lia)). lia.
Qed.

(** the distance to the next number *)
Lemma magnitude_next a : 0 <= a -> exists g, 0 < g /\ magnitude (a + 1) = magnitude a + g /\
  (1 <= a -> exists l, 0 < l <= g /\ magnitude a = magnitude (a - 1) + l /\ magnitude a <= 2 ^ 24 * l).
Proof.
  intros Ha. destruct (parts a Ha) as (e & m & He & Hm & ->).
  assert (P : forall x, 0 <= x -> 2 ^ (x + 1) = 2 * 2 ^ x) by (intros; rewrite Z.pow_add_r by lia; lia).
  assert (Q : 0 < 2 ^ (e - 1) \/ e = 0).
  { destruct (Z.eq_dec e 0); auto. left. apply Z.pow_pos_nonneg; lia. }
  rewrite (magnitude_parts e m He Hm).
  assert (N : magnitude (e * 2 ^ 23 + m + 1) = (if e =? 0 then m else (2 ^ 23 + m) * 2 ^ (e - 1)) + (if e =? 0 then 1 else 2 ^ (e - 1))).
  { destruct (Z.eq_dec m (2 ^ 23 - 1)) as [->|Hn].
    - replace (e * 2 ^ 23 + (2 ^ 23 - 1) + 1) with ((e + 1) * 2 ^ 23 + 0) by lia. rewrite magnitude_parts by lia.
      destruct (Z.eqb_spec (e + 1) 0); [lia|]. destruct (Z.eqb_spec e 0) as [->|He'].
      + reflexivity.
      + replace (e + 1 - 1) with (e - 1 + 1) by lia. rewrite P by lia. lia.
    - replace (e * 2 ^ 23 + m + 1) with (e * 2 ^ 23 + (m + 1)) by lia. rewrite magnitude_parts by lia.
      destruct (Z.eqb_spec e 0); lia. }
  exists (if e =? 0 then 1 else 2 ^ (e - 1)). split; [destruct (Z.eqb_spec e 0); lia|]. split; [exact N|].
  intros Ha1. destruct (Z.eq_dec m 0) as [->|Hm0].
  - destruct (Z.eqb_spec e 0) as [->|He0]; [lia|].
    replace (e * 2 ^ 23 + 0 - 1) with ((e - 1) * 2 ^ 23 + (2 ^ 23 - 1)) by lia. rewrite magnitude_parts by lia.
    destruct (Z.eqb_spec (e - 1) 0) as [E1|E1].
    + exists 1. rewrite E1. change (2 ^ 0) with 1. lia.
    + exists (2 ^ (e - 1 - 1)). assert (K : 2 ^ (e - 1) = 2 * 2 ^ (e - 1 - 1)) by (rewrite <- P by lia; f_equal; lia).
      pose proof (Z.pow_pos_nonneg 2 (e - 1 - 1) ltac:(lia) ltac:(lia)). rewrite K. lia.
  - replace (e * 2 ^ 23 + m - 1) with (e * 2 ^ 23 + (m - 1)) by lia. rewrite magnitude_parts by lia.
    exists (if e =? 0 then 1 else 2 ^ (e - 1)). destruct (Z.eqb_spec e 0); [lia|]. nia.
Qed.

Lemma magnitude_0 : magnitude 0 = 0.
Proof. reflexivity. Qed.
Lemma magnitude_inf : magnitude inf = 2 ^ 277.
Proof. vm_compute. reflexivity. Qed.
Lemma magnitude_max : magnitude (inf - 1) = 2 ^ 277 - 2 ^ 253.
Proof. vm_compute. reflexivity. Qed.

Lemma magnitude_lt a b : 0 <= a < b -> magnitude a < magnitude b.
Proof.
  intros [Ha H]. replace b with (a + 1 + Z.of_nat (Z.to_nat (b - a - 1))) by lia.
  induction (Z.to_nat (b - a - 1)) as [|n IH].
  - rewrite Z.add_0_r. destruct (magnitude_next a Ha) as (g & G & -> & _). lia.
  - destruct (magnitude_next (a + 1 + Z.of_nat n) ltac:(lia)) as (g & G & E & _).
    replace (a + 1 + Z.of_nat (S n)) with (a + 1 + Z.of_nat n + 1) by lia. lia.
Qed.
Lemma magnitude_le a b : 0 <= a <= b -> magnitude a <= magnitude b.
Proof. intros H. destruct (Z.eq_dec a b) as [->|]; [lia|]. pose proof (magnitude_lt a b ltac:(lia)). lia. Qed.
Lemma magnitude_pos a : 1 <= a -> 1 <= magnitude a.
Proof. intros H. pose proof (magnitude_lt 0 a ltac:(lia)). rewrite magnitude_0 in *. lia. Qed.

Lemma scaled_magnitude a : 0 <= a < 2 ^ 31 -> f32_scaled a = if a <? inf then Some (magnitude a) else None.
Proof.
  intros H. destruct (parts a) as (e & m & He & Hm & ->); [lia|]. unfold f32_scaled.
  rewrite magnitude_parts by auto.
  replace ((e * 2 ^ 23 + m) / 2 ^ 23) with e by (rewrite Z.div_add_l, Z.div_small by lia; lia).
  replace ((e * 2 ^ 23 + m) mod 2 ^ 23) with m by (rewrite Z.add_comm, Z_mod_plus_full, Z.mod_small by lia; lia).
  assert (e < 2 ^ 8) by lia. rewrite (Z.mod_small e) by lia. unfold inf.
  destruct (Z.ltb_spec (e * 2 ^ 23 + m) (2 ^ 31)); [|lia].
  destruct (Z.eqb_spec e 255), (Z.ltb_spec (e * 2 ^ 23 + m) 0x7F800000); try lia; [reflexivity|].
  destruct (Z.eqb_spec e 0); f_equal; lia.
Qed.
Lemma scaled_some a v : 0 <= a < 2 ^ 31 -> f32_scaled a = Some v -> 0 <= a < inf /\ v = magnitude a.
Proof.
  intros H. rewrite scaled_magnitude by auto. destruct (Z.ltb_spec a inf); [|discriminate]. intros E. injection E. lia.
Qed.
Lemma finite_sign x : 0 <= x < 2 ^ 32 -> f32_scaled x <> None -> 0 <= x mod 2 ^ 31 < inf /\ x = (if x <? 2 ^ 31 then 0 else 2 ^ 31) + x mod 2 ^ 31.
Proof.
  intros H F. assert (E : exists a, 0 <= a < 2 ^ 31 /\ (x = a \/ x = 2 ^ 31 + a)).
  { destruct (Z_lt_dec x (2 ^ 31)); [exists x|exists (x - 2 ^ 31)]; lia. }
  destruct E as (a & Ha & [->| ->]).
  - rewrite Z.mod_small by lia. destruct (Z.ltb_spec a (2 ^ 31)); [|lia]. split; [|lia].
    rewrite scaled_magnitude in F by auto. destruct (Z.ltb_spec a inf); [lia|tauto].
  - replace ((2 ^ 31 + a) mod 2 ^ 31) with a by (rewrite Z.add_comm; change (2 ^ 31) with (1 * 2 ^ 31) at 1; rewrite Z_mod_plus_full, Z.mod_small by lia; lia).
    destruct (Z.ltb_spec (2 ^ 31 + a) (2 ^ 31)); [lia|]. split; [|lia].
    destruct (Z_lt_dec a inf); [lia|]. exfalso. apply F. unfold f32_scaled.
    replace ((2 ^ 31 + a) / 2 ^ 23) with (256 + a / 2 ^ 23).
    2: { replace (2 ^ 31 + a) with (256 * 2 ^ 23 + a) by lia. now rewrite Z.div_add_l by lia. }
    replace ((256 + a / 2 ^ 23) mod 2 ^ 8) with 255; [reflexivity|].
    assert (a / 2 ^ 23 = 255).
    { unfold inf in *. symmetry. apply Z.div_unique with (a - 255 * 2 ^ 23); lia. }
    replace (256 + a / 2 ^ 23) with (255 + 1 * 2 ^ 8) by lia. now rewrite Z_mod_plus_full.
Qed.

(** ** Comparison at a common power of ten *)

Definition at10 (E c e : Z) : Z := c * 10 ^ (e + E) * 2 ^ 149.

Lemma pow10_pos x : 0 <= x -> 0 < 10 ^ x.
Proof. intros. apply Z.pow_pos_nonneg; lia. Qed.

Lemma distance_at E c e v : 0 <= E -> 0 <= e + E ->
  distance c e v * 10 ^ (E - Z.max (- e) 0) = Z.abs (at10 E c e - v * 10 ^ E).
Proof.
  intros H1 H2. unfold distance, at10.
  assert (P : 0 < 10 ^ (E - Z.max (- e) 0)) by (apply pow10_pos; lia).
  rewrite <- (Z.abs_eq (10 ^ (E - Z.max (- e) 0))) at 1 by lia. rewrite <- Z.abs_mul. f_equal.
  replace (e + E) with (Z.max e 0 + (E - Z.max (- e) 0)) by lia.
  replace (10 ^ E) with (10 ^ (Z.max (- e) 0 + (E - Z.max (- e) 0))) by (f_equal; lia).
  rewrite !Z.pow_add_r by lia. ring.
Qed.

Lemma nearest_at E c e a : 0 <= E -> 0 <= e + E ->
  nearest c e a <-> 0 <= a < inf /\ at10 E c e < (2 ^ 277 - 2 ^ 252) * 10 ^ E /\
    forall y, 0 <= y < inf -> y <> a ->
      Z.abs (at10 E c e - magnitude a * 10 ^ E) < Z.abs (at10 E c e - magnitude y * 10 ^ E) \/
      Z.abs (at10 E c e - magnitude a * 10 ^ E) = Z.abs (at10 E c e - magnitude y * 10 ^ E) /\ Z.even a = true.
Proof.
  intros H1 H2. pose proof (pow10_pos (E - Z.max (- e) 0) ltac:(lia)) as P.
  assert (T : not_too_large c e <-> at10 E c e < (2 ^ 277 - 2 ^ 252) * 10 ^ E).
  { unfold not_too_large, at10. replace (e + E) with (Z.max e 0 + (E - Z.max (- e) 0)) by lia.
    replace (10 ^ E) with (10 ^ (Z.max (- e) 0 + (E - Z.max (- e) 0))) by (f_equal; lia).
    rewrite !Z.pow_add_r by lia. rewrite (Z.mul_lt_mono_pos_r (10 ^ (E - Z.max (- e) 0)) (c * _ * _)) by auto.
    match goal with |- ?a < ?b <-> ?c < ?d => replace c with a by ring; replace d with b by ring end. tauto. }
  assert (I : inf < 2 ^ 31) by (unfold inf; lia).
  split.
  - intros (Ha & Hl & v & Hv & Hy). apply scaled_some in Hv; auto. destruct Hv as [Hv ->].
    split; [lia|]. split; [now apply T|]. intros y Hyr Hn.
    specialize (Hy y (magnitude y) ltac:(lia)). rewrite scaled_magnitude in Hy by lia.
    destruct (Z.ltb_spec y inf); [|lia]. specialize (Hy eq_refl Hn). rewrite <- !distance_at by auto.
    destruct Hy as [Hy|[Hy ?]]; [left; now apply Z.mul_lt_mono_pos_r|right; split; auto; now rewrite Hy].
  - intros (Ha & Hl & Hy). split; [lia|]. split; [now apply T|]. exists (magnitude a).
    rewrite scaled_magnitude by lia. destruct (Z.ltb_spec a inf); [|lia]. split; [reflexivity|].
    intros y w Hyr Hw Hn. apply scaled_some in Hw; [|lia]. destruct Hw as [Hw ->].
    specialize (Hy y Hw Hn). rewrite <- !distance_at in Hy by auto.
    destruct Hy as [Hy|[Hy ?]]; [left; now apply Z.mul_lt_mono_pos_r in Hy|right; split; auto; apply Z.mul_reg_r in Hy; lia].
Qed.

(** a number lies nearer to [a] than to all others exactly if it lies between the
    middles of [a] and its neighbours *)
Definition between (E V a : Z) : Prop :=
  let lo := (if 1 <=? a then magnitude (a - 1) + magnitude a else - 1) * 10 ^ E in
  let hi := (magnitude a + magnitude (a + 1)) * 10 ^ E in
  if Z.even a then lo <= 2 * V <= hi else lo < 2 * V < hi.

Lemma between_nearest E c e a : 0 <= E -> 0 <= e + E -> 0 <= c -> 0 <= a < inf ->
  between E (at10 E c e) a <-> nearest c e a.
Proof.
  intros H1 H2 Hc Ha. rewrite (nearest_at E) by auto. unfold between.
  assert (V0 : 0 <= at10 E c e) by (unfold at10; apply Z.mul_nonneg_nonneg; [apply Z.mul_nonneg_nonneg; auto; pose proof (pow10_pos (e + E)); lia|lia]).
  set (V := at10 E c e) in *. clearbody V. set (D := 10 ^ E). assert (P : 0 < D) by (apply pow10_pos; lia). clearbody D.
  assert (M : forall x y, x < y -> x * D < y * D) by (intros; apply Z.mul_lt_mono_pos_r; lia).
  assert (M' : forall x y, x <= y -> x * D <= y * D) by (intros; apply Z.mul_le_mono_nonneg_r; lia).
  split.
  - intros H. split; [auto|]. split.
    + assert (a + 1 <= inf) by lia. destruct (Z.eq_dec (a + 1) inf) as [Ei|Ei].
      * replace a with (inf - 1) in * by lia. rewrite Ei in H. rewrite magnitude_max, magnitude_inf in H.
        change (Z.even (inf - 1)) with false in H. cbv iota in H. lia.
      * pose proof (magnitude_le (a + 1) (inf - 1) ltac:(lia)). pose proof (magnitude_le a (inf - 1) ltac:(lia)).
        rewrite magnitude_max in *.
        assert ((magnitude a + magnitude (a + 1)) * D <= (2 ^ 277 - 2 ^ 253 + (2 ^ 277 - 2 ^ 253)) * D) by (apply M'; lia).
        assert ((2 ^ 277 - 2 ^ 253) * D < (2 ^ 277 - 2 ^ 252) * D) by (apply M; lia).
        destruct (Z.even a); lia.
    + intros y Hy Hn. destruct (Z_lt_dec y a) as [Hl|Hl].
      * pose proof (magnitude_le y (a - 1) ltac:(lia)) as A1. pose proof (magnitude_lt (a - 1) a ltac:(lia)) as A2.
        apply M' in A1. apply M in A2. destruct (Z.leb_spec 1 a); [|lia]. rewrite Z.mul_add_distr_r in H.
        destruct (Z.even a); lia.
      * pose proof (magnitude_le (a + 1) y ltac:(lia)) as A1. pose proof (magnitude_lt a (a + 1) ltac:(lia)) as A2.
        apply M' in A1. apply M in A2. rewrite (Z.mul_add_distr_r _ (magnitude (a + 1))) in H.
        destruct (Z.even a); lia.
  - intros (_ & Hl & Hy).
    assert (LO : if Z.even a then (if 1 <=? a then magnitude (a - 1) + magnitude a else -1) * D <= 2 * V
                 else (if 1 <=? a then magnitude (a - 1) + magnitude a else -1) * D < 2 * V).
    { destruct (Z.leb_spec 1 a).
      - specialize (Hy (a - 1) ltac:(lia) ltac:(lia)). pose proof (magnitude_lt (a - 1) a ltac:(lia)) as A2. apply M in A2.
        rewrite Z.mul_add_distr_r. destruct (Z.even a); lia.
      - replace a with 0 by lia. cbn [Z.even]. lia. }
    assert (HI : if Z.even a then 2 * V <= (magnitude a + magnitude (a + 1)) * D
                 else 2 * V < (magnitude a + magnitude (a + 1)) * D).
    { destruct (Z.eq_dec (a + 1) inf) as [Ei|Ei].
      - replace a with (inf - 1) in * by lia. rewrite Ei, magnitude_max, magnitude_inf. change (Z.even (inf - 1)) with false. cbv iota. lia.
      - specialize (Hy (a + 1) ltac:(lia) ltac:(lia)). pose proof (magnitude_lt a (a + 1) ltac:(lia)) as A2. apply M in A2.
        rewrite Z.mul_add_distr_r. destruct (Z.even a); lia. }
    destruct (Z.even a); lia.
Qed.

(** ** One number at most is the nearest *)

Lemma nearest_unique c e a b : 0 <= c -> nearest c e a -> nearest c e b -> a = b.
Proof.
  intros Hc Ha Hb. set (E := Z.max (- e) 0). assert (H1 : 0 <= E) by lia. assert (H2 : 0 <= e + E) by lia.
  assert (Ra : 0 <= a < inf) by (apply (nearest_at E) in Ha; tauto).
  assert (Rb : 0 <= b < inf) by (apply (nearest_at E) in Hb; tauto).
  apply (between_nearest E) in Ha, Hb; auto. unfold between in *.
  set (V := at10 E c e) in *. clearbody V. set (D := 10 ^ E) in *. assert (P : 0 < D) by (apply pow10_pos; lia). clearbody D.
  assert (G : forall x y, 0 <= x < y -> Z.even x = true -> Z.even y = true -> x + 1 < y).
  { intros x y H Ex Ey. destruct (Z.eq_dec (x + 1) y) as [<-|]; [|lia]. rewrite Z.add_1_r, Z.even_succ, <- Z.negb_even, Ex in Ey. discriminate. }
  assert (K : forall x y, 0 <= x < y -> y < inf ->
    (if Z.even x then 2 * V <= (magnitude x + magnitude (x + 1)) * D else 2 * V < (magnitude x + magnitude (x + 1)) * D) ->
    (if Z.even y then (if 1 <=? y then magnitude (y - 1) + magnitude y else -1) * D <= 2 * V
     else (if 1 <=? y then magnitude (y - 1) + magnitude y else -1) * D < 2 * V) -> False).
  { intros x y H Hi Hx Hy. destruct (Z.leb_spec 1 y); [|lia].
    pose proof (magnitude_le (x + 1) y ltac:(lia)). pose proof (magnitude_le x (y - 1) ltac:(lia)).
    assert (Le : (magnitude x + magnitude (x + 1)) * D <= (magnitude (y - 1) + magnitude y) * D) by (apply Z.mul_le_mono_nonneg_r; lia).
    destruct (Z.even x) eqn:Ex, (Z.even y) eqn:Ey; try lia.
    specialize (G x y H Ex Ey). pose proof (magnitude_lt (x + 1) y ltac:(lia)).
    assert ((magnitude x + magnitude (x + 1)) * D < (magnitude (y - 1) + magnitude y) * D) by (apply Z.mul_lt_mono_pos_r; lia). lia. }
  destruct (Z.lt_trichotomy a b) as [H|[H|H]]; auto; exfalso.
  - apply (K a b); try lia; [destruct (Z.even a); lia|destruct (Z.even b); lia].
  - apply (K b a); try lia; [destruct (Z.even b); lia|destruct (Z.even a); lia].
Qed.
