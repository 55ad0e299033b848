(** * Proofs: quaternions *)

From Coq Require Import ZArith List Bool Lia Floats.SpecFloat.
From Verif Require Import Base F32 NetTypes Errors BitReader NetModels BitLemmas Wire SpecReader SpecFacts SpecRound SpecQuat
  LeafProofs ReaderLogic WireFacts RoundProofs ArithProofs.
Open Scope Z_scope.

Definition U : Z := 2 ^ 124.
Lemma U_pos : 0 < U.
Proof. reflexivity. Qed.
Lemma one_U : 2 ^ 149 = 33554432 * U.
Proof. reflexivity. Qed.

Lemma abs_le x k : - k <= x <= k -> Z.abs x <= k.
Proof. lia. Qed.
Lemma div_pos_le K x y : 0 < K -> x * K <= y * K -> x <= y.
Proof. intros H. apply Z.mul_le_mono_pos_r. exact H. Qed.

(** the parts of the new format *)
Lemma new_part_value d : 0 <= d < 2 ^ 18 -> exists v, fin (new_part d) v /\
  Z.abs v <= 23726567 * U /\ Z.abs (v * 262143 - (2 * d - 262143) * (23726566 * U)) <= 4 * U * 262143.
Proof.
  intros Hd. pose proof U_pos as HU. pose proof one_U as HK. unfold new_part, smul, ssub, sdiv, sf.
  destruct (rnd_error _ _ _ 0 (quotient_rnd d 262143 ltac:(lia) ltac:(lia)) ltac:(lia)) as (p & Fp & P1 & P2 & P3 & _).
  { change (149 + 0) with 149. rewrite HK. lia. }
  change (149 + 0) with 149 in P2. change (2 ^ (125 + 0)) with (2 * U) in P1. rewrite HK in P1, P2, P3. specialize (P3 ltac:(lia)).
  set (xp := SFdiv 24 128 (binary_normalize 24 128 d 0 false) (binary_normalize 24 128 262143 0 false)) in *. clearbody xp.
  change (SFdiv 24 128 (binary_normalize 24 128 1 0 false) (binary_normalize 24 128 2 0 false)) with (S754_finite false 8388608 (-24)).
  assert (Fh : fin (S754_finite false 8388608 (-24)) (16777216 * U)) by (cbn [fin]; repeat split; try reflexivity; lia).
  assert (B150 : 2 ^ 150 = 67108864 * U) by reflexivity.
  destruct (rnd_error _ _ _ (-1) (sub_rnd _ _ _ _ Fp Fh ltac:(lia) ltac:(lia)) ltac:(lia)) as (s & Fs & S1 & S2 & _ & _).
  { change (2 ^ (149 + -1)) with (16777216 * U). lia. }
  change (2 ^ (149 + -1)) with (16777216 * U) in S2. change (2 ^ (125 + -1)) with U in S1.
  set (xs := SFsub 24 128 xp (S754_finite false 8388608 (-24))) in *. clearbody xs.
  change (binary_normalize 24 128 2 0 false) with (S754_finite false 8388608 (-22)).
  assert (Ft : fin (S754_finite false 8388608 (-22)) (67108864 * U)) by (cbn [fin]; repeat split; try reflexivity; lia).
  assert (B170 : 2 ^ 170 = 70368744177664 * U) by reflexivity.
  destruct (rnd_error _ _ _ 0 (mul_rnd _ _ _ _ Fs Ft ltac:(lia) ltac:(lia)) ltac:(lia)) as (r & Fr & R1 & R2 & _ & _).
  { change (149 + 0) with 149. rewrite Z.abs_mul, (Z.abs_eq (67108864 * U)) by lia. rewrite HK. clear - S2 HU. nia. }
  change (149 + 0) with 149 in R2. change (2 ^ (125 + 0)) with (2 * U) in R1. rewrite HK in R1, R2.
  set (xr := SFmul 24 128 xs (S754_finite false 8388608 (-22))) in *. clearbody xr.
  assert (Fc : fin inv_sqrt2 (23726566 * U)) by (cbn [fin inv_sqrt2]; repeat split; try reflexivity; lia).
  destruct (rnd_error _ _ _ 0 (mul_rnd _ _ _ _ Fr Fc ltac:(lia) ltac:(lia)) ltac:(lia)) as (v & Fv & V1 & V2 & _ & _).
  { change (149 + 0) with 149. rewrite Z.abs_mul, (Z.abs_eq (23726566 * U)) by lia. rewrite HK. clear - R2 HU. nia. }
  change (149 + 0) with 149 in V2. change (2 ^ (125 + 0)) with (2 * U) in V1. rewrite HK in V1, V2.
  exists v. split; [exact Fv|]. clear - HU P1 P2 P3 S1 S2 R1 R2 V1 V2 Hd.
  assert (R1' : Z.abs (r - 2 * s) <= U).
  { apply (div_pos_le (33554432 * U)); [lia|].
    replace (r * (33554432 * U) - s * (67108864 * U)) with ((r - 2 * s) * (33554432 * U)) in R1 by ring.
    rewrite Z.abs_mul, (Z.abs_eq (33554432 * U)) in R1 by lia. lia. }
  assert (V1' : Z.abs (v * 33554432 - r * 23726566) <= U * 33554432).
  { apply (div_pos_le U); [lia|].
    replace (v * (33554432 * U) - r * (23726566 * U)) with ((v * 33554432 - r * 23726566) * U) in V1 by ring.
    rewrite Z.abs_mul, (Z.abs_eq U) in V1 by lia. lia. }
  clear V1 R1. generalize dependent U. intros U. intros. split; lia.
Qed.

Lemma new_part_near d : 0 <= d < 2 ^ 18 -> part_near d (bits_of_sf (new_part d)).
Proof.
  intros Hd. destruct (new_part_value d Hd) as (v & F & _ & E). exists v. split; [apply fin_scaled, F|].
  pose proof U_pos as HU. rewrite one_U. change (2 ^ 127) with (8 * U). change (10 ^ 8) with 100000000. change (2 ^ 18) with 262144 in Hd.
  clear F. generalize dependent U. intros U E HU. nia.
Qed.

(** the parts of the old format *)
Lemma old_part_value d : 0 <= d < 2 ^ 16 -> exists v, fin (old_part d) v /\
  Z.abs (v * 32767 - (d - 32768) * (33554432 * U)) <= 4 * U * 32767.
Proof.
  intros Hd. pose proof U_pos as HU. pose proof one_U as HK. unfold old_part, smul, sdiv, sf.
  change (2 ^ 16) with 65536 in Hd.
  assert (B110 : U = 16384 * 2 ^ 110) by reflexivity. assert (H110 : 0 < 2 ^ 110) by reflexivity.
  assert (B135 : 2 ^ 135 = 2048 * U) by reflexivity.
  destruct (rnd_error _ _ _ (-14) (quotient_rnd 1 32767 ltac:(lia) ltac:(lia)) ltac:(lia)) as (p & Fp & P1 & P2 & P3 & _).
  { change (149 + -14) with 135. rewrite HK, B135. lia. }
  change (149 + -14) with 135 in P2. change (2 ^ (125 + -14)) with (2 * 2 ^ 110) in P1. rewrite HK in P1, P3. rewrite B135 in P2. specialize (P3 ltac:(lia)).
  set (xp := SFdiv 24 128 (binary_normalize 24 128 1 0 false) (binary_normalize 24 128 32767 0 false)) in *. clearbody xp.
  assert (exists xn, binary_normalize 24 128 (d - 32768) 0 false = xn /\ fin xn ((d - 32768) * (33554432 * U))) as (xn & -> & Fn).
  { eexists. split; [reflexivity|]. rewrite <- HK. pose proof (normalize_rnd (d - 32768) 0 false 149) as N.
    assert (D : Zdigits2 (Z.abs (d - 32768)) <= 16) by (apply digits_le; [change (2 ^ 16) with 65536; lia|lia]).
    specialize (N ltac:(lia) ltac:(lia) ltac:(lia)). change (0 + 149) with 149 in N. change (2 ^ (149 - 149)) with 1 in N.
    destruct N as (_ & v & Fv & Nv). destruct (grid (d - 32768) 149) as (g & Fg); [change (2 ^ 24) with 16777216; lia|lia|].
    specialize (Nv g _ Fg). replace v with ((d - 32768) * 2 ^ 149) in Fv; [exact Fv|].
    set (K := 2 ^ 149) in *. clearbody K. lia. }
  assert (B170 : 2 ^ 170 = 70368744177664 * U) by reflexivity.
  destruct (rnd_error _ _ _ 1 (mul_rnd _ _ _ _ Fn Fp ltac:(lia) ltac:(lia)) ltac:(lia)) as (v & Fv & V1 & V2 & _ & _).
  { change (2 ^ (149 + 1)) with (67108864 * U). rewrite HK.
    replace ((d - 32768) * (33554432 * U) * p) with ((d - 32768) * p * (33554432 * U)) by ring.
    rewrite Z.abs_mul, (Z.abs_eq (33554432 * U)) by lia. apply Z.mul_le_mono_nonneg_r; [lia|].
    rewrite Z.abs_mul, (Z.abs_eq p) by lia. clear - P2 P3 HU Hd. nia. }
  change (2 ^ (125 + 1)) with (4 * U) in V1. rewrite HK in V1.
  exists v. split; [exact Fv|]. clear - HU B110 H110 P1 P2 P3 V1 Hd.
  assert (V1' : Z.abs (v - (d - 32768) * p) <= 2 * U).
  { apply (div_pos_le (33554432 * U)); [lia|].
    replace (v * (33554432 * U) - (d - 32768) * (33554432 * U) * p) with ((v - (d - 32768) * p) * (33554432 * U)) in V1 by ring.
    rewrite Z.abs_mul, (Z.abs_eq (33554432 * U)) in V1 by lia. lia. }
  clear V1.
  assert (P1' : Z.abs ((d - 32768) * (p * 32767 - 33554432 * U)) <= 2 * U * 32767).
  { rewrite Z.abs_mul. replace (2 * U * 32767) with (32768 * (2 ^ 110 * 32767)) by (rewrite B110; ring).
    apply Z.mul_le_mono_nonneg; [lia|lia|lia|]. lia. }
  clear P1 B110. set (n := d - 32768) in *. clearbody n. generalize dependent U. intros U. intros. lia.
Qed.

Lemma old_part_near d : 0 <= d < 2 ^ 16 -> old_near d (bits_of_sf (old_part d)).
Proof.
  intros Hd. destruct (old_part_value d Hd) as (v & F & E). exists v. split; [apply fin_scaled, F|].
  rewrite one_U. change (2 ^ 126) with (4 * U). exact E.
Qed.

(** the component left out *)
Lemma fin_opp f v : fin f v -> fin (SFopp f) (- v).
Proof.
  destruct f as [s|s| |s m e]; cbn [fin SFopp]; try contradiction.
  - intros ->. reflexivity.
  - intros (H1 & H2 & H3 & ->). split; [exact H1|]. split; [exact H2|]. split; [exact H3|]. destruct s; cbn [negb sg]; ring.
Qed.

Lemma nan_scaled : f32_scaled (bits_of_sf S754_nan) = None.
Proof. reflexivity. Qed.
Lemma sqrt_neg f v : fin f v -> v < 0 -> SFsqrt 24 128 f = S754_nan.
Proof.
  destruct f as [s|s| |s m e]; cbn [fin SFsqrt]; try contradiction; [lia|].
  intros (_ & H & _ & ->) L. destruct s; [reflexivity|]. exfalso. assert (0 < 2 ^ (e + 149)) by (apply Z.pow_pos_nonneg; lia).
  change (sg false) with 1 in L. nia.
Qed.

Lemma rest_value x y z a b c : fin x a -> fin y b -> fin z c ->
  Z.abs a <= 23726567 * U -> Z.abs b <= 23726567 * U -> Z.abs c <= 23726567 * U ->
  exists v, fin (sf_fma z (SFopp z) (sf_fma y (SFopp y) (sf_fma x (SFopp x) (sf 1)))) v /\ Z.abs v <= 2 ^ 149 /\
    Z.abs (v * 2 ^ 149 + a * a + b * b + c * c - 2 ^ 149 * 2 ^ 149) <= 3 * U * 2 ^ 149.
Proof.
  intros Fx Fy Fz Ha Hb Hc. pose proof U_pos as HU. pose proof one_U as HK.
  assert (B150 : 2 ^ 150 = 67108864 * U) by reflexivity.
  assert (SQ : forall t, Z.abs t <= 23726567 * U -> 0 <= t * t <= 562949982000000 * (U * U)).
  { intros t Ht. clear - Ht HU. split; [nia|]. rewrite <- (Z.abs_square t).
    apply Z.le_trans with (23726567 * U * (23726567 * U)); [apply Z.mul_le_mono_nonneg; lia|]. nia. }
  pose proof (SQ a Ha) as Qa. pose proof (SQ b Hb) as Qb. pose proof (SQ c Hc) as Qc. clear SQ.
  assert (F1 : fin (sf 1) (33554432 * U)) by (cbn; repeat split; try reflexivity; lia).
  assert (U2 : 0 < U * U) by (apply Z.mul_pos_pos; lia).
  destruct (rnd_error _ _ _ 0 (fma_rnd _ _ _ _ _ _ Fx (fin_opp _ _ Fx) F1 ltac:(lia) ltac:(lia) ltac:(lia)) ltac:(lia)) as (p & Fp & P1 & P2 & _ & _).
  { change (149 + 0) with 149. rewrite HK. clear - HU Qa U2. lia. }
  change (149 + 0) with 149 in P2. change (2 ^ (125 + 0)) with (2 * U) in P1. rewrite HK in P1, P2.
  destruct (rnd_error _ _ _ 0 (fma_rnd _ _ _ _ _ _ Fy (fin_opp _ _ Fy) Fp ltac:(lia) ltac:(lia) ltac:(lia)) ltac:(lia)) as (q & Fq & Q1 & Q2 & _ & _).
  { change (149 + 0) with 149. rewrite HK.
    assert (p * (33554432 * U) <= 33554432 * U * (33554432 * U)) by (apply Z.mul_le_mono_nonneg_r; lia).
    clear - HU Qa Qb P1 U2 H. lia. }
  change (149 + 0) with 149 in Q2. change (2 ^ (125 + 0)) with (2 * U) in Q1. rewrite HK in Q1, Q2.
  destruct (rnd_error _ _ _ 0 (fma_rnd _ _ _ _ _ _ Fz (fin_opp _ _ Fz) Fq ltac:(lia) ltac:(lia) ltac:(lia)) ltac:(lia)) as (v & Fv & V1 & V2 & _ & _).
  { change (149 + 0) with 149. rewrite HK.
    assert (q * (33554432 * U) <= 33554432 * U * (33554432 * U)) by (apply Z.mul_le_mono_nonneg_r; lia).
    clear - HU Qa Qb Qc P1 Q1 U2 H. lia. }
  change (149 + 0) with 149 in V2. change (2 ^ (125 + 0)) with (2 * U) in V1. rewrite HK in V1.
  exists v. split; [exact Fv|]. split; [exact V2|]. rewrite HK. clear - P1 Q1 V1. lia.
Qed.

Lemma largest_completes a b c : 0 <= a < 2 ^ 18 -> 0 <= b < 2 ^ 18 -> 0 <= c < 2 ^ 18 ->
  completes (bits_of_sf (new_part a)) (bits_of_sf (new_part b)) (bits_of_sf (new_part c))
    (bits_of_sf (largest_part (new_part a) (new_part b) (new_part c))).
Proof.
  intros Ha Hb Hc x y z Sx Sy Sz s.
  destruct (new_part_value a Ha) as (x' & Fx & Bx & _). destruct (new_part_value b Hb) as (y' & Fy & By & _).
  destruct (new_part_value c Hc) as (z' & Fz & Bz & _).
  rewrite (fin_scaled _ _ Fx) in Sx. rewrite (fin_scaled _ _ Fy) in Sy. rewrite (fin_scaled _ _ Fz) in Sz.
  apply some_eq in Sx, Sy, Sz. subst x' y' z'.
  destruct (rest_value _ _ _ _ _ _ Fx Fy Fz Bx By Bz) as (v & Fv & V1 & V2). unfold largest_part, ssqrt.
  set (f := sf_fma (new_part c) (SFopp (new_part c)) (sf_fma (new_part b) (SFopp (new_part b)) (sf_fma (new_part a) (SFopp (new_part a)) (sf 1)))) in *.
  clearbody f. pose proof U_pos as HU. pose proof one_U as HK.
  replace (v * 2 ^ 149 + x * x + y * y + z * z - 2 ^ 149 * 2 ^ 149) with (v * 2 ^ 149 + s - 2 ^ 149 * 2 ^ 149) in V2 by (subst s; ring).
  clearbody s.
  change (2 ^ 298) with (2 ^ 149 * 2 ^ 149). change (2 ^ 275) with (4 * U * 2 ^ 149). change (2 ^ 276) with (8 * U * 2 ^ 149).
  assert (K0 : 0 < 2 ^ 149) by reflexivity.
  assert (KU : U < 2 ^ 149) by reflexivity.
  assert (UK : 0 < U * 2 ^ 149) by reflexivity.
  destruct (Z.lt_ge_cases v 0) as [L|L].
  - rewrite (sqrt_neg f v Fv L). rewrite nan_scaled. set (K := 2 ^ 149) in *.
    assert (v * K < 0) by (apply Z.mul_neg_pos; [exact L|reflexivity]). clearbody K.
    split; [|split].
    + intros C. exfalso. assert (v * K <= - K) by nia. lia.
    + reflexivity.
    + discriminate.
  - destruct (sqrt_error f v Fv ltac:(lia)) as (w & Fw & W1 & W2). rewrite (fin_scaled _ _ Fw).
    change (2 ^ 124) with U in W2. set (K := 2 ^ 149) in *. clearbody K.
    assert (0 <= v * K) by (apply Z.mul_nonneg_nonneg; lia).
    split; [|split].
    + discriminate.
    + intros C. exfalso. lia.
    + intros d Hd. apply some_eq in Hd. subst d. split; [lia|].
      assert (3 * U * U <= U * K) by nia. lia.
Qed.

(** ** The decoders *)

Lemma w_quat_new_near i q o : w_quat_new i q o -> exists k a b c, w_quad i (k, a, b, c) o /\ quaternion_near k a b c q.
Proof.
  intros (k & i1 & Hk & a & i2 & Ha & b & i3 & Hb & c & i4 & Hc & -> & ->). exists k, a, b, c. split.
  - exists k, i1. split; [exact Hk|]. exists a, i2. split; [exact Ha|]. exists b, i3. split; [exact Hb|].
    exists c, i4. split; [exact Hc|]. split; reflexivity.
  - destruct Ha as [Ha _], Hb as [Hb _], Hc as [Hc _]. change (2 ^ Z.of_nat 18) with (2 ^ 18) in *.
    eexists _, _, _, _. split; [apply new_part_near, Ha|]. split; [apply new_part_near, Hb|]. split; [apply new_part_near, Hc|].
    split; [apply largest_completes; assumption|]. reflexivity.
Qed.

Lemma w_quat_old_near i q o : w_quat_old i q o -> exists a b c, w_triple i (a, b, c) o /\
  old_near a (q_x q) /\ old_near b (q_y q) /\ old_near c (q_z q) /\ q_w q = 0.
Proof.
  intros (a & i2 & Ha & b & i3 & Hb & c & i4 & Hc & -> & ->). exists a, b, c. split.
  - exists a, i2. split; [exact Ha|]. exists b, i3. split; [exact Hb|]. exists c, i4. split; [exact Hc|]. split; reflexivity.
  - destruct Ha as [Ha _], Hb as [Hb _], Hc as [Hc _]. change (2 ^ Z.of_nat 16) with (2 ^ 16) in *.
    cbn [q_x q_y q_z q_w]. split; [apply old_part_near, Ha|]. split; [apply old_part_near, Hb|]. split; [apply old_part_near, Hc|]. reflexivity.
Qed.

Lemma quat_near B : bitter_ok B -> forall r q r', reader_ok r -> quat_decode B r = (Ok q, r') ->
  exists k a b c, w_quad (flat r) (k, a, b, c) (flat r') /\ quaternion_near k a b c q.
Proof.
  intros HB r q r' W H. apply w_quat_new_near.
  pose proof (acc_quat_decode B HB r W) as A. rewrite H in A. apply A; auto.
Qed.

Lemma quat_old_near B : bitter_ok B -> forall r q r', reader_ok r -> quat_decode_compressed B r = (Ok q, r') ->
  exists a b c, w_triple (flat r) (a, b, c) (flat r') /\
    old_near a (q_x q) /\ old_near b (q_y q) /\ old_near c (q_z q) /\ q_w q = 0.
Proof.
  intros HB r q r' W H. apply w_quat_old_near.
  pose proof (acc_quat_old B HB r W) as A. rewrite H in A. apply A; auto.
Qed.

Lemma near_unit k a b c q : quaternion_near k a b c q ->
  f32_scaled (q_x q) <> None -> f32_scaled (q_y q) <> None -> f32_scaled (q_z q) <> None -> f32_scaled (q_w q) <> None ->
  unit_length q.
Proof.
  intros (x & y & z & e & (x' & Sx & _) & (y' & Sy & _) & (z' & Sz & _) & C & E) H1 H2 H3 H4.
  destruct (C x' y' z' Sx Sy Sz) as (_ & _ & D). cbv zeta in D.
  assert (He : f32_scaled e <> None).
  { subst q. clear - H1 H2 H3 H4. destruct k as [|[[p|p|]|[p|p|]|]|p]; assumption. }
  destruct (f32_scaled e) as [d|] eqn:Se; [|congruence]. destruct (D d eq_refl) as [_ L]. clear D C H1 H2 H3 H4 He.
  set (N := 2 ^ 298) in *. set (M := 2 ^ 276) in *.
  assert (G : q = mkQuat e x y z \/ q = mkQuat x e y z \/ q = mkQuat x y e z \/ q = mkQuat x y z e).
  { subst q. destruct k as [|[[p|p|]|[p|p|]|]|p]; auto. }
  clear E. unfold unit_length. fold N M. destruct G as [-> | [-> | [-> | ->]]]; cbn [q_x q_y q_z q_w]; eexists _, _, _, _;
    (split; [eassumption|]); (split; [eassumption|]); (split; [eassumption|]); (split; [eassumption|]); clearbody N M; lia.
Qed.

Lemma quat_unit B : bitter_ok B -> forall r q r', reader_ok r -> quat_decode B r = (Ok q, r') ->
  f32_scaled (q_x q) <> None -> f32_scaled (q_y q) <> None -> f32_scaled (q_z q) <> None -> f32_scaled (q_w q) <> None ->
  unit_length q.
Proof.
  intros HB r q r' W H. destruct (quat_near B HB r q r' W H) as (k & a & b & c & _ & N). exact (near_unit k a b c q N).
Qed.

(** ** Recovering the integers *)

Lemma part_near_injective x m n : part_near m x -> part_near n x -> m = n.
Proof.
  intros (v & E & Hm) (w & E' & Hn). rewrite E in E'. apply some_eq in E'. subst w. clear E.
  change (2 ^ 127) with (8 * U) in *. rewrite one_U in *. pose proof U_pos as HU. change (10 ^ 8) with 100000000 in *.
  generalize dependent U. intros U Hm Hn HU.
  set (d := m - n). assert (m = n + d) by (subst d; ring). clearbody d. subst m.
  assert (Z.abs (d * U) < U) by lia. rewrite Z.abs_mul, (Z.abs_eq U) in H by lia. nia.
Qed.

Lemma old_near_injective x m n : old_near m x -> old_near n x -> m = n.
Proof.
  intros (v & E & Hm) (w & E' & Hn). rewrite E in E'. apply some_eq in E'. subst w. clear E.
  change (2 ^ 126) with (4 * U) in *. rewrite one_U in *. pose proof U_pos as HU.
  generalize dependent U. intros U Hm Hn HU.
  set (d := m - n). assert (m = n + d) by (subst d; ring). clearbody d. subst m.
  assert (Z.abs (d * U) < U) by lia. rewrite Z.abs_mul, (Z.abs_eq U) in H by lia. nia.
Qed.

Lemma quaternion_near_injective k a b c a' b' c' q : 0 <= k < 4 ->
  quaternion_near k a b c q -> quaternion_near k a' b' c' q -> a = a' /\ b = b' /\ c = c'.
Proof.
  intros Hk (x & y & z & e & X & Y & Z & _ & E) (x' & y' & z' & e' & X' & Y' & Z' & _ & E').
  assert (x = x' /\ y = y' /\ z = z') as (<- & <- & <-).
  { subst q. assert (k = 0 \/ k = 1 \/ k = 2 \/ k = 3) as [-> | [-> | [-> | ->]]] by lia; injection E'; auto. }
  split; [exact (part_near_injective x a a' X X')|]. split; [exact (part_near_injective y b b' Y Y')|].
  exact (part_near_injective z c c' Z Z').
Qed.

Lemma quat_recoverable B : bitter_ok B -> forall r q r' s s', reader_ok r -> reader_ok s ->
  quat_decode B r = (Ok q, r') -> quat_decode B s = (Ok q, s') ->
  exists k a b c k' a' b' c', w_quad (flat r) (k, a, b, c) (flat r') /\ w_quad (flat s) (k', a', b', c') (flat s') /\
    (k = k' -> a = a' /\ b = b' /\ c = c').
Proof.
  intros HB r q r' s s' W W' H H'.
  destruct (quat_near B HB r q r' W H) as (k & a & b & c & I & N). destruct (quat_near B HB s q s' W' H') as (k' & a' & b' & c' & I' & N').
  exists k, a, b, c, k', a', b', c'. split; [exact I|]. split; [exact I'|]. intros <-.
  refine (quaternion_near_injective k a b c a' b' c' q _ N N').
  destruct I as (k0 & i1 & [Hk _] & a0 & i2 & _ & b0 & i3 & _ & c0 & i4 & _ & E & _).
  injection E; intros; subst. exact Hk.
Qed.

Lemma quat_old_recoverable B : bitter_ok B -> forall r q r' s s', reader_ok r -> reader_ok s ->
  quat_decode_compressed B r = (Ok q, r') -> quat_decode_compressed B s = (Ok q, s') ->
  exists t, w_triple (flat r) t (flat r') /\ w_triple (flat s) t (flat s').
Proof.
  intros HB r q r' s s' W W' H H'.
  destruct (quat_old_near B HB r q r' W H) as (a & b & c & I & X & Y & Z & _).
  destruct (quat_old_near B HB s q s' W' H') as (a' & b' & c' & I' & X' & Y' & Z' & _).
  rewrite <- (old_near_injective _ _ _ X X'), <- (old_near_injective _ _ _ Y Y'), <- (old_near_injective _ _ _ Z Z') in I'.
  exists (a, b, c). split; assumption.
Qed.

Definition f32_value (x : f32) : Z := match f32_scaled x with Some v => v | None => 0 end.

Lemma quat_example : exists r q r', reader_ok r /\ quat_decode std_bitter r = (Ok q, r') /\
  q = mkQuat 0x3E4CCCA1 0x3E99994D 0x3F4E4053 0xBEF0A3BA /\ unit_length q /\
  ~ unit_length (mkQuat 0x3E4CCCA1 0x3E99994D (0x3F4E4053 + 8) 0xBEF0A3BA) /\
  part_near 168144 (q_x q) /\ ~ part_near 168145 (q_x q) /\
  fst (quat_decode_compressed std_bitter r) = Ok (mkQuat 0xBEF2F9E6 0x3E1C5139 0x3F57DBB0 0).
Proof.
  eexists (reader_new [x42; x43; x8a; x93; xed; xeb; x2a; x00] (repeat x00 1024)), _, _.
  split; [split; vm_compute; auto; lia|]. split; [vm_compute; reflexivity|]. split; [vm_compute; reflexivity|].
  assert (P : part_near 168144 0x3E4CCCA1).
  { exists (f32_value 0x3E4CCCA1). split; [vm_compute; reflexivity|]. vm_compute. discriminate. }
  split; [|split; [|split; [|split; [|vm_compute; reflexivity]]]].
  - exists (f32_value 0x3E4CCCA1), (f32_value 0x3E99994D), (f32_value 0x3F4E4053), (f32_value 0xBEF0A3BA).
    do 4 (split; [vm_compute; reflexivity|]). vm_compute. discriminate.
  - intros (x & y & z & w & X & Y & Z & W & L). cbn [q_x q_y q_z q_w] in *. vm_compute in X, Y, Z, W.
    apply some_eq in X, Y, Z, W. subst. vm_compute in L. apply L. reflexivity.
  - exact P.
  - intros C. pose proof (part_near_injective _ _ _ P C). discriminate.
Qed.
