(** * Proofs: floats of decoded vectors *)

From Coq Require Import ZArith List Bool Lia Floats.SpecFloat.
From Verif Require Import Base F32 NetTypes Errors BitReader NetModels BitLemmas Wire SpecReader SpecFacts SpecRound
  VectorProofs LeafProofs ReaderLogic WireFacts RoundProofs.
Open Scope Z_scope.

Lemma hundredths_nearest n : Z.abs n <= 2 ^ 22 -> nearest (hundredths n) n 100.
Proof. intros H. apply quotient_100. change (2 ^ 24) with (4 * 2 ^ 22). lia. Qed.

Lemma vec3f_nearest net i v o : w_vec3f net i v o -> exists u, w_vec3i net i u o /\
    (Z.abs (v3i_x u) <= 2 ^ 22 /\ nearest (v3f_x v) (v3i_x u) 100) /\
    (Z.abs (v3i_y u) <= 2 ^ 22 /\ nearest (v3f_y v) (v3i_y u) 100) /\
    (Z.abs (v3i_z u) <= 2 ^ 22 /\ nearest (v3f_z v) (v3i_z u) 100).
Proof.
  intros (u & H & ->). exists u. split; [exact H|]. cbn [v3f_x v3f_y v3f_z].
  destruct (w_vec3i_range net i u o H) as (s & Hs & X & Y & Z).
  assert (2 ^ (s + 1) <= 2 ^ 22).
  { apply Z.pow_le_mono_r; [lia|]. unfold vec_bound in Hs. destruct (net <? 7); lia. }
  assert (Z.abs (v3i_x u) <= 2 ^ 22) by lia. assert (Z.abs (v3i_y u) <= 2 ^ 22) by lia.
  assert (Z.abs (v3i_z u) <= 2 ^ 22) by lia.
  repeat match goal with |- _ /\ _ => split end; try assumption; apply hundredths_nearest; assumption.
Qed.

Lemma vector_nearest B : bitter_ok B -> forall net r v r', reader_ok r ->
  vector3f_decode B net r = (Ok v, r') ->
  exists u, w_vec3i net (flat r) u (flat r') /\
    (Z.abs (v3i_x u) <= 2 ^ 22 /\ nearest (v3f_x v) (v3i_x u) 100) /\
    (Z.abs (v3i_y u) <= 2 ^ 22 /\ nearest (v3f_y v) (v3i_y u) 100) /\
    (Z.abs (v3i_z u) <= 2 ^ 22 /\ nearest (v3f_z v) (v3i_z u) 100).
Proof.
  intros HB net r v r' W H. apply vec3f_nearest.
  pose proof (acc_vec3f B HB net r W) as A. rewrite H in A. apply A; auto.
Qed.

(** ** Recovering the integer *)

Lemma finite_pattern_range s m e : Zpos m < 2 ^ 24 -> -149 <= e <= 104 -> 0 <= bits_of_sf (S754_finite s m e) < 2 ^ 32.
Proof.
  intros Hm He. unfold bits_of_sf. change (2 ^ 24) with 16777216 in Hm. change (2 ^ 23) with 8388608.
  change (2 ^ 31) with 2147483648. change (2 ^ 32) with 4294967296.
  destruct (Z.ltb_spec (Zpos m) 8388608); destruct s; lia.
Qed.

(** a multiple of 1/256 with 24 digits *)
Lemma fraction_float t : Z.abs t < 2 ^ 24 -> exists y, 0 <= y < 2 ^ 32 /\ f32_scaled y = Some (t * 2 ^ 141).
Proof.
  assert (P : forall s p, Zpos p < 2 ^ 24 -> exists y, 0 <= y < 2 ^ 32 /\ f32_scaled y = Some (sg s * Zpos p * 2 ^ 141)).
  { intros s p Hp. destruct (round_small s p Hp) as (m & k & Hk & Hm & D & _).
    destruct (digits_bound (Zpos m) ltac:(lia)) as [L U]. rewrite D in L, U.
    exists (bits_of_sf (S754_finite s m (- k - 8))). split; [apply finite_pattern_range; lia|].
    destruct (scaled_finite s m (- k - 8)) as [-> _]; [lia|lia|change (24 - 1) with 23 in L; lia|].
    f_equal. rewrite Hm. replace 141 with (k + (- k - 8 + 149)) by lia. rewrite (Z.pow_add_r 2 k) by lia. ring. }
  intros Ht. destruct t as [|p|p].
  - exists 0. split; [lia|reflexivity].
  - destruct (P false p ltac:(lia)) as (y & Hy & E). exists y. split; [exact Hy|]. rewrite E. f_equal.
  - destruct (P true p ltac:(lia)) as (y & Hy & E). exists y. split; [exact Hy|]. rewrite E. f_equal.
Qed.

Lemma nearest_error x n : Z.abs n <= 2 ^ 22 -> nearest x n 100 ->
  exists v, f32_scaled x = Some v /\ Z.abs (v * 100 - n * 2 ^ 149) <= 50 * 2 ^ 141.
Proof.
  intros Hn (v & Hv & N). exists v. split; [exact Hv|].
  pose (t := (n * 256 + 50) / 100).
  pose proof (Z.div_mod (n * 256 + 50) 100 ltac:(lia)) as D. pose proof (Z.mod_pos_bound (n * 256 + 50) 100 ltac:(lia)) as M.
  fold t in D. change (2 ^ 22) with 4194304 in Hn.
  destruct (fraction_float t) as (y & Hy & E); [change (2 ^ 24) with 16777216; clearbody t; lia|].
  destruct (N y _ Hy E) as [B _]. eapply Z.le_trans; [exact B|]. change (2 ^ 149) with (256 * 2 ^ 141).
  set (c := 2 ^ 141). assert (0 < c) by (subst c; reflexivity). clearbody c t.
  replace (t * c * 100 - n * (256 * c)) with ((t * 100 - n * 256) * c) by ring.
  rewrite Z.abs_mul, (Z.abs_eq c) by lia. apply Z.mul_le_mono_nonneg_r; lia.
Qed.

Lemma nearest_injective x m n : Z.abs m <= 2 ^ 22 -> Z.abs n <= 2 ^ 22 ->
  nearest x m 100 -> nearest x n 100 -> m = n.
Proof.
  intros Hm Hn Nm Nn. destruct (nearest_error x m Hm Nm) as (v & Ev & Bv). destruct (nearest_error x n Hn Nn) as (w & Ew & Bw).
  rewrite Ev in Ew. apply some_eq in Ew. subst w. change (2 ^ 149) with (256 * 2 ^ 141) in Bv, Bw.
  set (c := 2 ^ 141) in *. assert (0 < c) by (subst c; reflexivity). clearbody c. clear - Bv Bw H.
  assert (B : Z.abs ((m - n) * 256 * c) <= 100 * c) by (replace ((m - n) * 256 * c) with (m * (256 * c) - n * (256 * c)) by ring; lia).
  rewrite Z.abs_mul, (Z.abs_eq c) in B by lia. apply Z.mul_le_mono_pos_r in B; lia.
Qed.

Lemma vector_injective B : bitter_ok B -> forall net net' r q v r' q', reader_ok r -> reader_ok q ->
  vector3f_decode B net r = (Ok v, r') -> vector3f_decode B net' q = (Ok v, q') ->
  exists u, w_vec3i net (flat r) u (flat r') /\ w_vec3i net' (flat q) u (flat q').
Proof.
  intros HB net net' r q v r' q' R Q E F.
  destruct (vector_nearest B HB net r v r' R E) as ([x y z] & W & (Bx & X) & (By & Y) & Bz & Z).
  destruct (vector_nearest B HB net' q v q' Q F) as ([x2 y2 z2] & W' & (Bx' & X') & (By' & Y') & Bz' & Z').
  cbn [v3i_x v3i_y v3i_z] in *.
  rewrite <- (nearest_injective _ _ _ Bx Bx' X X'), <- (nearest_injective _ _ _ By By' Y Y'),
    <- (nearest_injective _ _ _ Bz Bz' Z Z') in W'. eauto.
Qed.

Lemma nearest_example : exists r v r', reader_ok r /\ vector3f_decode std_bitter 10 r = (Ok v, r') /\
  v3f_x v = 0xC04AE148 /\ nearest (v3f_x v) (-317) 100 /\ ~ nearest (v3f_x v + 1) (-317) 100.
Proof.
  eexists (reader_new [x38; x0c; x99; x00; x02] (repeat x00 1024)), _, _.
  split; [split; vm_compute; auto; lia|]. split; [vm_compute; reflexivity|]. split; [reflexivity|].
  cbn [v3f_x]. split; [apply (hundredths_nearest (-317)); vm_compute; discriminate|].
  intros (v & Hv & N). specialize (N 0xC04AE148).
  destruct (f32_scaled 0xC04AE148) as [w|] eqn:Ew; [|vm_compute in Ew; discriminate].
  destruct (N w ltac:(lia) eq_refl) as [B _]. vm_compute in Hv, Ew. apply some_eq in Hv, Ew. subst v w.
  vm_compute in B. apply B. reflexivity.
Qed.
