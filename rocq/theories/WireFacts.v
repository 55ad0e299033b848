(** * Facts about the wire formats used by the property theorems *)

From Coq Require Import ZArith List Bool Lia ZifyBool ZifyNat.
From Verif Require Import Base Text F32 NetTypes Errors BitReader NetModels Attributes
  BitLemmas Wire SpecReader ReaderLogic LeafProofs VectorProofs TextWireProofs AttrProofs.
Open Scope Z_scope.

Lemma acc_implements {E A} (m : rd E A) P : acc m P -> implements m P.
Proof.
  intros H r W. specialize (H r W). destruct (m r) as [[v|e|p] s].
  - destruct H as (V & _ & H). split; [|left; eauto].
    intros v' after. rewrite H. split.
    + intros [-> ->]. exists s. auto.
    + intros (r' & [= <- <-] & <- & _). auto.
  - destruct H as (V & _ & H). split; [|right; eauto].
    intros v' after. split; [intros K; exfalso; eapply H; eauto|].
    intros (r' & [=] & _).
  - tauto.
Qed.

Section Props.
Context (B : bitter) (HB : bitter_ok B).

(** *** Bounded integers *)
Lemma read_bounded_impl max : 1 <= max ->
  implements (read_bits_max_computed B (Z.to_nat (Z.log2 max)) max) (w_bounded max).
Proof.
  intros H. apply acc_implements, acc_read_bounded; auto.
  rewrite Z2Nat.id; auto. apply Z.log2_nonneg.
Qed.

Lemma enc_bounded_length max x : 1 <= max -> 0 <= x < max ->
  Z.of_nat (length (enc_bounded max x)) = Z.log2 max \/
  Z.of_nat (length (enc_bounded max x)) = Z.log2 max + 1.
Proof.
  intros Hm Hx. unfold enc_bounded. rewrite app_length, enc_bits_length.
  pose proof (Z.log2_nonneg max).
  destruct (x mod 2 ^ Z.log2 max + 2 ^ Z.log2 max <? max); simpl length; lia.
Qed.

(** no encoding is a proper prefix of another *)
Lemma enc_bounded_prefix_free max x y t u : 1 <= max -> 0 <= x < max -> 0 <= y < max ->
  enc_bounded max x ++ t = enc_bounded max y ++ u -> x = y /\ t = u.
Proof.
  intros Hm Hx Hy E.
  set (k := Z.to_nat (Z.log2 max)).
  assert (Hk : Z.of_nat k = Z.log2 max) by (unfold k; rewrite Z2Nat.id; auto; apply Z.log2_nonneg).
  assert (K1 : w_bounded max (enc_bounded max x ++ t) x t) by (split; auto).
  assert (K2 : w_bounded max (enc_bounded max x ++ t) y u) by (split; auto).
  rewrite w_bounded_iff with (k := k) in K1, K2 by auto.
  destruct K1 as (a & m & U1 & T1). destruct K2 as (b & m' & U2 & T2).
  destruct U1 as [R1 U1]. destruct U2 as [R2 U2]. rewrite U1 in U2.
  apply app_inj_len in U2 as [E1 E2]; [|now rewrite !enc_bits_length].
  assert (a = b).
  { apply (f_equal bits_Z) in E1. rewrite !bits_Z_enc, !Z.mod_small in E1 by lia. auto. }
  subst b m'. unfold bounded_tail in *.
  destruct (max <=? a + 2 ^ Z.of_nat k).
  - destruct T1 as [-> ->], T2 as [-> ->]. auto.
  - destruct T1 as (c1 & Hc1 & ->), T2 as (c2 & Hc2 & ->). unfold w_bit in *.
    rewrite Hc1 in Hc2. injection Hc2 as -> ->. auto.
Qed.

(** the peeking variant used for actor and stream ids, when the lookahead
    holds enough bits *)
Lemma peek_bounded_impl {E} max r : 1 <= max -> Z.log2 max <= 55 -> reader_ok r ->
  Z.log2 max + 1 <= Z.of_nat (length (lk r)) ->
  exists v s, @peek_bits_max_computed E (Z.to_nat (Z.log2 max)) max r = (Ok v, s) /\
    w_bounded max (flat r) v (flat s) /\ reader_ok s.
Proof.
  intros Hm Hl W L. pose proof (Z.log2_nonneg max).
  assert (A := accp_bounded (E := E) (Z.to_nat (Z.log2 max)) max (length (lk r)) Hm ltac:(lia) ltac:(lia) ltac:(lia)).
  specialize (A r W ltac:(lia)). destruct A as (v & s & E1 & W' & R & L' & P).
  exists v, s. split; auto. split; [apply P; auto|]. auto.
Qed.

(** *** Vectors *)
Lemma w_component_range s i v o : 0 <= s -> w_component s i v o -> - 2 ^ (s + 1) <= v < 2 ^ (s + 1).
Proof.
  intros Hs (d & [R _] & ->). rewrite Z2Nat.id in R by lia.
  replace (s + 2) with (Z.succ (s + 1)) in R by lia. rewrite Z.pow_succ_r in R by lia. lia.
Qed.

Lemma w_vec3i_range net i v o : w_vec3i net i v o ->
  exists s, 0 <= s < vec_bound net /\
    - 2 ^ (s + 1) <= v3i_x v < 2 ^ (s + 1) /\
    - 2 ^ (s + 1) <= v3i_y v < 2 ^ (s + 1) /\
    - 2 ^ (s + 1) <= v3i_z v < 2 ^ (s + 1).
Proof.
  intros (s & m & [R _] & x & m1 & Hx & y & m2 & Hy & z & m3 & Hz & -> & ->).
  exists s. split; auto. simpl.
  split; [eapply w_component_range; [|exact Hx]; lia|].
  split; [eapply w_component_range; [|exact Hy]; lia|].
  eapply w_component_range; [|exact Hz]; lia.
Qed.

(** *** Rigid bodies *)
Lemma w_rigid_velocities D i a o rb : w_attribute D TRigidBody i a o -> a = ARigidBody rb ->
  rb_sleeping rb = false -> (69 <= length o)%nat ->
  rb_linear_velocity rb <> None /\ rb_angular_velocity rb <> None.
Proof.
  intros (sl & m1 & _ & loc & m2 & _ & rot & m3 & _ & H) -> S L.
  destruct sl; [destruct H as [[= ->] _]; discriminate|].
  destruct H as (lin & m4 & Hlin & ang & m5 & Hang & [= ->] & ->).
  assert (V : forall i o, w_velocity (v_net (ad_version D)) i None o -> (length o < 69)%nat).
  { intros i' o' [[H ->]|(H & s & [Hs _] & Ho)]; [lia|].
    unfold vec_bound in Hs. destruct (v_net (ad_version D) <? 7); lia. }
  assert (M : forall i v o, w_velocity (v_net (ad_version D)) i v o -> (length o <= length i)%nat).
  { intros i' [v|] o' H.
    - destruct H as (w & H & _). rewrite w_vec3i_eq in H. destruct H as (s & m & H1 & H2).
      destruct (proj1 H1) as [? _].
      apply w_components_length in H2; auto. apply w_bounded_length in H1. lia.
    - destruct H as [[H ->]|(H & s & H1 & Ho)]; [lia|]. apply w_bounded_length in H1. lia. }
  simpl. split; intros ->; [apply V in Hlin; apply M in Hang; lia|apply V in Hang; lia].
Qed.

(** *** Texts that are rejected *)
Lemma text_bytes_err size bytes r : wf r -> 1024 < bytes \/ Z.of_nat (length (flat r)) < 8 * bytes ->
  fst (text_bytes B size bytes r) = Err (ATooBigString size).
Proof.
  intros W H. rewrite text_bytes_eq by auto. unfold text_bytes'.
  destruct (Z.ltb_spec 1024 bytes); [reflexivity|].
  unfold ok_or, map_err. pose proof (acc_get_bytes B HB (Z.to_nat bytes) ltac:(lia) r W) as G.
  destruct (get_bytes B (Z.to_nat bytes) r) as [[v|[]|p] s]; destruct G as (_ & _ & G); [|reflexivity|tauto].
  exfalso. pose proof (proj2 (G v (flat s)) (conj eq_refl eq_refl)) as K. apply w_bytes_length in K. lia.
Qed.

Lemma text_too_big r n o : wf r -> - 2 ^ 31 <= n < 2 ^ 31 -> n <> 0 -> flat r = enc_bits 32 n ++ o ->
  (let need := if n <? 0 then 2 * - n else n in 1024 < need \/ Z.of_nat (length o) < 8 * need) ->
  fst (decode_text B r) = Err (ATooBigString n).
Proof.
  intros W Rn N0 F H. unfold decode_text, bind, not_enough, ok_or, map_err.
  pose proof (acc_read_i32 B HB r W) as G.
  destruct (read_i32 B r) as [[v|[]|p] s]; destruct G as (Ws & _ & G); [| |tauto].
  2: { exfalso. apply (G n o). split; [simpl; lia|exact F]. }
  assert (n = v /\ o = flat s) as [<- ->] by (apply G; split; [simpl; lia|exact F]).
  destruct (Z.eqb_spec n 0); [congruence|].
  assert (E : forall b, 1024 < b \/ Z.of_nat (length (flat s)) < 8 * b -> forall k,
    fst (bind (text_bytes B n b) k s) = Err (ATooBigString n) :> outcome attribute_error str).
  { intros b Hb k. pose proof (text_bytes_err n b s Ws Hb) as T. unfold bind.
    destruct (text_bytes B n b s) as [[x|e|p] s']; cbn [fst] in *; congruence. }
  unfold bind in E. cbv zeta in H.
  destruct (Z.ltb_spec n 0).
  - destruct (fits_i32 (n * -2)) eqn:Q; [|reflexivity].
    rewrite as_usize_id by (unfold fits_i32 in Q; lia). apply E. lia.
  - rewrite as_usize_id by lia. apply E. lia.
Qed.

Lemma text_no_size r : wf r -> (length (flat r) < 32)%nat ->
  fst (decode_text B r) = Err (ANotEnoughDataFor "text string").
Proof.
  intros W L. unfold decode_text, bind, not_enough, ok_or, map_err.
  pose proof (acc_read_i32 B HB r W) as G.
  destruct (read_i32 B r) as [[v|[]|p] s]; destruct G as (Ws & _ & G); [|reflexivity|tauto].
  exfalso. pose proof (proj2 (G v (flat s)) (conj eq_refl eq_refl)) as K. apply w_int_length in K. lia.
Qed.

End Props.

