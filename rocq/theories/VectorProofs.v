(** * Proofs: vectors *)

From Coq Require Import ZArith List Bool Lia ZifyBool ZifyNat.
From Verif Require Import Base F32 NetTypes BitReader NetModels Attributes
  BitLemmas Wire ReaderLogic LeafProofs.
Open Scope Z_scope.

Definition w_components (s : Z) : wire vector3i :=
  w_bind (w_component s) (fun x => w_bind (w_component s) (fun y =>
  w_bind (w_component s) (fun z => w_ret (mkV3i x y z)))).

Lemma w_vec3i_eq net : w_vec3i net = w_bind (w_bounded (vec_bound net)) w_components.
Proof. reflexivity. Qed.

Lemma size_limit_bound net : size_limit net = vec_bound net.
Proof.
  unfold size_limit, vec_bound.
  destruct (Z.leb_spec 7 net), (Z.ltb_spec net 7); auto; lia.
Qed.

Lemma vec_bound_range net : 1 <= vec_bound net <= 22 /\ Z.log2 (vec_bound net) = 4.
Proof. unfold vec_bound. destruct (net <? 7); split; try lia; reflexivity. Qed.

Lemma w_component_length s i v o : 0 <= s -> w_component s i v o ->
  Z.of_nat (length i) = s + 2 + Z.of_nat (length o).
Proof. intros Hs (d & H & _). apply w_uint_length in H. lia. Qed.

Lemma w_components_length s i v o : 0 <= s -> w_components s i v o ->
  Z.of_nat (length i) = 3 * (s + 2) + Z.of_nat (length o).
Proof.
  intros Hs (x & m1 & H1 & y & m2 & H2 & z & m3 & H3 & -> & ->).
  apply w_component_length in H1, H2, H3; auto. lia.
Qed.

Lemma has_bits_spec {E} n r : @has_bits_remaining E n r = (Ok (n <=? length (flat r))%nat, r).
Proof.
  unfold has_bits_remaining. pose proof (take_bits_flat n (lk r) (rest r)) as T.
  unfold flat. destruct (take_bits n (lk r) (rest r)) as [[h [l' r']]|].
  - destruct T as (E1 & L & _). rewrite E1, app_length.
    destruct (Nat.leb_spec n (length h + length (l' ++ bytes_bits r'))); auto; lia.
  - destruct (Nat.leb_spec n (length (lk r ++ bytes_bits (rest r)))); auto; lia.
Qed.

Lemma flat_nil r : rest r = [] -> flat r = lk r.
Proof. intros H. unfold flat. rewrite H. apply app_nil_r. Qed.

Section Vec.
Context (B : bitter) (HB : bitter_ok B).

Lemma accp_component k s : 0 <= s <= 21 -> (Z.to_nat (s + 2) <= k)%nat ->
  accp (E:=unit) k (fmap (fun d => as_i32 d - 2 ^ (s + 1)) (peek_and_consume (Z.to_nat (s + 2))))
    (w_component s) (k - Z.to_nat (s + 2)).
Proof.
  intros Hs Hk. eapply accp_iff.
  - unfold fmap. eapply accp_bind_val; [apply accp_peek; lia|].
    intros i a o Ha. apply accp_ret.
  - intros i v o. unfold w_component, w_bind, w_map, w_ret.
    assert (R : forall i a o, w_uint (Z.to_nat (s + 2)) i a o -> as_i32 a = a).
    { intros ? a ? [Ra _]. rewrite Z2Nat.id in Ra by lia.
      apply to_signed_id; [lia|]. simpl.
      assert (2 ^ (s + 2) <= 2 ^ 23) by (apply Z.pow_le_mono_r; lia). lia. }
    split.
    + intros (a & m & H & -> & ->). exists a. split; auto. now rewrite (R _ _ _ H).
    + intros (a & H & ->). exists a, o. split; auto. now rewrite (R _ _ _ H).
Qed.

Lemma tail_spec s b r : 0 <= s <= 21 -> wf r ->
  (51 <= length (lk r))%nat \/ rest r = [] ->
  3 * (s + 2) <= Z.of_nat (length (flat r)) ->
  exists v t, vector3i_tail B (2 ^ (s + 1)) (Z.to_nat (s + 2)) b r = (Ok v, t) /\ wf t /\
    shorter t r /\ forall v' rest', w_components s (flat r) v' rest' <-> v' = v /\ rest' = flat t.
Proof.
  intros Hs W G L.
  assert (K : (Z.to_nat (s + 2) <= length (lk r))%nat).
  { destruct G as [G|G]; [lia|]. rewrite (flat_nil r G) in L. lia. }
  destruct (accp_component _ s Hs K r W (le_n _)) as (x & r1 & E1 & W1 & L1 & F1 & K1 & R1).
  assert (Lx : Z.of_nat (length (flat r)) = s + 2 + Z.of_nat (length (flat r1))).
  { assert (H : x = x /\ flat r1 = flat r1) by auto. apply R1 in H.
    apply w_component_length in H; auto; lia. }
  destruct (refill_spec B HB (E:=unit) r1 W1) as (r2 & E2 & W2 & F2 & _ & G2).
  assert (K2 : (2 * Z.to_nat (s + 2) <= length (lk r2))%nat).
  { destruct G2 as [G2|G2]; [lia|]. rewrite (flat_nil r2 G2) in F2. rewrite F2. lia. }
  destruct (accp_component (length (lk r2)) s Hs ltac:(lia) r2 W2 (le_n _))
    as (y & r3 & E3 & W3 & L3 & F3 & K3 & R3).
  destruct (accp_component (length (lk r3)) s Hs ltac:(lia) r3 W3 (le_n _))
    as (z & r4 & E4 & W4 & L4 & F4 & K4 & R4).
  exists (mkV3i x y z), r4.
  unfold fmap, bind, ret in E1, E3, E4. unfold vector3i_tail, bind, ret, lookahead_bits.
  destruct (peek_and_consume (Z.to_nat (s + 2)) r) as [[dx|e|p] q1]; try discriminate.
  injection E1 as <- <-. rewrite E2.
  replace (lenZ (lk r2) <? Z.of_nat (Z.to_nat (s + 2)) * 2) with false by (unfold lenZ; lia).
  rewrite andb_false_r.
  destruct (peek_and_consume (Z.to_nat (s + 2)) r2) as [[dy|e|p] q2]; try discriminate.
  injection E3 as <- <-.
  destruct (peek_and_consume (Z.to_nat (s + 2)) q2) as [[dz|e|p] q3]; try discriminate.
  injection E4 as <- <-.
  split; [reflexivity|]. split; [auto|]. split.
  { unfold shorter in *. rewrite F2 in L3. lia. }
  rewrite F2 in R3. intros v' rest'. unfold w_components, w_bind, w_ret. split.
  - intros (x' & m1 & H1 & y' & m2 & H2 & z' & m3 & H3 & -> & ->).
    apply R1 in H1 as [-> ->]. apply R3 in H2 as [-> ->]. apply R4 in H3 as [-> ->]. auto.
  - intros [-> ->].
    eexists _, _. split; [apply R1; split; reflexivity|].
    eexists _, _. split; [apply R3; split; reflexivity|].
    eexists _, _. split; [apply R4; split; reflexivity|]. auto.
Qed.

(** What [Vector3i::decode] does, failures included. *)
Definition vec_outcome (net : Z) (r : rs) (o : outcome unit vector3i) (s : rs) : Prop :=
  wf s /\ shorter s r /\
  match o with
  | Ok v => forall v' rest', w_vec3i net (flat r) v' rest' <-> v' = v /\ rest' = flat s
  | Err _ =>
      (length (flat r) < 5)%nat /\ flat s = flat r \/
      (5 <= length (flat r))%nat /\
      exists size,
        (forall v' rest', w_bounded (vec_bound net) (flat r) v' rest' <-> v' = size /\ rest' = flat s) /\
        Z.of_nat (length (flat s)) < 3 * (size + 2)
  | Panic _ => False
  end.

(** after the refill, with at least five bits of lookahead *)
Lemma vec_body net r (chk : bool) (o : outcome unit vector3i) s : wf r ->
  (56 <= length (lk r))%nat \/ rest r = [] -> (5 <= length (lk r))%nat ->
  (chk = false -> (74 <= length (flat r))%nat) ->
  bind (peek_bits_max_computed 4 (size_limit net)) (fun size_bits =>
    let bias := 2 ^ (size_bits + 1) in
    let bit_limit := Z.to_nat (size_bits + 2) in
    if chk then
      bind (has_bits_remaining (3 * bit_limit)) (fun enough =>
        if negb enough then fail tt else vector3i_tail B bias bit_limit true)
    else vector3i_tail B bias bit_limit false) r = (o, s) ->
  vec_outcome net r o s.
Proof.
  intros W G K C. rewrite size_limit_bound. pose proof (vec_bound_range net) as [VB VL].
  destruct (accp_bounded (E:=unit) 4 (vec_bound net) (length (lk r)) ltac:(lia) ltac:(rewrite VL; reflexivity)
              ltac:(lia) ltac:(lia) r W (le_n _)) as (size & r1 & E1 & W1 & L1 & F1 & K1 & R1).
  unfold bind at 1. rewrite E1.
  assert (Hsz : w_bounded (vec_bound net) (flat r) size (flat r1)) by (apply R1; auto).
  assert (Rs : 0 <= size <= 21) by (destruct Hsz; lia).
  pose proof (w_bounded_length _ _ _ _ Hsz) as Lr. rewrite VL in Lr. change (Z.to_nat 4) with 4%nat in Lr.
  assert (L5 : (5 <= length (flat r))%nat) by (unfold flat; rewrite app_length; lia).
  assert (G1 : (51 <= length (lk r1))%nat \/ rest r1 = []).
  { destruct G as [G|G]; [left; lia|right; congruence]. }
  assert (Tail : forall b, 3 * (size + 2) <= Z.of_nat (length (flat r1)) ->
    vector3i_tail B (2 ^ (size + 1)) (Z.to_nat (size + 2)) b r1 = (o, s) -> vec_outcome net r o s).
  { intros b Le Et. destruct (tail_spec size b r1 Rs W1 G1 Le) as (v & t & E2 & W2 & L2 & R2).
    rewrite E2 in Et. injection Et as <- <-. split; auto. split; eauto.
    intros v' rest'. rewrite w_vec3i_eq. unfold w_bind. split.
    - intros (a & m & H1 & H2). apply R1 in H1 as [-> ->]. now apply R2.
    - intros H. exists size, (flat r1). split; auto. now apply R2. }
  cbv zeta. destruct chk.
  - unfold bind. rewrite has_bits_spec.
    destruct (Nat.leb_spec (3 * Z.to_nat (size + 2)) (length (flat r1))) as [Q|Q]; cbn [negb].
    + apply Tail. lia.
    + intros [= <- <-]. split; auto. split; auto. right. split; auto.
      exists size. split; auto. lia.
  - specialize (C eq_refl). apply Tail. lia.
Qed.

Lemma vec_decode_spec net r o s : wf r -> vector3i_decode B net r = (o, s) -> vec_outcome net r o s.
Proof.
  intros W. unfold vector3i_decode, vector3i_eof_decode, unbuffered_at_least. unfold bind at 1.
  destruct (take_list 16 (rest r)) as [[h t]|] eqn:T.
  - apply take_list_app in T as [T L].
    destruct (refill_spec B HB (E:=unit) r W) as (r1 & E1 & W1 & F1 & _ & G1).
    unfold bind at 1. rewrite E1. intros H.
    assert (LF : (128 <= length (flat r1))%nat).
    { rewrite F1. unfold flat. rewrite T, bytes_bits_app, !app_length, (bytes_bits_length h). lia. }
    assert (G2 : (56 <= length (lk r1))%nat).
    { destruct G1 as [G1|G1]; auto. rewrite (flat_nil r1 G1) in LF. destruct W1. lia. }
    pose proof (vec_body net r1 false o s W1 G1 ltac:(lia) ltac:(lia) H) as V.
    unfold vec_outcome, shorter in *. now rewrite F1 in V.
  - destruct (refill_spec B HB (E:=unit) r W) as (r1 & E1 & W1 & F1 & _ & G1).
    unfold bind at 1. rewrite E1. unfold bind at 1. unfold lookahead_bits.
    destruct (Z.ltb_spec (lenZ (lk r1)) 5) as [Q|Q].
    + intros [= <- <-]. unfold vec_outcome, shorter. rewrite F1. split; auto. split; auto.
      left. split; auto. rewrite <- F1.
      destruct G1 as [G1|G1]; [unfold lenZ in Q; lia|]. rewrite (flat_nil r1 G1).
      unfold lenZ in Q; lia.
    + intros H.
      pose proof (vec_body net r1 true o s W1 G1 ltac:(unfold lenZ in Q; lia) ltac:(discriminate) H) as V.
      unfold vec_outcome, shorter in *. now rewrite F1 in V.
Qed.

Lemma vec_fails net r o s :
  (length (flat r) < 5)%nat /\ flat s = flat r \/
  (5 <= length (flat r))%nat /\
  (exists size,
    (forall v' rest', w_bounded (vec_bound net) (flat r) v' rest' <-> v' = size /\ rest' = flat s) /\
    Z.of_nat (length (flat s)) < 3 * (size + 2)) ->
  forall v', ~ w_vec3i net (flat r) v' o.
Proof.
  intros H v' Hv. rewrite w_vec3i_eq in Hv. destruct Hv as (size' & m & H1 & H2).
  assert (Rs : 0 <= size') by (destruct H1; lia).
  pose proof (w_bounded_length _ _ _ _ H1) as Lr.
  apply w_components_length in H2; [|auto].
  destruct H as [[L _]|[L (size & R & Ls)]].
  - lia.
  - apply R in H1 as [-> ->]. lia.
Qed.

Lemma acc_vec3i net : acc (vector3i_decode B net) (w_vec3i net).
Proof.
  intros r W. destruct (vector3i_decode B net r) as [o s] eqn:E1.
  apply vec_decode_spec in E1; auto. destruct E1 as (V & L & H). split; auto. split; auto.
  destruct o; auto. intros v' rest'. eapply vec_fails; eauto.
Qed.

Lemma acc_vec3f net : acc (vector3f_decode B net) (w_vec3f net).
Proof. apply acc_fmap, acc_vec3i. Qed.

Lemma acc_velocity {E} net : acc (E:=E) (attempt (vector3f_decode B net)) (w_velocity net).
Proof.
  intros r W. unfold attempt, vector3f_decode. unfold fmap, bind.
  destruct (vector3i_decode B net r) as [o s] eqn:E1.
  apply vec_decode_spec in E1; auto. destruct E1 as (V & L & H).
  destruct o as [v|[]|p]; [| |tauto]; simpl; split; auto; split; auto; intros v' rest'; unfold w_velocity.
  - destruct v' as [f|].
    + unfold w_vec3f, w_map. split.
      * intros (a & H1 & ->). apply H in H1 as [-> ->]. auto.
      * intros [[= ->] ->]. exists v. split; auto. now apply H.
    + split; [|intros [? _]; discriminate].
      assert (Hv : w_vec3i net (flat r) v (flat s)) by (apply H; auto).
      intros Hn. exfalso. rewrite w_vec3i_eq in Hv. destruct Hv as (size' & m & H1 & H2).
      assert (Rs : 0 <= size') by (destruct H1; lia).
      pose proof (w_bounded_length _ _ _ _ H1) as Lr.
      pose proof (w_components_length _ _ _ _ Rs H2) as Lc.
      destruct Hn as [[Hl ->]|[Hl (sz & Hb & Hlt)]].
      * lia.
      * assert (sz = size' /\ rest' = m) as [-> ->]; [|lia].
        destruct (vec_bound_range net) as [VB VL].
        apply (w_bounded_iff _ 4) in Hb; [|lia|rewrite VL; reflexivity].
        apply (w_bounded_iff _ 4) in H1; [|lia|rewrite VL; reflexivity].
        destruct Hb as (d1 & m1 & B1 & B2). destruct H1 as (d2 & m2 & C1 & C2).
        assert (d1 = d2 /\ m1 = m2) as [-> ->].
        { destruct B1 as [B1 B1']. destruct C1 as [C1 C1']. rewrite B1' in C1'.
          apply app_inj_len in C1' as [C1' ->]; [|now rewrite !enc_bits_length].
          split; auto. apply (f_equal bits_Z) in C1'. rewrite !bits_Z_enc in C1'.
          rewrite !Z.mod_small in C1' by lia. auto. }
        unfold bounded_tail in *. destruct (vec_bound net <=? _).
        -- destruct B2, C2. subst; auto.
        -- destruct B2 as (b1 & B2 & ->), C2 as (b2 & C2 & ->). unfold w_bit in *.
           rewrite B2 in C2. injection C2 as -> ->. auto.
  - destruct v' as [f|].
    + split; [|intros [? _]; discriminate]. intros (a & Ha & _). exfalso.
      eapply vec_fails; [|exact Ha]; eauto.
    + destruct H as [[Hl Fs]|[Hl (size & R & Hlt)]].
      * split.
        -- intros [[_ ->]|[Hl' _]]; [auto|lia].
        -- intros [_ ->]. left; auto.
      * split.
        -- intros [[Hl' _]|[_ (sz & Hb & _)]]; [lia|]. apply R in Hb as [-> ->]; auto.
        -- intros [_ ->]. right. split; auto. exists size. split; auto. now apply R.
Qed.

Lemma acc_trajectory sp net : acc (trajectory_from_spawn B sp net) (w_trajectory sp net).
Proof.
  destruct sp; unfold trajectory_from_spawn, w_trajectory.
  - apply acc_ret.
  - apply acc_bind; [apply acc_vec3i|]. intros. apply acc_ret.
  - apply acc_bind; [apply acc_vec3i|]. intros. apply acc_bind; [now apply acc_rotation|].
    intros. apply acc_ret.
Qed.

End Vec.
