(** * Proofs: bounded integers, vectors, rotations, quaternions *)

From Coq Require Import ZArith List Bool Lia ZifyBool ZifyNat.
From Verif Require Import Base F32 NetTypes BitReader NetModels Attributes
  BitLemmas Wire ReaderLogic.
Open Scope Z_scope.

(** ** Bounded integers *)

Lemma bit_width_log2 max : 1 <= max -> bit_width max = Z.log2 max + 1.
Proof. intros H. unfold bit_width. destruct (max <=? 0) eqn:E; lia. Qed.

Definition bounded_tail (max data : Z) (k : nat) : wire Z :=
  if max <=? data + 2 ^ Z.of_nat k then w_ret data
  else w_map (fun b : bool => if b then data + 2 ^ Z.of_nat k else data) w_bit.

Lemma w_bounded_iff max k i x o : 1 <= max -> Z.of_nat k = Z.log2 max ->
  w_bounded max i x o <-> w_bind (w_uint k) (fun d => bounded_tail max d k) i x o.
Proof.
  intros Hm Hk. unfold w_bounded, w_bind, bounded_tail, enc_bounded.
  pose proof (Z.log2_spec max ltac:(lia)) as [L1 L2].
  rewrite <- Hk in *. rewrite Z.pow_succ_r in L2 by lia.
  set (p := 2 ^ Z.of_nat k) in *.
  assert (Hp : 0 < p) by (apply Z.pow_pos_nonneg; lia).
  rewrite Nat2Z.id. split.
  - intros [R ->]. exists (x mod p). rewrite <- app_assoc. eexists. split.
    + split; [apply Z.mod_pos_bound; lia|]. reflexivity.
    + destruct (Z.ltb_spec (x mod p + p) max) as [F|F].
      * destruct (Z.leb_spec max (x mod p + p)); [lia|].
        exists (p <=? x). split; [reflexivity|].
        destruct (Z.leb_spec p x).
        -- assert (x mod p = x - p).
           { symmetry. apply (Z.mod_unique x p 1); lia. }
           lia.
        -- now rewrite Z.mod_small by lia.
      * destruct (Z.leb_spec max (x mod p + p)); [|lia].
        split; [|reflexivity].
        destruct (Z.ltb_spec x p); [now rewrite Z.mod_small by lia|].
        assert (x mod p = x - p) by (symmetry; apply (Z.mod_unique x p 1); lia). lia.
  - intros (d & m & [R ->] & T). destruct (Z.leb_spec max (d + p)) as [F|F].
    + destruct T as [-> ->]. rewrite Z.mod_small by (fold p; lia).
      destruct (Z.ltb_spec (d + p) max); [lia|]. rewrite app_nil_r. split; [lia|reflexivity].
    + destruct T as ([|] & T & ->); unfold w_bit in T; subst m.
      * assert ((d + p) mod p = d).
        { rewrite <- (Z.mod_small d p) at 2 by lia. rewrite <- (Z_mod_plus_full d 1 p). f_equal. lia. }
        rewrite H. destruct (Z.ltb_spec (d + p) max); [|lia].
        destruct (Z.leb_spec p (d + p)); [|lia]. rewrite <- app_assoc. split; [lia|reflexivity].
      * rewrite (Z.mod_small d) by lia. destruct (Z.ltb_spec (d + p) max); [|lia].
        destruct (Z.leb_spec p d); [lia|]. rewrite <- app_assoc. split; [lia|reflexivity].
Qed.

Lemma assert_width_ok {E} k max : 1 <= max -> Z.of_nat k = Z.log2 max ->
  @assert_width E k max = ret tt.
Proof.
  intros H1 H2. unfold assert_width. rewrite bit_width_log2 by auto.
  destruct (Z.max (Z.log2 max + 1) 1 =? Z.of_nat k + 1) eqn:E1; [reflexivity|lia].
Qed.

Section Leaf.
Context (B : bitter) (HB : bitter_ok B).

Lemma acc_read_bounded k max : 1 <= max -> Z.of_nat k = Z.log2 max ->
  acc (read_bits_max_computed B k max) (w_bounded max).
Proof.
  intros H1 H2. eapply acc_iff; [|intros; symmetry; apply (w_bounded_iff max k); auto].
  unfold read_bits_max_computed. rewrite assert_width_ok by auto.
  change (acc (bind (read_bits B k) (fun data =>
     if max <=? data + 2 ^ Z.of_nat k then ret data
     else fmap (fun x : bool => if x then data + 2 ^ Z.of_nat k else data) (read_bit B)))
     (w_bind (w_uint k) (fun d => bounded_tail max d k))).
  apply acc_bind; [apply acc_read_bits; auto|]. intros d. unfold bounded_tail.
  destruct (max <=? d + 2 ^ Z.of_nat k); [apply acc_ret|].
  apply acc_fmap, acc_read_bit; auto.
Qed.

End Leaf.

(** ** Reading from a sufficiently filled lookahead *)

(** With at least [k] bits buffered [m] succeeds, accepts [P], reads no new
    bytes, and at least [k'] buffered bits remain. *)
Definition accp {E A} (k : nat) (m : rd E A) (P : wire A) (k' : nat) : Prop :=
  forall r, wf r -> (k <= length (lk r))%nat ->
    exists v s, m r = (Ok v, s) /\ wf s /\ shorter s r /\ rest s = rest r /\
      (k' <= length (lk s))%nat /\
      forall v' rest', P (flat r) v' rest' <-> v' = v /\ rest' = flat s.

Lemma accp_ret {E A} k (a : A) : @accp E A k (ret a) (w_ret a) k.
Proof.
  intros r W K. exists a, r. do 5 (split; [solve [auto]|]). intros; reflexivity.
Qed.

Lemma accp_bind_val {E A C} k k1 k2 (m : rd E A) (f : A -> rd E C) P Q :
  accp k m P k1 -> (forall i a o, P i a o -> accp k1 (f a) (Q a) k2) ->
  accp k (bind m f) (w_bind P Q) k2.
Proof.
  intros Hm Hf r W K. destruct (Hm r W K) as (a & s & E1 & V & L & F & K1 & R).
  assert (Pa : P (flat r) a (flat s)) by (apply R; auto).
  destruct (Hf _ _ _ Pa s V K1) as (c & t & E2 & V2 & L2 & F2 & K2 & R2).
  exists c, t. unfold bind. rewrite E1, E2.
  split; [auto|]. split; [auto|]. split; [eauto|]. split; [congruence|]. split; [auto|].
  intros v' rest'. split.
  - intros (a' & mid & H1 & H2). apply R in H1 as [-> ->]. now apply R2 in H2.
  - intros [-> ->]. exists a, (flat s). split; [now apply R|now apply R2].
Qed.

Lemma accp_bind {E A C} k k1 k2 (m : rd E A) (f : A -> rd E C) P Q :
  accp k m P k1 -> (forall a, accp k1 (f a) (Q a) k2) -> accp k (bind m f) (w_bind P Q) k2.
Proof. intros H1 H2. eapply accp_bind_val; eauto. Qed.

Lemma accp_iff {E A} k k' (m : rd E A) P Q :
  accp k m P k' -> (forall i v o, P i v o <-> Q i v o) -> accp k m Q k'.
Proof.
  intros H HQ r W K. destruct (H r W K) as (v & s & E1 & V & L & F & K1 & R).
  exists v, s. do 5 (split; [solve [auto]|]). intros. rewrite <- HQ. apply R.
Qed.

Lemma accp_weaken {E A} k j k' j' (m : rd E A) P :
  accp k m P k' -> (k <= j)%nat -> (j' <= k')%nat -> accp j m P j'.
Proof.
  intros H H1 H2 r W K. destruct (H r W ltac:(lia)) as (v & s & E1 & V & L & F & K1 & R).
  exists v, s. do 4 (split; [solve [auto]|]). split; [lia|auto].
Qed.

Lemma accp_peek {E} k n : (n <= k)%nat -> (n <= 56)%nat ->
  @accp E Z k (peek_and_consume n) (w_uint n) (k - n).
Proof.
  intros H1 H2 r [W1 W2] K. unfold peek_and_consume.
  destruct (Nat.ltb_spec 56 n); [lia|].
  destruct (take_list n (lk r)) as [[h l']|] eqn:T.
  2: { apply take_list_none in T. lia. }
  apply take_list_app in T as [T L]. exists (bits_Z h), (mkRs l' (rest r) (buf r)).
  assert (length (lk r) = (n + length l')%nat) by (rewrite T, app_length; lia).
  assert (FE : flat r = h ++ flat (mkRs l' (rest r) (buf r))).
  { unfold flat. simpl. now rewrite T, <- app_assoc. }
  split; [reflexivity|]. split; [split; simpl; auto; lia|].
  split; [unfold shorter; rewrite FE, app_length; lia|].
  split; [reflexivity|]. split; [simpl; lia|].
  intros v' rest'. rewrite FE. now apply w_uint_iff.
Qed.

Lemma accp_peek_bit {E} k : (1 <= k)%nat ->
  @accp E bool k (fmap (fun b => negb (b =? 0)) (peek_and_consume 1)) w_bit (k - 1).
Proof.
  intros H. eapply accp_iff.
  - unfold fmap. eapply accp_bind; [apply accp_peek; lia|]. intros a. apply accp_ret.
  - intros i v o. unfold w_bind, w_bit, w_ret. split.
    + intros (a & m & [R ->] & -> & ->). rewrite enc_bits_S. simpl.
      change (2 ^ Z.of_nat 1) with 2 in R. assert (a = 0 \/ a = 1) as [-> | ->] by lia; reflexivity.
    + intros ->. exists (if v then 1 else 0), o. split; [|now destruct v].
      split; [change (2 ^ Z.of_nat 1) with 2; destruct v; lia|]. rewrite enc_bits_S. now destruct v.
Qed.

Lemma accp_bounded {E} n max k : 1 <= max -> Z.of_nat n = Z.log2 max ->
  (S n <= k)%nat -> (n <= 56)%nat ->
  @accp E Z k (peek_bits_max_computed n max) (w_bounded max) (k - S n).
Proof.
  intros H1 H2 K N. eapply accp_iff; [|intros; symmetry; apply (w_bounded_iff max n); auto].
  unfold peek_bits_max_computed. rewrite assert_width_ok by auto.
  change (@accp E Z k (bind (peek_and_consume n) (fun data =>
     if max <=? data + 2 ^ Z.of_nat n then ret data
     else bind (peek_and_consume 1) (fun b => if negb (b =? 0) then ret (data + 2 ^ Z.of_nat n) else ret data)))
     (w_bind (w_uint n) (fun d => bounded_tail max d n)) (k - S n)).
  eapply accp_bind; [apply (accp_peek k n); lia|]. intros d. unfold bounded_tail.
  destruct (max <=? d + 2 ^ Z.of_nat n).
  - eapply accp_weaken; [apply accp_ret|reflexivity|lia].
  - intros r W KK. destruct (accp_peek_bit (E:=E) (k - n) ltac:(lia) r W KK)
      as (b & s & E1 & V & L & F & K1 & R).
    unfold fmap, bind, ret in E1.
    exists (if b then d + 2 ^ Z.of_nat n else d), s.
    unfold bind. destruct (peek_and_consume 1 r) as [[a|e|p] t]; [|discriminate|discriminate].
    injection E1 as E1 ->. subst b. split; [|].
    { destruct (negb (a =? 0)); reflexivity. }
    split; [auto|]. split; [auto|]. split; [auto|]. split; [lia|].
    intros v' rest'. unfold w_map. split.
    + intros (b' & Hb & ->). apply R in Hb as [-> ->]. auto.
    + intros [-> ->]. exists (negb (a =? 0)). split; auto. now apply R.
Qed.

(** ** Refill *)

Section Refill.
Context (B : bitter) (HB : bitter_ok B).

Lemma refill_spec {E} r : wf r ->
  exists s, @refill B E r = (Ok tt, s) /\ wf s /\ flat s = flat r /\ buf s = buf r /\
    ((56 <= length (lk s))%nat \/ rest s = []).
Proof.
  intros [W1 W2]. unfold refill.
  destruct (bt_refill B (lk r) (rest r)) as [l t] eqn:F.
  exists (mkRs l t (buf r)). split; [reflexivity|].
  split; [split; simpl; [eapply refill_le; eauto|auto]|].
  split; [apply (refill_flat B HB _ _ _ _ F)|].
  split; [reflexivity|]. simpl. eapply refill_ge; eauto.
Qed.

(** [refill; if lookahead < c then fail else body] *)
Lemma acc_guarded {A} c k' (f : rd unit A) P :
  (c <= 56)%nat -> accp c f P k' ->
  (forall i v o, P i v o -> (c <= length i)%nat) ->
  acc (bind (refill B) (fun _ => bind lookahead_bits (fun la =>
         if la <? Z.of_nat c then fail tt else f))) P.
Proof.
  intros C Hf HP r W. destruct (refill_spec (E:=unit) r W) as (s & E1 & V & F & Fb & G).
  unfold bind. rewrite E1. unfold lookahead_bits, lenZ.
  assert (Len : length (flat s) = length (flat r)) by now rewrite F.
  destruct (Z.ltb_spec (Z.of_nat (length (lk s))) (Z.of_nat c)) as [Q|Q].
  - simpl. split; auto. split; [unfold shorter; lia|].
    intros v' rest' H. apply HP in H.
    destruct G as [G|G]; [lia|]. unfold flat in F at 1. rewrite G in F. simpl in F.
    rewrite app_nil_r in F. rewrite <- F in H. lia.
  - destruct (Hf s V ltac:(lia)) as (v & t & E2 & V2 & L2 & F2 & K2 & R2).
    rewrite E2. split; auto. split; [unfold shorter in *; lia|].
    intros v' rest'. rewrite <- F. apply R2.
Qed.

End Refill.

Lemma w_uint_length n i x o : w_uint n i x o -> length i = (n + length o)%nat.
Proof. intros [_ ->]. now rewrite app_length, enc_bits_length. Qed.
Lemma w_int_length n i x o : w_int n i x o -> length i = (n + length o)%nat.
Proof. intros [_ ->]. now rewrite app_length, enc_bits_length. Qed.
Lemma w_bit_length i x o : w_bit i x o -> length i = S (length o).
Proof. intros ->. reflexivity. Qed.

Lemma w_bounded_length max i x o : w_bounded max i x o ->
  (length i = Z.to_nat (Z.log2 max) + length o)%nat \/
  (length i = S (Z.to_nat (Z.log2 max)) + length o)%nat.
Proof.
  intros [_ ->]. unfold enc_bounded.
  destruct (_ <? max); rewrite !app_length, enc_bits_length; simpl; lia.
Qed.

(** ** Quaternions, active actors *)

Ltac wlen := repeat match goal with
  | H : w_bind _ _ _ _ _ |- _ => destruct H as (? & ? & ? & ?)
  | H : w_map _ _ _ _ _ |- _ => destruct H as (? & ? & ?)
  | H : w_ret _ _ _ _ |- _ => destruct H as [? ?]
  | H : w_uint _ _ _ _ |- _ => apply w_uint_length in H
  | H : w_int _ _ _ _ |- _ => apply w_int_length in H
  | H : w_bit _ _ _ |- _ => apply w_bit_length in H
  end; subst; try lia.

Section Quat.
Context (B : bitter) (HB : bitter_ok B).

Lemma accp_int {E} k n : (0 < n)%nat -> (n <= k)%nat -> (n <= 56)%nat ->
  @accp E Z k (fmap (to_signed (Z.of_nat n)) (peek_and_consume n)) (w_int n) (k - n).
Proof.
  intros. eapply accp_iff.
  - unfold fmap. eapply accp_bind; [now apply accp_peek|]. intros. apply accp_ret.
  - intros i v o. rewrite w_int_map by auto. unfold w_bind, w_map, w_ret. split.
    + intros (a & m & H2 & -> & ->). eauto.
    + intros (a & H2 & ->). exists a, o. auto.
Qed.

Lemma acc_quat_decode : acc (quat_decode B) w_quat_new.
Proof.
  unfold quat_decode. change (2 + 3 * 18) with (Z.of_nat 56).
  eapply (acc_guarded B HB); [lia| |intros i v o H; unfold w_quat_new in H; wlen].
  unfold w_quat_new.
  eapply accp_bind_val; [apply accp_peek; lia|]. intros i0 k o0 Hk.
  eapply accp_bind; [apply accp_peek; simpl; lia|]. intros a.
  eapply accp_bind; [apply accp_peek; simpl; lia|]. intros b.
  eapply accp_bind; [apply accp_peek; simpl; lia|]. intros c.
  destruct Hk as [Hk _]. change (2 ^ Z.of_nat 2) with 4 in Hk.
  assert (k = 0 \/ k = 1 \/ k = 2 \/ k = 3) as [-> | [-> | [-> | ->]]] by lia;
    unfold quat_arrange; simpl (_ =? _); cbv iota;
    match goal with |- accp _ (ret ?x) (w_ret ?y) _ => change (w_ret y) with (w_ret x) end;
    apply accp_ret.
Qed.

Lemma acc_quat_old : acc (quat_decode_compressed B) w_quat_old.
Proof.
  assert (acc (bind (refill B) (fun _ => bind lookahead_bits (fun la =>
         if la <? Z.of_nat 48 then fail tt else
           bind quat_compressed_f32 (fun x => bind quat_compressed_f32 (fun y =>
           bind quat_compressed_f32 (fun z => ret (mkQuat x y z f32_zero))))))) w_quat_old) as H.
  - eapply (acc_guarded B HB); [lia| |intros i v o H; unfold w_quat_old in H; wlen].
    assert (P : forall k, (16 <= k)%nat -> accp k quat_compressed_f32
                  (w_map (fun d => bits_of_sf (old_part d)) (w_uint 16)) (k - 16)).
    { intros k Hk. eapply accp_iff.
      - unfold quat_compressed_f32. eapply accp_bind; [apply accp_peek; lia|]. intros. apply accp_ret.
      - intros i v o. unfold w_bind, w_map, w_ret. split.
        + intros (a & m & H2 & -> & ->). eauto.
        + intros (a & H2 & ->). exists a, o. auto. }
    eapply accp_iff.
    + eapply accp_bind; [apply P; lia|]. intros x.
      eapply accp_bind; [apply P; simpl; lia|]. intros y.
      eapply accp_bind; [apply P; simpl; lia|]. intros z. apply accp_ret.
    + intros i v o. unfold w_quat_old, w_bind, w_map, w_ret. split.
      * intros (a & m & (a' & H1 & ->) & b & m2 & (b' & H2 & ->) & c & m3 & (c' & H3 & ->) & -> & ->).
        exists a', m; split; auto. exists b', m2; split; auto. exists c', m3; split; auto.
      * intros (a' & m & H1 & b' & m2 & H2 & c' & m3 & H3 & -> & ->).
        eexists _, m; split; eauto. eexists _, m2; split; eauto. eexists _, m3; split; eauto.
  - intros r W. specialize (H r W). unfold quat_decode_compressed. unfold bind at 1 2 in H.
    unfold bind at 1 2.
    destruct (refill B r) as [[u|e|p] s]; auto. unfold lookahead_bits in *. cbv iota in *.
    change (Z.of_nat 48) with (3 * 16) in H.
    destruct (Z.ltb_spec (lenZ (lk s)) (3 * 16)); destruct (Z.leb_spec (3 * 16) (lenZ (lk s))); try lia; exact H.
Qed.

Lemma acc_active : acc (active_actor_inner B) w_active.
Proof.
  assert (acc (bind (refill B) (fun _ => bind lookahead_bits (fun la =>
         if la <? Z.of_nat 33 then fail tt else
           bind (fmap (fun b => negb (b =? 0)) (peek_and_consume 1)) (fun a =>
           bind (fmap (to_signed (Z.of_nat 32)) (peek_and_consume 32)) (fun x => ret (mkActive a x))))))
         w_active) as H.
  - eapply (acc_guarded B HB); [lia| |intros i v o H; unfold w_active in H; wlen].
    eapply accp_bind; [apply accp_peek_bit; lia|]. intros a.
    eapply accp_bind; [apply accp_int; simpl; lia|]. intros x. apply accp_ret.
  - intros r W. pose proof (H r W) as H'. unfold active_actor_inner, fmap, bind, ret in *.
    destruct (refill_spec B HB (E:=unit) r W) as (s & Er & Vs & _). rewrite Er in *.
    unfold lookahead_bits in *. change (Z.of_nat 33) with 33 in H'.
    destruct (lenZ (lk s) <? 33) eqn:G; auto.
    destruct (accp_peek (E:=unit) 33 1 ltac:(lia) ltac:(lia) s Vs ltac:(unfold lenZ in *; lia))
      as (v & t & E1 & _ & _ & _ & _ & R).
    rewrite E1 in *. destruct (peek_and_consume 32 t) as [[w|e|p] q]; auto.
    assert (R1 : v = v /\ flat t = flat t) by auto. apply R in R1. destruct R1 as [R1 _].
    change (2 ^ Z.of_nat 1) with 2 in R1. assert (v = 0 \/ v = 1) as [-> | ->] by lia; exact H'.
Qed.

(** ** Rotations *)

Lemma accp_rotation_part k : (9 <= k)%nat -> accp k rotation_part (w_opt (w_int 8)) (k - 9).
Proof.
  intros Hk r W K.
  destruct (accp_peek (E:=unit) k 1 ltac:(lia) ltac:(lia) r W K) as (v & t & E1 & Vt & Lt & Ft & Kt & R).
  assert (R1 : v = v /\ flat t = flat t) by auto. apply R in R1. pose proof R1 as [R2 R3].
  change (2 ^ Z.of_nat 1) with 2 in R2. unfold rotation_part, bind at 1. rewrite E1.
  assert (v = 0 \/ v = 1) as [-> | ->] by lia.
  - exists None, t. split; [destruct t; reflexivity|].
    split; [auto|]. split; [auto|]. split; [auto|]. split; [lia|].
    intros v' rest'. unfold w_opt, w_bind, w_bit. rewrite R3. change (enc_bits 1 0) with [false]. split.
    + intros (b & m & [= <- <-] & [-> ->]). auto.
    + intros [-> ->]. exists false, (flat t). split; auto. split; auto.
  - destruct (accp_int (E:=unit) (k - 1) 8 ltac:(lia) ltac:(lia) ltac:(lia) t Vt Kt)
      as (x & s & E2 & Vs & Ls & Fs & Ks & Rs).
    unfold fmap, bind, ret in E2.
    change (Z.to_nat (1 * 8)) with 8%nat. unfold bind.
    destruct (peek_and_consume 8 t) as [[w|e|p] q]; try discriminate.
    injection E2 as <- <-. exists (Some (as_i8 w)), q.
    split; [reflexivity|]. split; [auto|]. split; [eauto|]. split; [congruence|]. split; [lia|].
    intros v' rest'. unfold w_opt, w_bind, w_bit. rewrite R3. change (enc_bits 1 1) with [true]. split.
    + intros (b & m & [= <- <-] & (x & Hx & ->)). apply Rs in Hx as [-> ->]. auto.
    + intros [-> ->]. exists true, (flat t). split; auto. exists (as_i8 w). split; auto. now apply Rs.
Qed.

Lemma acc_rotation : acc (rotation_decode B) w_rotation.
Proof.
  intros r W. destruct (refill_spec B HB (E:=unit) r W) as (s & Er & Vs & Fs & _ & _).
  unfold rotation_decode. unfold bind at 1 2. rewrite Er. unfold lookahead_bits.
  assert (Len : length (flat s) = length (flat r)) by now rewrite Fs.
  destruct (Z.leb_spec (3 * 9) (lenZ (lk s))) as [G|G].
  - assert (P : accp 27 (bind rotation_part (fun y => bind rotation_part (fun p =>
       bind rotation_part (fun q => ret (mkRot y p q))))) w_rotation 0).
    { unfold w_rotation.
      eapply accp_bind; [apply accp_rotation_part; lia|]. intros y.
      eapply accp_bind; [apply accp_rotation_part; simpl; lia|]. intros p.
      eapply accp_bind; [apply accp_rotation_part; simpl; lia|]. intros q. apply accp_ret. }
    destruct (P s Vs ltac:(unfold lenZ in G; lia)) as (v & t & E2 & Vt & Lt & _ & _ & R).
    rewrite E2. split; auto. split; [unfold shorter in *; lia|]. rewrite <- Fs. exact R.
  - assert (P : acc (bind (if_get B (read_i8 B)) (fun y => bind (if_get B (read_i8 B)) (fun p =>
       bind (if_get B (read_i8 B)) (fun q => ret (mkRot y p q))))) w_rotation).
    { unfold w_rotation.
      apply acc_bind; [apply acc_if_get, acc_read_i8; auto|]. intros y.
      apply acc_bind; [apply acc_if_get, acc_read_i8; auto|]. intros p.
      apply acc_bind; [apply acc_if_get, acc_read_i8; auto|]. intros q. apply acc_ret. }
    specialize (P s Vs). rewrite <- Fs. destruct (bind _ _ s) as [o t].
    destruct P as (Vt & Lt & P). split; auto. split; auto. unfold shorter in *; lia.
Qed.

End Quat.
