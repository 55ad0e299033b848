(** * Proof rules for the bit reader

    [acc m P]: the computation [m] accepts exactly the wire format [P] (and never
    panics).  [same m1 m2]: two runs on the same remaining bits - with different
    buffering policies, buffered parts and scratch buffers - have the same
    outcome (values and errors) and leave the same bits. *)

From Coq Require Import ZArith List Bool Lia ZifyBool ZifyNat.
From Verif Require Import Base BitReader BitLemmas Wire.
Open Scope Z_scope.

(** Reachable reader states. *)
Definition wf (r : rs) : Prop := (length (lk r) <= 63)%nat /\ length (buf r) = 1024%nat.

Definition shorter (s r : rs) : Prop := (length (flat s) <= length (flat r))%nat.

Definition acc {E A} (m : rd E A) (P : wire A) : Prop :=
  forall r, wf r ->
    let '(o, s) := m r in
    wf s /\ shorter s r /\
    match o with
    | Ok v => forall v' rest', P (flat r) v' rest' <-> v' = v /\ rest' = flat s
    | Err _ => forall v' rest', ~ P (flat r) v' rest'
    | Panic _ => False
    end.

Definition same {E A} (m1 m2 : rd E A) : Prop :=
  forall r1 r2, wf r1 -> wf r2 -> flat r1 = flat r2 ->
    exists o s1 s2, m1 r1 = (o, s1) /\ m2 r2 = (o, s2) /\ wf s1 /\ wf s2 /\
      shorter s1 r1 /\ shorter s2 r2 /\
      match o with Ok _ => flat s1 = flat s2 | Err _ => True | Panic _ => False end.

Lemma shorter_refl r : shorter r r.
Proof. unfold shorter; lia. Qed.
Lemma shorter_trans a b c : shorter a b -> shorter b c -> shorter a c.
Proof. unfold shorter; lia. Qed.
#[global] Hint Resolve shorter_refl shorter_trans : core.

(** Failures of an [Option]-returning function carry no information, so
    accepting the same format is enough. *)
Lemma acc_same {A} (m1 m2 : rd unit A) P : acc m1 P -> acc m2 P -> same m1 m2.
Proof.
  intros H1 H2 r1 r2 W1 W2 F. specialize (H1 r1 W1). specialize (H2 r2 W2).
  destruct (m1 r1) as [o1 s1]. destruct (m2 r2) as [o2 s2].
  destruct H1 as (V1 & L1 & R1). destruct H2 as (V2 & L2 & R2). rewrite <- F in *.
  destruct o1 as [v1|[]|]; [| |tauto]; (destruct o2 as [v2|[]|]; [| |tauto]).
  - assert (v1 = v2 /\ flat s1 = flat s2) as [-> G] by (apply R2, R1; auto).
    exists (Ok v2), s1, s2. intuition.
  - exfalso. apply (R2 v1 (flat s1)), R1; auto.
  - exfalso. apply (R1 v2 (flat s2)), R2; auto.
  - exists (Err tt), s1, s2. intuition.
Qed.

(** ** acc rules *)

Lemma acc_iff {E A} (m : rd E A) P Q :
  acc m P -> (forall i v o, P i v o <-> Q i v o) -> acc m Q.
Proof.
  intros H HQ r W. specialize (H r W).
  destruct (m r) as [[v|e|p] s]; destruct H as (V & L & H); split; auto; split; auto.
  - intros. rewrite <- HQ. auto.
  - intros. rewrite <- HQ. auto.
Qed.

Lemma acc_ret {E A} (a : A) : @acc E A (ret a) (w_ret a).
Proof. intros r W. simpl. split; auto. split; auto. intros; reflexivity. Qed.

Lemma acc_fail {E A} (e : E) : @acc E A (fail e) w_none.
Proof. intros r W. simpl. split; auto. Qed.

(** the values of the first part may be assumed to be of its format *)
Lemma acc_bind_val {E A C} (m : rd E A) (k : A -> rd E C) P Q :
  acc m P -> (forall i a o, P i a o -> acc (k a) (Q a)) -> acc (bind m k) (w_bind P Q).
Proof.
  intros Hm Hk r W. unfold bind. specialize (Hm r W).
  destruct (m r) as [[a|e|p] s]; destruct Hm as (V & L & Hm).
  - assert (Pa : P (flat r) a (flat s)) by (apply Hm; auto).
    specialize (Hk _ _ _ Pa s V).
    destruct (k a s) as [[c|e|p] t]; destruct Hk as (U & M & Hk); split; auto; split; eauto.
    + intros v' rest'. unfold w_bind. split.
      * intros (a' & mid & H1 & H2). apply Hm in H1 as [-> ->]. now apply Hk in H2.
      * intros H. exists a, (flat s). split; [now apply Hm|now apply Hk].
    + intros v' rest' (a' & mid & H1 & H2). apply Hm in H1 as [-> ->]. eapply Hk; eauto.
  - split; auto. split; auto. intros v' rest' (a' & mid & H1 & H2). eapply Hm; eauto.
  - destruct Hm.
Qed.

Lemma acc_bind {E A C} (m : rd E A) (k : A -> rd E C) P Q :
  acc m P -> (forall a, acc (k a) (Q a)) -> acc (bind m k) (w_bind P Q).
Proof. intros H1 H2. apply acc_bind_val; auto. Qed.

Lemma acc_fmap {E A C} (f : A -> C) (m : rd E A) P :
  acc m P -> acc (fmap f m) (w_map f P).
Proof.
  intros Hm r W. unfold fmap, bind, ret. specialize (Hm r W).
  destruct (m r) as [[a|e|p] s]; destruct Hm as (V & L & Hm); split; auto; split; auto.
  - intros v' rest'. unfold w_map. split.
    + intros (a' & H1 & ->). apply Hm in H1 as [-> ->]. auto.
    + intros [-> ->]. exists a. split; auto. now apply Hm.
  - intros v' rest' (a' & H1 & H2). eapply Hm; eauto.
Qed.

Lemma acc_map_err {E F A} (f : rs -> E -> F) (m : rd E A) P :
  acc m P -> acc (map_err f m) P.
Proof.
  intros Hm r W. unfold map_err. specialize (Hm r W).
  destruct (m r) as [[a|e|p] s]; auto.
Qed.

Lemma acc_ok_or {E A} (e : E) (m : rd unit A) P : acc m P -> acc (ok_or e m) P.
Proof. apply acc_map_err. Qed.

Lemma acc_to_option {E A} (m : rd E A) P : acc m P -> acc (to_option m) P.
Proof. apply acc_map_err. Qed.

Lemma acc_rep {E A} (n : nat) (f : rd E A) P :
  acc f P -> acc (Attributes.rd_repeat n f) (w_times n P).
Proof.
  intros H. induction n as [|n IH]; simpl.
  - apply acc_ret.
  - apply acc_bind; auto. intros a. apply acc_bind; auto. intros xs. apply acc_ret.
Qed.

(** ** same rules *)

Lemma same_ret {E A} (a : A) : @same E A (ret a) (ret a).
Proof.
  intros r1 r2 W1 W2 F. exists (Ok a), r1, r2. simpl. intuition.
Qed.

Lemma same_fail {E A} (e : E) : @same E A (fail e) (fail e).
Proof.
  intros r1 r2 W1 W2 F. exists (Err e), r1, r2. simpl. intuition.
Qed.

Lemma same_bind {E A C} (m1 m2 : rd E A) (k1 k2 : A -> rd E C) :
  same m1 m2 -> (forall a, same (k1 a) (k2 a)) -> same (bind m1 k1) (bind m2 k2).
Proof.
  intros Hm Hk r1 r2 W1 W2 F. unfold bind.
  destruct (Hm r1 r2 W1 W2 F) as (o & s1 & s2 & E1 & E2 & V1 & V2 & L1 & L2 & G).
  rewrite E1, E2. destruct o as [a|e|p].
  - destruct (Hk a s1 s2 V1 V2 G) as (o & t1 & t2 & E3 & E4 & X1 & X2 & M1 & M2 & G').
    exists o, t1, t2. rewrite E3, E4. intuition eauto.
  - exists (Err e), s1, s2. intuition.
  - tauto.
Qed.

Lemma same_fmap {E A C} (f : A -> C) (m1 m2 : rd E A) :
  same m1 m2 -> same (fmap f m1) (fmap f m2).
Proof. intros H. apply same_bind; auto. intros a. apply same_ret. Qed.

Lemma same_map_err {E F A} (f : E -> F) (m1 m2 : rd E A) :
  same m1 m2 -> same (map_err (fun _ e => f e) m1) (map_err (fun _ e => f e) m2).
Proof.
  intros Hm r1 r2 W1 W2 FF. unfold map_err.
  destruct (Hm r1 r2 W1 W2 FF) as (o & s1 & s2 & E1 & E2 & V1 & V2 & L1 & L2 & G).
  rewrite E1, E2. destruct o as [a|u|p]; [exists (Ok a)|exists (Err (f u))|tauto];
    exists s1, s2; simpl; intuition.
Qed.

Lemma same_ok_or {E A} (e : E) (m1 m2 : rd unit A) :
  same m1 m2 -> same (ok_or e m1) (ok_or e m2).
Proof. intros H. unfold ok_or. exact (same_map_err (fun _ => e) m1 m2 H). Qed.

(** ** Encodings *)

Lemma enc_bits_length n x : length (enc_bits n x) = n.
Proof. unfold enc_bits. now rewrite map_length, seq_length. Qed.

Lemma enc_bits_S n x : enc_bits (S n) x = Z.odd x :: enc_bits n (x / 2).
Proof.
  unfold enc_bits. cbn [seq map]. f_equal.
  rewrite <- seq_shift, map_map. apply map_ext. intros i.
  rewrite Nat2Z.inj_succ, <- Z.div2_div, Z.div2_spec, Z.shiftr_spec by lia. f_equal.
Qed.

Lemma enc_bits_Z_bits n x : enc_bits n x = Z_bits n x.
Proof.
  revert x; induction n as [|n IH]; intros x; [reflexivity|].
  now rewrite enc_bits_S, IH.
Qed.

Lemma bits_Z_enc n x : bits_Z (enc_bits n x) = x mod 2 ^ Z.of_nat n.
Proof. rewrite enc_bits_Z_bits. apply bits_Z_bits. Qed.

Lemma enc_bits_Z l : enc_bits (length l) (bits_Z l) = l.
Proof. rewrite enc_bits_Z_bits. apply Z_bits_bits. Qed.

Lemma enc_bits_mod n x y : x mod 2 ^ Z.of_nat n = y mod 2 ^ Z.of_nat n -> enc_bits n x = enc_bits n y.
Proof.
  intros H. apply bits_Z_inj; rewrite ?enc_bits_length, ?bits_Z_enc; auto.
Qed.

Lemma app_inj_len {A} (a b c d : list A) : length a = length c -> a ++ b = c ++ d -> a = c /\ b = d.
Proof.
  revert c; induction a as [|x a IH]; intros [|y c]; simpl; intros H E; try discriminate; auto.
  injection E as -> E. injection H as H. destruct (IH c H E). subst; auto.
Qed.

Lemma w_uint_bits n h o x : length h = n -> w_uint n (h ++ o) x o <-> x = bits_Z h.
Proof.
  intros L. unfold w_uint. split.
  - intros [R E]. apply app_inv_tail in E. subst h. rewrite bits_Z_enc.
    now rewrite Z.mod_small.
  - intros ->. subst n. split; [apply bits_Z_range|]. now rewrite enc_bits_Z.
Qed.

Lemma w_uint_iff n h t x o : length h = n -> w_uint n (h ++ t) x o <-> x = bits_Z h /\ o = t.
Proof.
  intros L. split.
  - intros H. assert (o = t).
    { destruct H as [_ H]. apply app_inj_len in H as [_ H]; auto. now rewrite enc_bits_length. }
    subst. split; auto. now apply (w_uint_bits (length h) h t).
  - intros [-> ->]. now apply w_uint_bits.
Qed.

Lemma w_uint_short n i x o : (length i < n)%nat -> ~ w_uint n i x o.
Proof.
  intros L [_ ->]. rewrite app_length, enc_bits_length in L. lia.
Qed.

Lemma to_signed_range n x : 0 < n -> - 2 ^ (n - 1) <= to_signed n x < 2 ^ (n - 1).
Proof.
  intros Hn. unfold to_signed.
  assert (E : 2 ^ n = 2 * 2 ^ (n - 1)) by (rewrite <- Z.pow_succ_r by lia; f_equal; lia).
  assert (0 < 2 ^ (n - 1)) by (apply Z.pow_pos_nonneg; lia).
  pose proof (Z.mod_pos_bound x (2 ^ n) ltac:(lia)).
  destruct (x mod 2 ^ n <? 2 ^ (n - 1)) eqn:F; lia.
Qed.

Lemma to_signed_mod n x : 0 < n -> to_signed n x mod 2 ^ n = x mod 2 ^ n.
Proof.
  intros Hn. unfold to_signed.
  assert (0 < 2 ^ n) by (apply Z.pow_pos_nonneg; lia).
  destruct (x mod 2 ^ n <? 2 ^ (n - 1)).
  - apply Z.mod_mod; lia.
  - rewrite <- (Z_mod_plus_full _ 1 (2 ^ n)).
    replace (x mod 2 ^ n - 2 ^ n + 1 * 2 ^ n) with (x mod 2 ^ n) by lia. apply Z.mod_mod; lia.
Qed.

Lemma to_signed_id n x : 0 < n -> - 2 ^ (n - 1) <= x < 2 ^ (n - 1) -> to_signed n x = x.
Proof.
  intros Hn R. unfold to_signed.
  assert (E : 2 ^ n = 2 * 2 ^ (n - 1)) by (rewrite <- Z.pow_succ_r by lia; f_equal; lia).
  assert (0 < 2 ^ (n - 1)) by (apply Z.pow_pos_nonneg; lia).
  destruct (Z.ltb_spec x 0).
  - rewrite <- (Z_mod_plus_full x 1), Z.mod_small by lia.
    destruct (x + 1 * 2 ^ n <? 2 ^ (n - 1)) eqn:F; lia.
  - rewrite Z.mod_small by lia. destruct (x <? 2 ^ (n - 1)) eqn:F; lia.
Qed.

Lemma w_int_map n i x o : (0 < n)%nat ->
  w_int n i x o <-> w_map (to_signed (Z.of_nat n)) (w_uint n) i x o.
Proof.
  intros Hn. unfold w_int, w_map. split.
  - intros [R ->]. exists (x mod 2 ^ Z.of_nat n).
    assert (0 < 2 ^ Z.of_nat n) by (apply Z.pow_pos_nonneg; lia).
    split.
    + split; [apply Z.mod_pos_bound; lia|]. f_equal. apply enc_bits_mod.
      now rewrite Z.mod_mod by lia.
    + rewrite <- (to_signed_id (Z.of_nat n) x) at 1 by lia.
      unfold to_signed. now rewrite Z.mod_mod by lia.
  - intros (u & [R ->] & ->). split; [apply to_signed_range; lia|].
    f_equal. apply enc_bits_mod. symmetry. apply to_signed_mod. lia.
Qed.

(** ** Primitives of the reader *)

Section Prims.
Context (B : bitter) (HB : bitter_ok B).

Lemma acc_read_bits n : acc (read_bits B n) (w_uint n).
Proof.
  intros r [W1 W2]. unfold read_bits.
  destruct (bt_fetch B n (lk r) (rest r)) as [l t] eqn:F.
  pose proof (fetch_flat B HB _ _ _ _ _ F) as FF.
  pose proof (fetch_le B HB _ _ _ _ _ F W1) as FL.
  pose proof (take_bits_flat n l t) as T.
  change (flat r) with (lk r ++ bytes_bits (rest r)).
  unfold shorter, flat. rewrite <- FF.
  destruct (take_bits n l t) as [[h [l' t']]|]; simpl.
  - destruct T as (E & L & V). split; [split; simpl; auto|]. rewrite E. split.
    + rewrite (app_length h). lia.
    + intros. now apply w_uint_iff.
  - split; [split; simpl; auto|]. split; [lia|]. intros v' rest'. now apply w_uint_short.
Qed.

Lemma acc_read_bit : acc (read_bit B) w_bit.
Proof.
  eapply acc_iff; [apply acc_fmap, acc_read_bits|].
  intros i v o. unfold w_map, w_bit. split.
  - intros (a & [R ->] & ->). rewrite enc_bits_S. simpl.
    change (2 ^ Z.of_nat 1) with 2 in R. assert (a = 0 \/ a = 1) as [-> | ->] by lia; reflexivity.
  - intros ->. exists (if v then 1 else 0). split.
    + split; [change (2 ^ Z.of_nat 1) with 2; destruct v; lia|]. rewrite enc_bits_S. now destruct v.
    + now destruct v.
Qed.

Lemma acc_read_signed n : (0 < n)%nat ->
  acc (fmap (to_signed (Z.of_nat n)) (read_bits B n)) (w_int n).
Proof.
  intros Hn. eapply acc_iff; [apply acc_fmap, acc_read_bits|].
  intros. rewrite w_int_map by auto. reflexivity.
Qed.

Lemma acc_read_u8 : acc (read_u8 B) (w_uint 8). Proof. apply acc_read_bits. Qed.
Lemma acc_read_u32 : acc (read_u32 B) (w_uint 32). Proof. apply acc_read_bits. Qed.
Lemma acc_read_u64 : acc (read_u64 B) (w_uint 64). Proof. apply acc_read_bits. Qed.
Lemma acc_read_f32 : acc (read_f32 B) w_f32. Proof. apply acc_read_bits. Qed.
Lemma acc_read_i8 : acc (read_i8 B) (w_int 8). Proof. apply (acc_read_signed 8). lia. Qed.
Lemma acc_read_i32 : acc (read_i32 B) (w_int 32). Proof. apply (acc_read_signed 32). lia. Qed.
Lemma acc_read_i64 : acc (read_i64 B) (w_int 64). Proof. apply (acc_read_signed 64). lia. Qed.

Lemma acc_if_get {A} (f : rd unit A) P : acc f P -> acc (if_get B f) (w_opt P).
Proof.
  intros H. apply acc_bind; [apply acc_read_bit|].
  intros [|]; [now apply acc_fmap|apply acc_ret].
Qed.

End Prims.
