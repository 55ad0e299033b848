(** * Lemmas about the bit reader model *)

From Coq Require Import ZArith List Bool Lia ZifyBool ZifyNat.
From Verif Require Import Base BitReader.
Open Scope Z_scope.

(** ** Lists of bits *)

Lemma take_list_app {A} (n : nat) (l h t : list A) :
  take_list n l = Some (h, t) <-> l = h ++ t /\ length h = n.
Proof.
  revert l h t; induction n as [|n IH]; intros l h t; simpl.
  - split.
    + intros [= <- <-]; auto.
    + intros [-> H]. destruct h; simpl in *; congruence.
  - destruct l as [|x l].
    + split; [discriminate|]. intros [H1 H2]. destruct h; simpl in *; congruence.
    + destruct (take_list n l) as [[h' r']|] eqn:E.
      * apply IH in E as [-> E]. split.
        -- intros [= <- <-]; simpl; split; auto.
        -- intros [H1 H2]. destruct h as [|y h]; [discriminate|].
           simpl in H1; injection H1 as <- H1. simpl in H2.
           assert (take_list n (h' ++ r') = Some (h, t)) by (apply IH; split; [auto|lia]).
           assert (take_list n (h' ++ r') = Some (h', r')) by (apply IH; auto).
           congruence.
      * split; [discriminate|]. intros [H1 H2]. destruct h as [|y h]; [discriminate|].
        simpl in H1; injection H1 as <- H1.
        assert (take_list n l = Some (h, t)) by (apply IH; simpl in H2; split; [auto|lia]).
        congruence.
Qed.

Lemma take_list_none {A} (n : nat) (l : list A) :
  take_list n l = None <-> (length l < n)%nat.
Proof.
  revert l; induction n as [|n IH]; intros l; simpl.
  - split; [discriminate|lia].
  - destruct l as [|x l]; simpl.
    + split; [lia|auto].
    + specialize (IH l). destruct (take_list n l) as [[h r]|].
      * split; [discriminate|]. intros H. assert (@None (list A * list A) = None) by auto.
        assert (Some (h, r) = None) by (apply IH; lia). discriminate.
      * split; auto. intros _. assert (length l < n)%nat by (apply IH; auto). lia.
Qed.

Lemma take_list_app_l {A} (h t : list A) : take_list (length h) (h ++ t) = Some (h, t).
Proof. apply take_list_app; auto. Qed.

Lemma byte_bits_length b : length (byte_bits b) = 8%nat.
Proof. unfold byte_bits. destruct (Byte.to_bits b) as (?&?&?&?&?&?&?&?). reflexivity. Qed.

Lemma byte_of_byte_bits b : byte_of_bits (byte_bits b) = b.
Proof.
  unfold byte_bits, byte_of_bits.
  pose proof (Byte.of_bits_to_bits b) as H.
  destruct (Byte.to_bits b) as (?&?&?&?&?&?&?&?). exact H.
Qed.

Lemma byte_bits_of_bits l : length l = 8%nat -> byte_bits (byte_of_bits l) = l.
Proof.
  intros H. do 8 (destruct l as [|? l]; [discriminate|]). destruct l; [|discriminate].
  unfold byte_bits, byte_of_bits. rewrite Byte.to_bits_of_bits. reflexivity.
Qed.

Lemma bytes_bits_cons b l : bytes_bits (b :: l) = byte_bits b ++ bytes_bits l.
Proof. reflexivity. Qed.

Lemma bytes_bits_app a b : bytes_bits (a ++ b) = bytes_bits a ++ bytes_bits b.
Proof. unfold bytes_bits. induction a; simpl; auto. now rewrite IHa, app_assoc. Qed.

Lemma bytes_bits_length l : length (bytes_bits l) = (8 * length l)%nat.
Proof.
  induction l; auto. rewrite bytes_bits_cons, app_length, byte_bits_length, IHl. simpl. lia.
Qed.

Lemma byte_bits_value b : bits_Z (byte_bits b) = byteZ b.
Proof. destruct b; reflexivity. Qed.

Lemma bits_Z_range l : 0 <= bits_Z l < 2 ^ Z.of_nat (length l).
Proof.
  induction l as [|b l IH]; cbn [bits_Z length]; [lia|].
  rewrite Nat2Z.inj_succ, Z.pow_succ_r by lia. destruct b; lia.
Qed.

Lemma bits_Z_app a b : bits_Z (a ++ b) = bits_Z a + 2 ^ Z.of_nat (length a) * bits_Z b.
Proof.
  induction a as [|x a IH]; cbn [bits_Z length app].
  - change (2 ^ Z.of_nat 0) with 1. lia.
  - rewrite IH, Nat2Z.inj_succ, Z.pow_succ_r by lia. lia.
Qed.

Lemma bits_Z_inj a b : length a = length b -> bits_Z a = bits_Z b -> a = b.
Proof.
  revert b; induction a as [|x a IH]; intros [|y b]; cbn [bits_Z length];
    intros H E; try discriminate; auto.
  injection H as H.
  assert (x = y) by (destruct x, y; auto; lia). subst y. f_equal. apply IH; auto.
  destruct x; lia.
Qed.

(** The [n] low bits of [x]. *)
Fixpoint Z_bits (n : nat) (x : Z) : list bool :=
  match n with
  | O => []
  | S n' => Z.odd x :: Z_bits n' (x / 2)
  end.

Lemma Z_bits_length n x : length (Z_bits n x) = n.
Proof. revert x; induction n; simpl; auto. Qed.

Lemma bits_Z_bits n x : bits_Z (Z_bits n x) = x mod 2 ^ Z.of_nat n.
Proof.
  revert x; induction n as [|n IH]; intros x; cbn [Z_bits bits_Z].
  - change (2 ^ Z.of_nat 0) with 1. now rewrite Z.mod_1_r.
  - rewrite IH, Nat2Z.inj_succ, Z.pow_succ_r by lia.
    assert (0 < 2 ^ Z.of_nat n) by lia.
    rewrite (Z.rem_mul_r x 2) by lia. rewrite Zmod_odd. destruct (Z.odd x); lia.
Qed.

Lemma Z_bits_bits l : Z_bits (length l) (bits_Z l) = l.
Proof.
  apply bits_Z_inj; [apply Z_bits_length|].
  rewrite bits_Z_bits. apply Z.mod_small, bits_Z_range.
Qed.

(** ** take_bits, take_bytes in terms of the flat stream *)

Lemma take_bits_flat n : forall l r,
  match take_bits n l r with
  | Some (h, (l', r')) =>
      l ++ bytes_bits r = h ++ l' ++ bytes_bits r' /\ length h = n /\
      ((length l <= 63)%nat -> (length l' <= 63)%nat)
  | None => (length (l ++ bytes_bits r) < n)%nat
  end.
Proof.
  induction n as [|n IH]; intros l r; cbn [take_bits].
  - auto.
  - destruct l as [|b l].
    + destruct r as [|y r]; [simpl; lia|].
      pose proof (byte_bits_length y) as Hy.
      destruct (byte_bits y) as [|b l] eqn:Eb; [discriminate|].
      specialize (IH l r). destruct (take_bits n l r) as [[h [l' r']]|].
      * destruct IH as (E & L & W).
        rewrite bytes_bits_cons, Eb. cbn [app length]. split; [|split].
        -- now rewrite E.
        -- now rewrite L.
        -- intros _. apply W. simpl in Hy. lia.
      * rewrite bytes_bits_cons, Eb. simpl in *. lia.
    + specialize (IH l r). destruct (take_bits n l r) as [[h [l' r']]|].
      * destruct IH as (E & L & W). cbn [app length]. split; [|split].
        -- now rewrite E.
        -- now rewrite L.
        -- intros. apply W. lia.
      * simpl in *. lia.
Qed.

Lemma take_bytes_flat n : forall l r,
  match take_bytes n l r with
  | Some (h, (l', r')) =>
      l ++ bytes_bits r = bytes_bits h ++ l' ++ bytes_bits r' /\ length h = n /\
      ((length l <= 63)%nat -> (length l' <= 63)%nat)
  | None => (length (l ++ bytes_bits r) < 8 * n)%nat
  end.
Proof.
  induction n as [|n IH]; intros l r; cbn [take_bytes].
  - simpl; auto.
  - pose proof (take_bits_flat 8 l r) as H8.
    destruct (take_bits 8 l r) as [[h [l' r']]|]; [|lia].
    destruct H8 as (E & L & W). specialize (IH l' r').
    destruct (take_bytes n l' r') as [[t [l'' r'']]|].
    + destruct IH as (E2 & L2 & W2). split; [|split].
      * rewrite E, E2, bytes_bits_cons, byte_bits_of_bits by auto. now rewrite app_assoc.
      * simpl; congruence.
      * auto.
    + rewrite E, app_length. lia.
Qed.

(** ** The standard buffering policy meets the contract *)

Lemma move_bytes_spec n r :
  let '(l, r') := move_bytes n r in
  l ++ bytes_bits r' = bytes_bits r /\
  (length l <= 8 * n)%nat /\ (length l = (8 * n)%nat \/ r' = []).
Proof.
  revert r; induction n as [|n IH]; intros [|b r]; cbn [move_bytes]; try (simpl; intuition lia).
  specialize (IH r). destruct (move_bytes n r) as [l r'].
  destruct IH as (E & L & G). rewrite bytes_bits_cons, <- E, <- app_assoc.
  rewrite app_length, byte_bits_length. intuition lia.
Qed.

Lemma std_bitter_ok : bitter_ok std_bitter.
Proof.
  assert (H : forall l r l' r', std_refill l r = (l', r') ->
    l' ++ bytes_bits r' = l ++ bytes_bits r /\
    ((length l <= 63)%nat -> (length l' <= 63)%nat /\ ((56 <= length l')%nat \/ r' = []))).
  { intros l r l' r'. unfold std_refill.
    pose proof (move_bytes_spec ((63 - length l) / 8) r) as Hm.
    destruct (move_bytes ((63 - length l) / 8) r) as [m q]. destruct Hm as (E & L & G).
    intros [= <- <-]. rewrite <- app_assoc, E, app_length. split; auto.
    intros Hl.
    pose proof (Nat.div_mod (63 - length l) 8 ltac:(lia)).
    pose proof (Nat.mod_upper_bound (63 - length l) 8 ltac:(lia)).
    intuition lia. }
  split; simpl; intros.
  - now apply H in H0.
  - apply H in H0. intuition.
  - apply H in H0. intuition.
  - now apply H in H0.
  - apply H in H0. intuition.
Qed.
