(** * Three wrong bits *)

From Coq Require Import NArith ZArith List Lia Bool.
From Verif Require Import Base Crc SpecCrc CrcProofs CrcOrder.
Open Scope N_scope.

(** ** Sets of registers *)

Inductive trie := Leaf | Node (here : bool) (l r : trie).
Fixpoint add (p : positive) (t : trie) : trie :=
  match p, t with
  | xH, Leaf => Node true Leaf Leaf
  | xH, Node _ l r => Node true l r
  | xO p, Leaf => Node false (add p Leaf) Leaf
  | xO p, Node h l r => Node h (add p l) r
  | xI p, Leaf => Node false Leaf (add p Leaf)
  | xI p, Node h l r => Node h l (add p r)
  end.
Fixpoint mem (p : positive) (t : trie) : bool :=
  match p, t with
  | _, Leaf => false
  | xH, Node h _ _ => h
  | xO p, Node _ l _ => mem p l
  | xI p, Node _ _ r => mem p r
  end.
Lemma mem_add p : forall t, mem p (add p t) = true.
Proof. induction p as [p IH|p IH|]; intros [|h l r]; cbn [add mem]; auto. Qed.
Lemma mem_old p : forall q t, mem q t = true -> mem q (add p t) = true.
Proof.
  induction p as [p IH|p IH|]; intros [q|q|] [|h l r]; cbn [add mem]; intros H; try discriminate H; auto.
Qed.

(** ** No register below the bound is one more than an earlier one *)

Fixpoint scan (n : nat) (x : N) (t : trie) : bool :=
  match n with
  | O => true
  | S n' => let x' := step x in negb (mem (N.succ_pos (N.lxor x' 1)) t) && scan n' x' (add (N.succ_pos x') t)
  end.

Lemma scan_true n : forall i t, scan n (steps i 1) t = true ->
  (forall k, 0 < k <= i -> mem (N.succ_pos (steps k 1)) t = true) ->
  forall m k, i < m <= i + N.of_nat n -> 0 < k < m -> N.lxor (steps m 1) 1 <> steps k 1.
Proof.
  induction n as [|n IH]; intros i t H T m k Hm Hk; [lia|].
  cbn [scan] in H. rewrite <- steps_succ in H. apply andb_prop in H as [H1 H2].
  destruct (N.eq_dec m (N.succ i)) as [->|Ne].
  - intros E. rewrite E, T in H1 by lia. discriminate H1.
  - apply (IH (N.succ i) (add (N.succ_pos (steps (N.succ i) 1)) t)); [exact H2| |lia|exact Hk].
    intros j Hj. destruct (N.eq_dec j (N.succ i)) as [->|Nj]; [apply mem_add|]. apply mem_old, T. lia.
Qed.

Lemma scanned : scan (N.to_nat 91638) 1 Leaf = true.
Proof. vm_compute. reflexivity. Qed.

Lemma no_three m k : m < 91639 -> 0 < k < m -> N.lxor (steps m 1) (N.lxor (steps k 1) 1) <> 0.
Proof.
  intros Hm Hk E. apply (scan_true (N.to_nat 91638) 0 Leaf scanned) with (m := m) (k := k); [lia|lia|exact Hk|].
  apply N.lxor_eq in E. rewrite E, N.lxor_assoc, N.lxor_nilpotent, N.lxor_0_r. reflexivity.
Qed.

(** ** Messages *)

Lemma flip3_register a x b y c z d r :
  crc_register (a ++ negb x :: b ++ negb y :: c ++ negb z :: d) r =
  N.lxor (crc_register (a ++ x :: b ++ y :: c ++ z :: d) r)
         (steps (N.of_nat (length d)) (N.lxor (steps (N.of_nat (length b + length c + 2)) crc_poly)
            (N.lxor (steps (N.of_nat (S (length c))) crc_poly) crc_poly))).
Proof.
  assert (F : forall s z, shift_in s (negb z) = N.lxor crc_poly (shift_in s z)).
  { intros s v. rewrite !shift_in_bit. change crc_poly with (step (2 ^ 31)) at 2. rewrite <- linear_crc_bit.
    f_equal. destruct v; cbn [negb top]; rewrite ?N.lxor_0_r; [|apply N.lxor_comm].
    rewrite N.lxor_comm, N.lxor_assoc, N.lxor_nilpotent, N.lxor_0_r. reflexivity. }
  assert (G : forall bs v s, crc_register (bs ++ [negb v]) s = N.lxor (crc_register (bs ++ [v]) s) crc_poly).
  { intros bs v s. rewrite !register_app. cbn [crc_register fold_left]. unfold crc_register. cbn [fold_left]. rewrite F. apply N.lxor_comm. }
  (* the last bit, then the first two *)
  replace (a ++ negb x :: b ++ negb y :: c ++ negb z :: d) with
    (((a ++ negb x :: b ++ negb y :: c) ++ [negb z]) ++ d) by (repeat (rewrite <- app_assoc; cbn [app]); reflexivity).
  replace (a ++ x :: b ++ y :: c ++ z :: d) with
    (((a ++ x :: b ++ y :: c) ++ [z]) ++ d) by (repeat (rewrite <- app_assoc; cbn [app]); reflexivity).
  set (e := steps (N.of_nat (length c)) (N.lxor (steps (N.of_nat (S (length b))) crc_poly) crc_poly)).
  assert (H : crc_register ((a ++ negb x :: b ++ negb y :: c) ++ [z]) r =
              N.lxor (steps 1 e) (crc_register ((a ++ x :: b ++ y :: c) ++ [z]) r)).
  { rewrite (register_app _ [z]), flip_register, (register_app _ [z]). fold e. rewrite (N.lxor_comm _ e), register_linear, steps_nat. reflexivity. }
  rewrite (register_app _ d), G, H, (register_app _ d). set (w := crc_register (_ ++ [z]) r).
  rewrite (N.lxor_comm (steps 1 e) w), N.lxor_assoc, (N.lxor_comm w), register_linear, steps_nat, N.lxor_comm. f_equal. f_equal.
  unfold e. rewrite <- steps_add, (linear_steps _ (steps _ crc_poly) crc_poly), <- steps_add, N.lxor_assoc.
  f_equal; [f_equal; lia|]. f_equal. f_equal. lia.
Qed.

Lemma three_flips_detected span d1 d2 : three_flips span d1 d2 -> span < 91639 -> calc_crc d1 <> calc_crc d2.
Proof.
  intros (a & x & b & y & c & z & d & H1 & H2 & Hs) L E. rewrite !calc_crc_spec in E. unfold crc32_unreal in E.
  apply (f_equal (fun z => N.lxor z crc_xorout)) in E.
  rewrite !N.lxor_assoc, !N.lxor_nilpotent, !N.lxor_0_r in E.
  rewrite H1, H2, flip3_register in E. set (w := crc_register _ _) in E.
  apply (f_equal (N.lxor w)) in E. rewrite <- N.lxor_assoc, N.lxor_nilpotent, N.lxor_0_l in E. symmetry in E.
  set (m := N.of_nat (length b + length c + 2)) in E. set (k := N.of_nat (S (length c))) in E.
  assert (Z : N.lxor (steps m crc_poly) (N.lxor (steps k crc_poly) crc_poly) = 0).
  { apply (steps_inj (N.of_nat (length d))); [|reflexivity|].
    - apply lxor_bound; [apply steps_bound; reflexivity|]. apply lxor_bound; [apply steps_bound|]; reflexivity.
    - rewrite E, (linear_0 _ (linear_steps _)). reflexivity. }
  change crc_poly with (steps 32 1) in Z. rewrite (steps_comm m), (steps_comm k), <- !(linear_steps 32) in Z.
  apply (no_three m k); [unfold m; lia|unfold m, k; lia|].
  apply (steps_inj 32); [|reflexivity|exact Z].
  apply lxor_bound; [apply steps_bound; reflexivity|]. apply lxor_bound; [apply steps_bound|]; reflexivity.
Qed.
Lemma three_flips_length span d1 d2 : three_flips span d1 d2 -> length d2 = length d1.
Proof.
  intros (a & x & b & y & c & z & d & H1 & H2 & _). apply (f_equal (@length _)) in H1, H2.
  rewrite data_bits_length in H1, H2. repeat (rewrite app_length in H1, H2; cbn [length] in H1, H2). lia.
Qed.
