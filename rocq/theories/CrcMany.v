(** * Four to twelve wrong bits *)

From Coq Require Import NArith ZArith List Lia Bool Sorted.
From Verif Require Import Base Crc SpecCrc SpecWrong CrcProofs CrcOrder CrcThree.
Open Scope N_scope.

(** ** Sums of registers *)

Definition sum (l : list N) : N := fold_right N.lxor 0 l.
Inductive sub {A} : list A -> list A -> Prop :=
| sub_nil l : sub [] l
| sub_take x s l : sub s l -> sub (x :: s) (x :: l)
| sub_skip x s l : sub s l -> sub s (x :: l).

(** all sums of [k] numbers and [a] *)
Fixpoint fill (k : nat) : list N -> N -> trie -> trie :=
  match k with
  | O => fun _ a t => add (N.succ_pos a) t
  | S k' => fix go (l : list N) (a : N) (t : trie) :=
      match l with [] => t | x :: l' => go l' a (fill k' l' (N.lxor a x) t) end
  end.
(** no sum of [k] numbers and [a] is in the set *)
Fixpoint avoids (t : trie) (k : nat) : list N -> N -> bool :=
  match k with
  | O => fun _ a => negb (mem (N.succ_pos a) t)
  | S k' => fix go (l : list N) (a : N) :=
      match l with [] => true | x :: l' => if avoids t k' l' (N.lxor a x) then go l' a else false end
  end.

Lemma fill_old k : forall l a t q, mem q t = true -> mem q (fill k l a t) = true.
Proof.
  induction k as [|k IH]; intros l a t q H; [apply mem_old; exact H|]. revert t H.
  induction l as [|x l IL]; intros t H; [exact H|]. apply IL, IH, H.
Qed.
Lemma fill_sub k : forall l a t s, sub s l -> length s = k -> mem (N.succ_pos (N.lxor a (sum s))) (fill k l a t) = true.
Proof.
  induction k as [|k IH]; intros l a t s H E.
  - destruct s; [|discriminate]. cbn [sum fold_right fill]. rewrite N.lxor_0_r. apply mem_add.
  - revert t. induction H as [l|x s l H _|x s l H IL]; intros t; [discriminate| |].
    + change (mem (N.succ_pos (N.lxor a (sum (x :: s)))) (fill (S k) l a (fill k l (N.lxor a x) t)) = true).
      apply fill_old. cbn [sum fold_right]. rewrite <- N.lxor_assoc. apply IH; [exact H|]. now injection E.
    + apply IL, E.
Qed.
Lemma avoids_sub t k : forall l a s, avoids t k l a = true -> sub s l -> length s = k -> mem (N.succ_pos (N.lxor a (sum s))) t = false.
Proof.
  induction k as [|k IH]; intros l a s V H E.
  - destruct s; [|discriminate]. cbn [sum fold_right avoids] in *. rewrite N.lxor_0_r. now apply negb_true_iff.
  - induction H as [l|x s l H _|x s l H IL]; [discriminate| |].
    + cbn [avoids] in V. destruct (avoids t k l (N.lxor a x)) eqn:V1; [|discriminate].
      cbn [sum fold_right]. rewrite <- N.lxor_assoc. apply (IH l); [exact V1|exact H|]. now injection E.
    + apply IL; [|exact E]. cbn [avoids] in V. destruct (avoids t k l (N.lxor a x)); [exact V|discriminate].
Qed.

(** ** Powers below a bound *)

(** [m], ..., 2, 1 *)
Fixpoint down (m : nat) : list N := match m with O => [] | S m' => N.of_nat m :: down m' end.
Fixpoint pows (n : nat) (x : N) (acc : list N) : list N :=
  match n with O => acc | S n' => let y := step x in pows n' y (y :: acc) end.
Lemma pows_down n : forall m, pows n (steps (N.of_nat m) 1) (map (fun q => steps q 1) (down m)) = map (fun q => steps q 1) (down (m + n)).
Proof.
  induction n as [|n IH]; intros m; cbn [pows]; [now rewrite Nat.add_0_r|]. rewrite <- steps_succ, <- Nat2N.inj_succ.
  rewrite <- Nat.add_succ_comm. exact (IH (S m)).
Qed.
Lemma sub_down m : forall qs, StronglySorted (fun x y => y < x) qs -> Forall (fun q => 0 < q <= N.of_nat m) qs -> sub qs (down m).
Proof.
  induction m as [|m IH]; intros qs S F.
  - destruct F as [|q qs H _]; [constructor|lia].
  - destruct qs as [|q qs]; [constructor|]. inversion F as [|q0 qs0 Hq Fq]; subst. inversion S as [|q0 qs0 Sq Lq]; subst.
    cbn [down]. destruct (N.eq_dec q (N.of_nat (Datatypes.S m))) as [->|N].
    + constructor. apply IH; [exact Sq|]. rewrite Forall_forall in *. intros x X. specialize (Lq x X). specialize (Fq x X). cbn beta in *. lia.
    + constructor. apply IH; [exact S|]. constructor; [lia|]. rewrite Forall_forall in *. intros x X. specialize (Lq x X). specialize (Fq x X).
      cbn beta in *. lia.
Qed.
Lemma sub_map {A B} (f : A -> B) s l : sub s l -> sub (map f s) (map f l).
Proof. induction 1; cbn [map]; constructor; auto. Qed.
Lemma sub_app {A} (s1 s2 l : list A) : sub (s1 ++ s2) l -> sub s1 l /\ sub s2 l.
Proof.
  intros H. remember (s1 ++ s2) as s eqn:E. revert s1 E. induction H as [l|x s l H IH|x s l H IH]; intros s1 E.
  - symmetry in E. apply app_eq_nil in E as [-> ->]. split; constructor.
  - destruct s1 as [|y s1]; cbn [app] in E.
    + subst s2. split; [constructor|]. constructor. exact H.
    + injection E as -> E. destruct (IH s1 E). split; constructor; auto.
  - destruct (IH s1 E). split; constructor; auto.
Qed.
Lemma sum_app a b : sum (a ++ b) = N.lxor (sum a) (sum b).
Proof. induction a as [|x a IH]; cbn [app sum fold_right]; [now rewrite N.lxor_0_l|]. unfold sum in IH. rewrite IH. now rewrite N.lxor_assoc. Qed.

Definition check (m : N) (i j : nat) : bool :=
  let l := pows (N.to_nat (m - 1)) 1 [] in avoids (fill i l 0 Leaf) j l 1.
Lemma check_none m i j qs : check m i j = true -> StronglySorted (fun x y => y < x) qs -> Forall (fun q => 0 < q < m) qs ->
  length qs = (i + j)%nat -> sum (map (fun q => steps q 1) qs) <> 1.
Proof.
  intros C So F L E. unfold check in C. cbv zeta in C. pose proof (pows_down (N.to_nat (m - 1)) 0) as P0. cbn [N.of_nat down map Nat.add] in P0. rewrite steps_0 in P0. rewrite P0 in C.
  set (l := map (fun q => steps q 1) (down (N.to_nat (m - 1)))) in C.
  assert (S0 : sub (map (fun q => steps q 1) qs) l).
  { apply sub_map, sub_down; [exact So|]. rewrite Forall_forall in *. intros q Q. specialize (F q Q). cbn beta in *. lia. }
  rewrite <- (firstn_skipn i (map (fun q => steps q 1) qs)) in S0, E. apply sub_app in S0 as [S1 S2]. rewrite sum_app in E.
  assert (L1 : length (firstn i (map (fun q => steps q 1) qs)) = i) by (rewrite firstn_length, map_length; lia).
  assert (L2 : length (skipn i (map (fun q => steps q 1) qs)) = j) by (rewrite skipn_length, map_length; lia).
  pose proof (fill_sub i l 0 Leaf _ S1 L1) as M. pose proof (avoids_sub _ j l 1 _ C S2 L2) as N0.
  rewrite N.lxor_0_l in M. set (u := sum (firstn _ _)) in *. set (v := sum (skipn _ _)) in *.
  assert (N.lxor 1 v = u) as X by (rewrite <- E, N.lxor_assoc, N.lxor_nilpotent, N.lxor_0_r; reflexivity).
  rewrite X in N0. congruence.
Qed.

(** ** Messages *)

Fixpoint dsum (a b : list bool) : N :=
  match a, b with
  | x :: a', y :: b' => N.lxor (if Bool.eqb x y then 0 else steps (N.of_nat (length a')) crc_poly) (dsum a' b')
  | _, _ => 0
  end.
Lemma shift_flip s z : shift_in s (negb z) = N.lxor crc_poly (shift_in s z).
Proof.
  rewrite !shift_in_bit. change crc_poly with (step (2 ^ 31)) at 2. rewrite <- linear_crc_bit.
  f_equal. destruct z; cbn [negb top]; rewrite ?N.lxor_0_r; [|apply N.lxor_comm].
  rewrite N.lxor_comm, N.lxor_assoc, N.lxor_nilpotent, N.lxor_0_r. reflexivity.
Qed.
Lemma register_dsum a : forall b r, length b = length a -> crc_register b r = N.lxor (crc_register a r) (dsum a b).
Proof.
  induction a as [|x a IH]; intros [|y b] r L; try discriminate; cbn [dsum]; [now rewrite N.lxor_0_r|].
  injection L as L. unfold crc_register in *. cbn [fold_left]. destruct (Bool.eqb x y) eqn:E.
  - apply eqb_prop in E as ->. rewrite N.lxor_0_l. now apply IH.
  - assert (y = negb x) as -> by (now destruct x, y). rewrite shift_flip, (IH b (N.lxor _ _) L).
    fold (crc_register a (N.lxor crc_poly (shift_in r x))). rewrite register_linear, steps_nat. unfold crc_register.
    rewrite !N.lxor_assoc. set (u := steps _ _). set (v := fold_left _ _ _). rewrite <- !N.lxor_assoc. f_equal. apply N.lxor_comm.
Qed.
Lemma dsum_differing a : forall b i, length b = length a ->
  dsum a b = sum (map (fun p => steps (i + N.of_nat (length a) - 1 - p) crc_poly) (differing i a b)).
Proof.
  induction a as [|x a IH]; intros [|y b] i L; try discriminate; [reflexivity|]. injection L as L. cbn [dsum differing length].
  replace (i + N.of_nat (S (length a)) - 1) with (N.succ i + N.of_nat (length a) - 1) by lia.
  destruct (Bool.eqb x y); [rewrite N.lxor_0_l; now apply IH|]. cbn [map sum fold_right].
  rewrite (IH b (N.succ i) L). f_equal. f_equal. lia.
Qed.
Lemma differing_range a : forall b i, Forall (fun p => i <= p < i + N.of_nat (length a)) (differing i a b).
Proof.
  induction a as [|x a IH]; intros [|y b] i; cbn [differing length]; try constructor.
  specialize (IH b (N.succ i)). assert (F : Forall (fun p => i <= p < i + N.of_nat (S (length a))) (differing (N.succ i) a b)).
  { eapply Forall_impl; [|exact IH]. intros p. cbn beta. lia. }
  destruct (Bool.eqb x y); [exact F|]. constructor; [lia|exact F].
Qed.
Lemma differing_sorted a : forall b i, StronglySorted N.lt (differing i a b).
Proof.
  induction a as [|x a IH]; intros [|y b] i; cbn [differing]; try constructor.
  destruct (Bool.eqb x y); [apply IH|]. constructor; [apply IH|]. eapply Forall_impl; [|apply differing_range]. intros p. cbn beta. lia.
Qed.

Lemma sum_linear f l : linear f -> sum (map f l) = f (sum l).
Proof. intros H. induction l as [|x l IH]; cbn [map sum fold_right]; [now rewrite (linear_0 f H)|]. unfold sum in IH. rewrite IH, H. reflexivity. Qed.
Lemma sum_bound l : Forall (fun x => x < 2 ^ 32) l -> sum l < 2 ^ 32.
Proof. induction 1; cbn [sum fold_right]; [reflexivity|]. now apply lxor_bound. Qed.

Lemma sorted_last ps z : StronglySorted N.lt (ps ++ [z]) -> Forall (fun p => p < z) ps /\ StronglySorted N.lt ps.
Proof.
  induction ps as [|p ps IH]; cbn [app]; intros S; [split; constructor|]. inversion S as [|p0 ps0 S1 F]; subst.
  apply Forall_app in F as [F F1]. inversion F1; subst. destruct (IH S1). split; constructor; auto.
Qed.
Lemma flip_sorted z ps : StronglySorted N.lt ps -> Forall (fun p => p < z) ps -> StronglySorted (fun x y => y < x) (map (fun p => z - p) ps).
Proof.
  induction 1 as [|p ps S IH F]; intros L; cbn [map]; constructor.
  - apply IH. now inversion L.
  - rewrite Forall_map. inversion L; subst. rewrite Forall_forall in *. intros q Q. specialize (F q Q).
    assert (q < z) by auto. lia.
Qed.

Lemma many_detected m i j n span d1 d2 : check m i j = true -> n = S (i + j) -> wrong_bits n span d1 d2 -> span < m ->
  calc_crc d1 <> calc_crc d2.
Proof.
  intros C Hn (Ln & Hl & Hs) L E. rewrite !calc_crc_spec in E. unfold crc32_unreal in E.
  apply (f_equal (fun z => N.lxor z crc_xorout)) in E.
  rewrite !N.lxor_assoc, !N.lxor_nilpotent, !N.lxor_0_r in E.
  assert (Lb : length (data_bits d2) = length (data_bits d1)) by (rewrite !data_bits_length; lia).
  rewrite (register_dsum (data_bits d1) (data_bits d2) _ Lb) in E. set (w := crc_register _ _) in E.
  apply (f_equal (N.lxor w)) in E. rewrite <- N.lxor_assoc, N.lxor_nilpotent, N.lxor_0_l in E. symmetry in E.
  rewrite (dsum_differing _ _ 0 Lb) in E. set (B := N.of_nat (length (data_bits d1))) in E.
  pose proof (differing_range (data_bits d1) (data_bits d2) 0) as R. pose proof (differing_sorted (data_bits d1) (data_bits d2) 0) as So. fold B in R.
  set (ps := differing 0 (data_bits d1) (data_bits d2)) in *. clearbody ps.
  destruct (exists_last (l := ps)) as (qs & z & ->); [intros ->; cbn in Hl; lia|]. clear w.
  rewrite last_last in Hs. destruct (sorted_last _ _ So) as [Lz Sq]. rewrite app_length in Hl. cbn [length] in Hl.
  apply Forall_app in R as [Rq Rz]. inversion Rz as [|z0 l0 Bz _]; subst z0 l0.
  assert (Hz : forall p, In p qs -> z - p <= span).
  { intros p P. destruct qs as [|q qs]; [destruct P|]. cbn [app hd] in Hs. destruct P as [->|P]; [lia|].
    inversion Sq as [|q0 qs0 _ F]; subst. rewrite Forall_forall in F. specialize (F p P). lia. }
  assert (Q : map (fun p => steps (0 + B - 1 - p) crc_poly) (qs ++ [z]) =
              map (steps (B - 1 - z)) (map (steps 32) (map (fun p => steps (z - p) 1) (qs ++ [z])))).
  { rewrite !map_map. apply map_ext_in. intros p P. change crc_poly with (steps 32 1). rewrite <- !steps_add. f_equal.
    assert (p <= z). { apply in_app_or in P as [P|[->|[]]]; [|lia]. rewrite Forall_forall in Lz. specialize (Lz p P). lia. } lia. }
  rewrite Q, (sum_linear _ _ (linear_steps _)), (sum_linear _ _ (linear_steps 32)) in E.
  assert (Z : sum (map (fun p => steps (z - p) 1) (qs ++ [z])) = 0).
  { assert (Bd : sum (map (fun p => steps (z - p) 1) (qs ++ [z])) < 2 ^ 32).
    { apply sum_bound. rewrite Forall_map, Forall_forall. intros p _. apply steps_bound. reflexivity. }
    apply (steps_inj 32); [exact Bd|reflexivity|]. rewrite (linear_0 _ (linear_steps 32)).
    apply (steps_inj (B - 1 - z)); [apply steps_bound; exact Bd|reflexivity|]. rewrite E, (linear_0 _ (linear_steps _)). reflexivity. }
  rewrite map_app, sum_app in Z. cbn [map sum fold_right] in Z. rewrite N.sub_diag, steps_0, N.lxor_0_r in Z.
  apply N.lxor_eq in Z. rewrite <- (map_map (fun p => z - p) (fun q => steps q 1)) in Z. revert Z.
  apply (check_none m i j); [exact C|apply flip_sorted; assumption| |rewrite map_length; lia].
  rewrite Forall_map, Forall_forall. intros p P. rewrite Forall_forall in Lz. specialize (Lz p P). specialize (Hz p P). lia.
Qed.

Lemma wrong_length n span d1 d2 : wrong_bits n span d1 d2 -> length d2 = length d1.
Proof. intros H. apply H. Qed.

Lemma few_detected n m span d1 d2 : In (n, m) least_spans -> wrong_bits n span d1 d2 -> span < m -> calc_crc d1 <> calc_crc d2.
Proof.
  intros I. unfold least_spans in I. cbn [In] in I.
  destruct I as [E|[E|[E|[E|[E|[E|[E|[E|[E|[]]]]]]]]]]; injection E as <- <-.
  - apply (many_detected _ 1 2); [vm_compute; reflexivity|reflexivity].
  - apply (many_detected _ 2 2); [vm_compute; reflexivity|reflexivity].
  - apply (many_detected _ 2 3); [vm_compute; reflexivity|reflexivity].
  - apply (many_detected _ 3 3); [vm_compute; reflexivity|reflexivity].
  - apply (many_detected _ 3 4); [vm_compute; reflexivity|reflexivity].
  - apply (many_detected _ 4 4); [vm_compute; reflexivity|reflexivity].
  - apply (many_detected _ 4 5); [vm_compute; reflexivity|reflexivity].
  - apply (many_detected _ 5 5); [vm_compute; reflexivity|reflexivity].
  - apply (many_detected _ 5 6); [vm_compute; reflexivity|reflexivity].
Qed.
