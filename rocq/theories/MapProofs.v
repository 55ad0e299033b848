(** * Proofs: finite maps, iteration orders *)

From Coq Require Import ZArith List Bool Lia ZifyBool ZifyNat Permutation.
From Verif Require Import Base SegArray ObjectIndex SpecBasic BasicProofs.
Open Scope Z_scope.

(** maps keep their keys in increasing order, so equal maps are equal lists *)
Fixpoint sorted_from {V} (lo : option Z) (m : amap V) : Prop :=
  match m with
  | [] => True
  | (k, _) :: t => match lo with Some x => x < k | None => True end /\ sorted_from (Some k) t
  end.
Definition sorted {V} (m : amap V) : Prop := sorted_from None m.

Lemma sorted_from_weaken {V} a b (m : amap V) : b <= a -> sorted_from (Some a) m -> sorted_from (Some b) m.
Proof. destruct m as [|[k v] m]; simpl; auto. intros; split; [lia|tauto]. Qed.
Lemma sorted_from_none {V} a (m : amap V) : sorted_from a m -> sorted m.
Proof. destruct m as [|[k v] m]; unfold sorted; simpl; tauto. Qed.

Lemma sorted_from_get {V} a (m : amap V) k : sorted_from (Some a) m -> k <= a -> map_get k m = None.
Proof.
  revert a; induction m as [|[k' v] m IH]; intros a H L; simpl; auto. destruct H as [H1 H2].
  destruct (Z.eqb_spec k k'); [lia|]. apply (IH k' H2). lia.
Qed.

Lemma sorted_insert_from {V} lo k (v : V) m : sorted_from lo m ->
  match lo with Some x => x < k | None => True end -> sorted_from lo (map_insert k v m).
Proof.
  revert lo; induction m as [|[k' v'] m IH]; intros lo H L; simpl.
  - auto.
  - destruct H as [H1 H2]. destruct (Z.ltb_spec k k').
    + simpl. repeat split; auto.
    + destruct (Z.eqb_spec k k').
      * subst. simpl. split; auto.
      * simpl. split; auto. apply IH; auto. lia.
Qed.
Lemma sorted_insert {V} k (v : V) m : sorted m -> sorted (map_insert k v m).
Proof. intros. now apply sorted_insert_from. Qed.

Lemma sorted_remove {V} k (m : amap V) : sorted m -> sorted (map_remove k m).
Proof.
  unfold sorted. generalize (@None Z). induction m as [|[k' v'] m IH]; intros lo H; simpl; auto.
  destruct H as [H1 H2]. destruct (Z.eqb_spec k k').
  - apply IH. destruct lo; [eapply sorted_from_weaken; [|exact H2]; lia|now apply sorted_from_none in H2].
  - simpl. split; auto.
Qed.

Lemma sorted_extend {V} l (m : amap V) : sorted m -> sorted (map_extend m l).
Proof.
  unfold map_extend. revert m; induction l as [|[k v] l IH]; intros m H; simpl; auto.
  apply IH, sorted_insert, H.
Qed.

Lemma sorted_ext {V} (m m' : amap V) : sorted m -> sorted m' ->
  (forall k, map_get k m = map_get k m') -> m = m'.
Proof.
  unfold sorted. generalize (@None Z). revert m'. induction m as [|[k v] m IH]; intros [|[k' v'] m'] lo H H' E; auto.
  - specialize (E k'). simpl in E. rewrite Z.eqb_refl in E. discriminate.
  - specialize (E k). simpl in E. rewrite Z.eqb_refl in E. discriminate.
  - destruct H as [H1 H2], H' as [H1' H2'].
    assert (k = k').
    { destruct (Z.lt_trichotomy k k') as [L|[->|L]]; auto.
      - specialize (E k). simpl in E. rewrite Z.eqb_refl in E.
        destruct (Z.eqb_spec k k'); [lia|]. rewrite (sorted_from_get k') in E by (auto; lia). discriminate.
      - specialize (E k'). simpl in E. rewrite Z.eqb_refl in E.
        destruct (Z.eqb_spec k' k); [lia|]. rewrite (sorted_from_get k) in E by (auto; lia). discriminate. }
    subst k'. pose proof (E k) as Ek. simpl in Ek. rewrite Z.eqb_refl in Ek. injection Ek as <-.
    f_equal. apply (IH m' (Some k)); auto. intros j. specialize (E j). simpl in E.
    destruct (Z.eqb_spec j k); auto. subst j.
    rewrite !(sorted_from_get k) by (auto; lia). reflexivity.
Qed.

Lemma sorted_from_bound {V} a (m : amap V) k : sorted_from (Some a) m -> In k (map fst m) -> a < k.
Proof.
  revert a; induction m as [|[j v] m IH]; intros a H Hin; simpl in *; [tauto|].
  destruct H as [H1 H2]. destruct Hin as [<-|Hin]; auto. specialize (IH _ H2 Hin). lia.
Qed.
Lemma sorted_nodup {V} (m : amap V) : sorted m -> NoDup (map fst m).
Proof.
  unfold sorted. generalize (@None Z). induction m as [|[k v] m IH]; intros lo H; simpl; [constructor|].
  destruct H as [H1 H2]. constructor; [|eapply IH; eauto].
  intros Hin. apply (sorted_from_bound _ _ _ H2) in Hin. lia.
Qed.

Lemma map_get_in {V} k (v : V) m : NoDup (map fst m) -> (map_get k m = Some v <-> In (k, v) m).
Proof.
  induction m as [|[j w] m IH]; simpl; intros N; [split; [discriminate|tauto]|].
  inversion N as [|? ? N1 N2]; subst. destruct (Z.eqb_spec k j) as [->|Hne].
  - split; [intros [= ->]; auto|]. intros [[= <-]|Hin]; auto.
    exfalso. apply N1. apply in_map with (f := fst) in Hin. exact Hin.
  - rewrite IH by auto. split; auto. intros [[= -> ->]|]; [congruence|auto].
Qed.

Lemma map_get_none {V} k (m : amap V) : map_get k m = None <-> ~ In k (map fst m).
Proof.
  induction m as [|[j w] m IH]; simpl; [tauto|]. destruct (Z.eqb_spec k j) as [->|Hne].
  - split; [discriminate|]. intros H. exfalso. auto.
  - rewrite IH. split; auto. intros H [E|E]; [congruence|auto].
Qed.

(** the last value given for a key by a list of entries *)
Fixpoint last_of {V} (k : Z) (l : list (Z * V)) : option V :=
  match l with
  | [] => None
  | (j, v) :: t =>
      match last_of k t with
      | Some x => Some x
      | None => if k =? j then Some v else None
      end
  end.

Lemma last_of_app {V} k (a b : list (Z * V)) :
  last_of k (a ++ b) = match last_of k b with Some x => Some x | None => last_of k a end.
Proof.
  induction a as [|[j v] a IH]; simpl; [destruct (last_of k b); auto|].
  rewrite IH. destruct (last_of k b); auto.
Qed.

Lemma map_get_extend {V} k l (m : amap V) :
  map_get k (map_extend m l) = match last_of k l with Some x => Some x | None => map_get k m end.
Proof.
  unfold map_extend. revert m; induction l as [|[j v] l IH]; intros m; simpl; auto.
  rewrite IH, map_get_insert. destruct (last_of k l); auto. destruct (k =? j); auto.
Qed.

Lemma last_of_some {V} k (v : V) l : last_of k l = Some v <->
  exists b a, l = b ++ (k, v) :: a /\ ~ In k (map fst a).
Proof.
  induction l as [|[j w] l IH]; simpl.
  - split; [discriminate|]. intros ([|] & ? & E & _); discriminate.
  - destruct (last_of k l) as [x|] eqn:E.
    + split.
      * intros [= ->]. destruct (proj1 IH eq_refl) as (b & a & -> & N).
        exists ((j, w) :: b), a. auto.
      * intros ([|y b] & a & Eq & N); simpl in Eq; injection Eq as E1 E2.
        -- subst. exfalso. apply N.
           assert (G : forall (l : list (Z * V)) x, last_of k l = Some x -> In k (map fst l)).
           { clear. induction l as [|[j w] l IH]; simpl; [discriminate|]. intros x.
             destruct (last_of k l) eqn:E; [eauto|]. destruct (Z.eqb_spec k j); [subst; auto|discriminate]. }
           eapply G, E.
        -- apply IH. exists b, a. auto.
    + destruct (Z.eqb_spec k j) as [->|Hne].
      * split.
        -- intros [= ->]. exists [], l. split; auto.
           intros Hin. clear IH. revert E. induction l as [|[i u] l IH]; simpl in *; [tauto|].
           destruct (last_of j l) eqn:F; [discriminate|]. destruct (Z.eqb_spec j i); [discriminate|].
           intros _. apply IH; auto. destruct Hin; [congruence|auto].
        -- intros ([|y b] & a & Eq & N); simpl in Eq; injection Eq as E1 E2; [congruence|].
           exfalso. subst l. rewrite last_of_app in E. simpl in E.
           destruct (last_of j a); [discriminate|]. rewrite Z.eqb_refl in E. discriminate.
      * split; [discriminate|]. intros ([|y b] & a & Eq & N); simpl in Eq; injection Eq as E1 E2.
        -- congruence.
        -- subst l. rewrite last_of_app in E. simpl in E.
           destruct (last_of k a); [discriminate|]. rewrite Z.eqb_refl in E. discriminate.
Qed.

Lemma last_of_in {V} k (v : V) l : last_of k l = Some v -> In (k, v) l.
Proof. intros H. apply last_of_some in H as (b & a & -> & _). apply in_or_app. simpl; auto. Qed.

Lemma last_of_none {V} k (l : list (Z * V)) : last_of k l = None <-> ~ In k (map fst l).
Proof.
  induction l as [|[j w] l IH]; simpl; [tauto|].
  destruct (last_of k l) as [x|] eqn:E.
  - split; [discriminate|]. intros H. exfalso. apply H. right.
    apply last_of_in in E. apply in_map with (f := fst) in E. exact E.
  - destruct (Z.eqb_spec k j) as [->|Hne].
    + split; [discriminate|]. intros H. exfalso; auto.
    + split; auto. intros _ [H|H]; [congruence|]. now apply IH.
Qed.

Lemma last_of_nodup {V} k (v : V) l : NoDup (map fst l) -> (last_of k l = Some v <-> In (k, v) l).
Proof.
  intros N. split; [apply last_of_in|]. intros Hin. apply in_split in Hin as (b & a & ->).
  apply last_of_some. exists b, a. split; auto.
  rewrite map_app in N. apply NoDup_remove_2 in N. intros H. apply N, in_or_app. auto.
Qed.

(** iterating over a map and looking things up *)
Lemma last_of_perm {V} k (l m : list (Z * V)) : NoDup (map fst m) -> Permutation l m ->
  last_of k l = map_get k m.
Proof.
  intros N P. assert (N' : NoDup (map fst l)).
  { eapply Permutation_NoDup; [|exact N]. apply Permutation_map. now symmetry. }
  destruct (map_get k m) as [v|] eqn:E.
  - apply map_get_in in E; auto. apply last_of_nodup; auto. eapply Permutation_in; [symmetry|]; eauto.
  - apply map_get_none in E. apply last_of_none. intros H. apply E.
    eapply Permutation_in; [apply Permutation_map|]; eauto.
Qed.

(** ** Maps and segmented arrays filled in any order *)

Lemma extend_perm {V} (l l' : list (Z * V)) (m : amap V) : sorted m -> NoDup (map fst l') ->
  Permutation l l' -> map_extend m l = map_extend m l'.
Proof.
  intros S N P. apply sorted_ext; try (apply sorted_extend; auto). intros k.
  rewrite !map_get_extend, (last_of_perm _ _ _ N P).
  rewrite (last_of_perm _ _ _ N (Permutation_refl _)). reflexivity.
Qed.

Lemma sorted_insert_comm {V} j k (v w : V) m : sorted m -> j <> k ->
  map_insert j v (map_insert k w m) = map_insert k w (map_insert j v m).
Proof.
  intros S N. apply sorted_ext; try (repeat apply sorted_insert; auto).
  intros i. rewrite !map_get_insert. destruct (Z.eqb_spec i j), (Z.eqb_spec i k); auto; congruence.
Qed.

Lemma getZ_ext {A} (l l' : list A) : (forall i, getZ i l = getZ i l') -> l = l'.
Proof.
  revert l'; induction l as [|x l IH]; intros [|y l'] H; auto.
  - specialize (H 0). simpl in H. discriminate.
  - specialize (H 0). simpl in H. discriminate.
  - pose proof (H 0) as H0. simpl in H0. injection H0 as ->. f_equal. apply IH. intros i.
    destruct (Z.leb_spec 0 i) as [L|L].
    + specialize (H (i + 1)). simpl in H. destruct (Z.eqb_spec (i + 1) 0); [lia|].
      replace (i + 1 - 1) with i in H by lia. exact H.
    + assert (G : forall m : list A, getZ i m = None) by (intros m; apply getZ_none; lia).
      now rewrite !G.
Qed.

Lemma setZ_comm {A} i j (x y : A) l : i <> j ->
  match setZ i x l with Some a => setZ j y a | None => None end =
  match setZ j y l with Some a => setZ i x a | None => None end.
Proof.
  intros N.
  pose proof (fun k => setZ_getZ i x l k) as G1. pose proof (fun k => setZ_getZ j y l k) as G2.
  destruct (setZ i x l) as [a|]; destruct (setZ j y l) as [b|]; auto.
  - pose proof (fun k => setZ_getZ j y a k) as G3. pose proof (fun k => setZ_getZ i x b k) as G4.
    destruct (G1 0) as (R1 & L1 & _). destruct (G2 0) as (R2 & L2 & _).
    destruct (setZ j y a) as [c|] eqn:Ec; [|exfalso; apply (G3 0); unfold lenZ in *; rewrite L1; auto].
    destruct (setZ i x b) as [d|] eqn:Ed; [|exfalso; apply (G4 0); unfold lenZ in *; rewrite L2; auto].
    f_equal. apply getZ_ext. intros k. destruct (G1 k) as (_ & _ & K1), (G2 k) as (_ & _ & K2),
      (G3 k) as (_ & _ & K3), (G4 k) as (_ & _ & K4).
    rewrite K3, K4, K1, K2. destruct (Z.eqb_spec k i), (Z.eqb_spec k j); auto; congruence.
  - pose proof (setZ_none j y a) as S. destruct (G1 0) as (R1 & L1 & _). rewrite S; auto.
    unfold lenZ in *. rewrite L1. apply (G2 0).
  - symmetry. apply setZ_none. destruct (G2 0) as (R2 & L2 & _). unfold lenZ in *. rewrite L2. apply (G1 0).
Qed.

(** canonical segmented arrays *)
Definition seg_sorted {V} (s : seg_array V) : Prop := sorted (sg_map s).

Lemma setZ_length_some {A} i (x : A) l a j (y : A) : setZ i x l = Some a ->
  (setZ j y a = None <-> setZ j y l = None).
Proof.
  intros E. pose proof (setZ_getZ i x l 0) as G. rewrite E in G. destruct G as (R & L & _).
  pose proof (setZ_getZ j y a 0) as G1. pose proof (setZ_getZ j y l 0) as G2.
  unfold lenZ in *. rewrite L in G1.
  destruct (setZ j y a), (setZ j y l); split; intros; try discriminate; auto; exfalso; tauto.
Qed.

Lemma raw_insert_comm {V} j k (v w : V) s : seg_sorted s -> j <> k ->
  raw_insert j v (raw_insert k w s) = raw_insert k w (raw_insert j v s).
Proof.
  intros S N. unfold raw_insert.
  pose proof (setZ_comm j k (Some v) (Some w) (sg_array s) N) as C.
  destruct (setZ j (Some v) (sg_array s)) as [a|] eqn:Ea;
  destruct (setZ k (Some w) (sg_array s)) as [b|] eqn:Eb; cbn [sg_array sg_map].
  - rewrite <- C.
    destruct (setZ k (Some w) a) as [c|] eqn:Ec; auto.
    apply (setZ_length_some _ _ _ _ _ _ Ea) in Ec. congruence.
  - assert (Ec : setZ k (Some w) a = None) by (apply (setZ_length_some _ _ _ _ _ _ Ea); auto).
    now rewrite Ea, Ec.
  - assert (Ec : setZ j (Some v) b = None) by (apply (setZ_length_some _ _ _ _ _ _ Eb); auto).
    now rewrite Eb, Ec.
  - rewrite Ea, Eb. f_equal. now apply sorted_insert_comm.
Qed.

Lemma raw_insert_sorted {V} k (v : V) s : seg_sorted s -> seg_sorted (raw_insert k v s).
Proof.
  unfold seg_sorted, raw_insert. destruct (setZ k (Some v) (sg_array s)); auto. apply sorted_insert.
Qed.

Lemma raw_delete_sorted {V} k (s : seg_array V) : seg_sorted s -> seg_sorted (raw_delete k s).
Proof.
  unfold seg_sorted, raw_delete. destruct (getZ k (sg_array s)); auto. apply sorted_remove.
Qed.

Lemma seg_fill_perm {V} (l l' : list (Z * V)) s :
  Forall (fun kv => is_i32 (fst kv)) l -> NoDup (map fst l) -> Permutation l l' -> seg_sorted s ->
  fold_left (fun a kv => seg_insert (fst kv) (snd kv) a) l s =
  fold_left (fun a kv => seg_insert (fst kv) (snd kv) a) l' s.
Proof.
  intros F N P. revert s F N. induction P as [|x l l' P IH|x y l|l l' l'' P1 IH1 P2 IH2]; intros s F N S; auto.
  - simpl. inversion F; inversion N; subst. apply IH; auto. now apply raw_insert_sorted.
  - simpl. f_equal. unfold seg_insert. apply raw_insert_comm; auto.
    inversion F as [|? ? Fy F']; subst. inversion F' as [|? ? Fx _]; subst. inversion N as [|? ? N1 _]; subst.
    intros E. apply as_usize_inj in E; auto. apply N1. simpl. auto.
  - rewrite IH1; auto. apply IH2; auto.
    + apply Forall_forall. intros kv Hin. rewrite Forall_forall in F. apply F.
      eapply Permutation_in; [symmetry|]; eauto.
    + eapply Permutation_NoDup; [apply Permutation_map; eauto|auto].
Qed.

Lemma seg_fill_get {V} (l : list (Z * V)) s k : is_i32 k -> Forall (fun kv => is_i32 (fst kv)) l ->
  seg_get k (fold_left (fun a kv => seg_insert (fst kv) (snd kv) a) l s) =
  match last_of k l with Some v => Some v | None => seg_get k s end.
Proof.
  intros Hk. revert s; induction l as [|[j v] l IH]; intros s F; simpl; auto.
  inversion F as [|? ? F1 F2]; subst. rewrite IH by auto.
  destruct (last_of k l); auto. rewrite seg_get_insert by auto. destruct (k =? j); auto.
Qed.
