(** * Proofs: class hierarchy *)

From Coq Require Import ZArith List Bool Lia ZifyBool ZifyNat.
From Verif Require Import Base NetTypes NetModels Data ObjectIndex SpecBasic BasicProofs.
Open Scope Z_scope.
#[local] Opaque PARENT_CLASSES.

Fixpoint nodup_strs (l : list str) : bool :=
  match l with
  | [] => true
  | x :: t => negb (existsb (str_eqb x) t) && nodup_strs t
  end.

Lemma nodup_strs_ok l : nodup_strs l = true -> NoDup l.
Proof.
  induction l as [|x l IH]; simpl; [constructor|]. intros H.
  apply andb_true_iff in H as [H1 H2]. constructor; auto.
  intros Hin. apply negb_true_iff in H1. apply not_true_iff_false in H1. apply H1.
  apply existsb_exists. exists x. split; auto. apply str_eqb_refl.
Qed.

Lemma parent_classes_nodup : NoDup (map fst PARENT_CLASSES).
Proof. apply nodup_strs_ok. vm_compute. reflexivity. Qed.

Lemma parent_spec name p : parent name p <-> str_assoc (normalize_object name) PARENT_CLASSES = Some p.
Proof.
  rewrite (str_assoc_nodup _ _ _ parent_classes_nodup). unfold parent. split.
  - intros (c & Hc & Hin). apply normalize_class in Hc as ->. auto.
  - intros H. exists (normalize_object name). split; auto. now apply normalize_class.
Qed.

Lemma no_parent_spec name : (forall p, ~ parent name p) <-> str_assoc (normalize_object name) PARENT_CLASSES = None.
Proof.
  split.
  - intros H. destruct (str_assoc (normalize_object name) PARENT_CLASSES) eqn:E; auto.
    exfalso. eapply H, parent_spec; eauto.
  - intros H p Hp. apply parent_spec in Hp. congruence.
Qed.

Lemma parent_fun x p q : parent x p -> parent x q -> p = q.
Proof. rewrite !parent_spec. congruence. Qed.

(** the walk as a list of names *)
Fixpoint chain (fuel : nat) (name : str) : option (list str) :=
  match fuel with
  | O => None
  | S f =>
      match str_assoc (normalize_object name) PARENT_CLASSES with
      | None => Some []
      | Some p => match chain f p with Some l => Some (name :: l) | None => None end
      end
  end.

Lemma chain_lineage f x l : chain f x = Some l -> lineage x l.
Proof.
  revert x l; induction f as [|f IH]; intros x l; cbn [chain]; [discriminate|].
  destruct (str_assoc (normalize_object x) PARENT_CLASSES) as [p|] eqn:E.
  - destruct (chain f p) as [l'|] eqn:C; [|discriminate]. intros [= <-].
    apply lin_up with p; auto. now apply parent_spec.
  - intros [= <-]. constructor. now apply no_parent_spec.
Qed.

Lemma lineage_chain x l f : lineage x l -> (length l < f)%nat -> chain f x = Some l.
Proof.
  intros H; revert f; induction H as [x H|x p l H _ IH]; intros [|f] L; cbn [chain length] in *; try lia.
  - apply no_parent_spec in H. now rewrite H.
  - apply parent_spec in H. rewrite H, IH by lia. reflexivity.
Qed.

Lemma lineage_fun x l l' : lineage x l -> lineage x l' -> l = l'.
Proof.
  intros H H'. apply (lineage_chain _ _ (S (length l + length l'))) in H; [|lia].
  apply (lineage_chain _ _ (S (length l + length l'))) in H'; [|lia]. congruence.
Qed.

(** every entry of the table leads to the top; longest way *)
Definition max_depth : nat := 12.
Lemma table_chains : forallb (fun e => match chain max_depth (snd e) with Some _ => true | None => false end)
  PARENT_CLASSES = true.
Proof. vm_compute. reflexivity. Qed.

Lemma lineage_total x : exists l, lineage x l /\ (length l <= max_depth)%nat.
Proof.
  destruct (str_assoc (normalize_object x) PARENT_CLASSES) as [p|] eqn:E.
  - pose proof table_chains as T. rewrite forallb_forall in T.
    pose proof (proj1 (str_assoc_nodup _ _ _ parent_classes_nodup) E) as Hin.
    specialize (T _ Hin). simpl snd in T.
    destruct (chain max_depth p) as [l|] eqn:C; [|discriminate].
    exists (x :: l). split.
    + apply lin_up with p; [now apply parent_spec|]. eapply chain_lineage; eauto.
    + assert (B : forall f y m, chain f y = Some m -> (length m < f)%nat).
      { clear. induction f as [|f IH]; intros y m; cbn [chain]; [discriminate|].
        destruct (str_assoc (normalize_object y) PARENT_CLASSES) as [q|].
        - destruct (chain f q) eqn:C; [|discriminate]. intros [= <-]. apply IH in C. simpl; lia.
        - intros [= <-]. simpl; lia. }
      apply B in C. cbn [length]. lia.
  - exists []. split; [|cbn [length]; lia]. constructor. now apply no_parent_spec.
Qed.

Lemma ancestor_lineage x q : ancestor x q ->
  forall l m, lineage x l -> lineage q m -> (length m < length l)%nat.
Proof.
  assert (P : forall x p l m, parent x p -> lineage x l -> lineage p m -> (length l = S (length m))%nat).
  { intros y p l m Hp Hl Hm. inversion Hl; subst; [exfalso; eapply H; eauto|].
    assert (p0 = p) by (eapply parent_fun; eauto). subst. simpl.
    now rewrite (lineage_fun _ _ _ H0 Hm). }
  induction 1 as [x p Hp|x p q Hp Ha IH]; intros l m Hl Hm.
  - rewrite (P _ _ _ _ Hp Hl Hm). lia.
  - destruct (lineage_total p) as (k & Hk & _).
    rewrite (P _ _ _ _ Hp Hl Hk). specialize (IH _ _ Hk Hm). lia.
Qed.

Lemma ancestor_irrefl x : ~ ancestor x x.
Proof.
  intros H. destruct (lineage_total x) as (l & Hl & _).
  pose proof (ancestor_lineage _ _ H _ _ Hl Hl). lia.
Qed.

Lemma lineage_nodup x l : lineage x l -> NoDup l.
Proof.
  assert (A : forall x l, lineage x l -> forall y, In y l -> y = x \/ ancestor x y).
  { clear. induction 1 as [y H|y p l H Hl IH]; intros z Hz; [destruct Hz|].
    destruct Hz as [<-|Hz]; auto. right.
    destruct (IH z Hz) as [->|Ha]; [now constructor|econstructor 2; eauto]. }
  induction 1 as [y H|y p l H Hl IH]; constructor; auto.
  intros Hin. destruct (A _ _ Hl _ Hin) as [->|Ha].
  - eapply ancestor_irrefl. constructor; eauto.
  - eapply ancestor_irrefl. econstructor 2; eauto.
Qed.

(** ** The index of names *)

Lemma or_insert_get n v m k :
  str_assoc k (or_insert n v m) =
  match str_assoc k m with
  | Some x => Some x
  | None => if str_eqb k n then Some v else None
  end.
Proof.
  unfold or_insert. destruct (str_assoc n m) as [y|] eqn:E.
  - destruct (str_assoc k m) eqn:F; auto. destruct (str_eqb k n) eqn:G; auto.
    apply str_eqb_spec in G as ->. congruence.
  - simpl. destruct (str_eqb k n) eqn:G.
    + apply str_eqb_spec in G as ->. now rewrite E.
    + destruct (str_assoc k m); auto.
Qed.

Lemma index_from_get objs : forall i m k,
  str_assoc k (index_from i objs m) =
  match str_assoc k m with
  | Some x => Some x
  | None => match find (fun p => str_eqb k (fst p)) (combine objs (map (fun j => as_i32 (i + Z.of_nat j)) (seq 0 (length objs)))) with
            | Some p => Some (snd p)
            | None => None
            end
  end.
Proof.
  induction objs as [|n objs IH]; intros i m k; cbn [index_from].
  - simpl. destruct (str_assoc k m); auto.
  - rewrite IH, or_insert_get. destruct (str_assoc k m) as [x|]; auto.
    cbn [length seq map combine find fst]. rewrite Z.add_0_r.
    destruct (str_eqb k n) eqn:E; auto.
    rewrite <- seq_shift, map_map.
    replace (map (fun x => as_i32 (i + Z.of_nat (S x))) (seq 0 (length objs)))
      with (map (fun j => as_i32 (i + 1 + Z.of_nat j)) (seq 0 (length objs))); auto.
    apply map_ext. intros a. f_equal. lia.
Qed.

Lemma as_i32_id x : is_i32 x -> as_i32 x = x.
Proof.
  unfold is_i32, as_i32, to_signed. intros H. change (2 ^ 32) with 4294967296 in *.
  change (2 ^ (32 - 1)) with 2147483648. change (2 ^ 31) with 2147483648 in H.
  destruct (Z.leb_spec 0 x).
  - rewrite Z.mod_small by lia. destruct (Z.ltb_spec x 2147483648); lia.
  - rewrite <- (Z_mod_plus_full x 1), Z.mod_small by lia.
    destruct (Z.ltb_spec (x + 1 * 4294967296) 2147483648); lia.
Qed.

Lemma by_name_spec objects name i : lenZ objects <= 2 ^ 31 ->
  by_name (object_index_new objects) name = Some i <-> first_index objects name i.
Proof.
  unfold by_name, object_index_new. intros L. rewrite index_from_get. cbn [str_assoc].
  assert (G : forall s, Z.of_nat s + lenZ objects <= 2 ^ 31 ->
    match find (fun p => str_eqb name (fst p)) (combine objects (map (fun j => as_i32 (0 + Z.of_nat j)) (seq s (length objects)))) with
    | Some p => Some (snd p) | None => None end = Some i <->
    exists before after, objects = before ++ name :: after /\ ~ In name before /\
      i = Z.of_nat s + Z.of_nat (length before)).
  { clear L. unfold lenZ. induction objects as [|n objects IH]; intros s L.
    - simpl. split; [discriminate|]. intros ([|] & ? & E & _); discriminate.
    - cbn [length seq map combine find fst]. cbn [length] in L. destruct (str_eqb name n) eqn:E.
      + apply str_eqb_spec in E as <-. cbn [snd]. rewrite as_i32_id by (unfold is_i32; lia). split.
        * intros [= <-]. exists [], objects. split; auto. split; auto. simpl; lia.
        * intros ([|m b] & a & Eq & N & ->); cbn [length In app] in *; [f_equal; lia|].
          injection Eq; intros; subst. tauto.
      + apply str_eqb_neq in E. rewrite IH by lia. split.
        * intros (b & a & -> & N & ->). exists (n :: b), a. split; auto. split; [simpl; intuition|cbn [length]; lia].
        * intros ([|m b] & a & Eq & N & ->); cbn [length In app] in *; injection Eq; intros; subst; [tauto|].
          exists b, a. split; auto. split; [tauto|lia]. }
  rewrite (G 0%nat) by (unfold lenZ in *; lia). unfold first_index. simpl Z.of_nat. reflexivity.
Qed.

Lemma by_name_none objects name : lenZ objects <= 2 ^ 31 ->
  by_name (object_index_new objects) name = None <-> ~ In name objects.
Proof.
  intros L. split.
  - intros H Hin. apply in_split in Hin as H1. 
    assert (exists b a, objects = b ++ name :: a /\ ~ In name b) as (b & a & E & N).
    { clear - Hin. induction objects as [|x l IH]; [destruct Hin|].
      destruct (str_dec x name) as [->|D]; [exists [], l; auto|].
      destruct Hin as [|Hin]; [congruence|]. destruct (IH Hin) as (b & a & -> & N).
      exists (x :: b), a. simpl; intuition. }
    assert (F : first_index objects name (Z.of_nat (length b))) by (exists b, a; auto).
    apply by_name_spec in F; auto. congruence.
  - intros N. destruct (by_name (object_index_new objects) name) as [i|] eqn:E; auto.
    apply by_name_spec in E; auto. destruct E as (b & a & -> & _). exfalso. apply N, in_or_app. simpl; auto.
Qed.

Lemma first_index_range objects name i : first_index objects name i -> 0 <= i < lenZ objects.
Proof.
  intros (b & a & -> & _ & ->). unfold lenZ. rewrite app_length. simpl length. lia.
Qed.

Lemma first_index_fun objects name i j : lenZ objects <= 2 ^ 31 ->
  first_index objects name i -> first_index objects name j -> i = j.
Proof. intros L. rewrite <- !by_name_spec by auto. congruence. Qed.

Lemma first_index_name objects name i : first_index objects name i -> nth_error objects (Z.to_nat i) = Some name.
Proof.
  intros (b & a & -> & _ & ->). rewrite Nat2Z.id, nth_error_app2, Nat.sub_diag by lia. reflexivity.
Qed.

Lemma first_index_inj objects n m i : first_index objects n i -> first_index objects m i -> n = m.
Proof. intros H1 H2. apply first_index_name in H1, H2. congruence. Qed.

(** ** The walk of the model *)

Lemma hierarchy_fuel_spec objects : lenZ objects <= 2 ^ 31 -> forall f x l ids, lineage x l ->
  (length l < f)%nat -> ids_of objects l ids ->
  hierarchy_fuel f (object_index_new objects) x = Some ids.
Proof.
  intros L f x l ids H; revert f ids; induction H as [x H|x p l H _ IH]; intros [|f] ids Lf Hi; simpl in Lf; try lia;
    cbn [hierarchy_fuel].
  - apply no_parent_spec in H. rewrite H. inversion Hi; auto.
  - apply parent_spec in H. rewrite H. inversion Hi; subst.
    + rewrite (IH f ids0) by (auto; lia).
      match goal with K : first_index _ _ _ |- _ => apply by_name_spec in K; auto; rewrite K end. reflexivity.
    + rewrite (IH f ids) by (auto; lia).
      match goal with K : ~ In _ _ |- _ => apply by_name_none in K; auto; rewrite K end. reflexivity.
Qed.

Lemma ids_of_total objects l : lenZ objects <= 2 ^ 31 -> exists ids, ids_of objects l ids.
Proof.
  intros L. induction l as [|n l [ids IH]]; [eexists; constructor|].
  destruct (by_name (object_index_new objects) n) as [i|] eqn:E.
  - apply by_name_spec in E; auto. exists (i :: ids). now constructor.
  - apply by_name_none in E; auto. exists ids. now constructor.
Qed.

Lemma ids_of_fun objects l ids ids' : lenZ objects <= 2 ^ 31 ->
  ids_of objects l ids -> ids_of objects l ids' -> ids = ids'.
Proof.
  intros L H; revert ids'; induction H; intros ids' H'; inversion H'; subst; auto.
  - f_equal; [eapply first_index_fun; eauto|auto].
  - exfalso. destruct H as (b & a & -> & _). apply H3, in_or_app. simpl; auto.
  - exfalso. destruct H3 as (b & a & -> & _). apply H, in_or_app. simpl; auto.
Qed.

Lemma hierarchy_spec objects x : lenZ objects <= 2 ^ 31 ->
  exists l ids, lineage x l /\ ids_of objects l ids /\
    hierarchy (object_index_new objects) x = Some ids.
Proof.
  intros L. destruct (lineage_total x) as (l & Hl & Ln).
  destruct (ids_of_total objects l L) as [ids Hi].
  exists l, ids. split; auto. split; auto. unfold hierarchy.
  apply hierarchy_fuel_spec with l; auto.
  assert (K : (max_depth < S (S (length PARENT_CLASSES)))%nat) by (vm_compute; lia). lia.
Qed.

Lemma hierarchy_iff objects x ids : lenZ objects <= 2 ^ 31 ->
  hierarchy (object_index_new objects) x = Some ids <-> exists l, lineage x l /\ ids_of objects l ids.
Proof.
  intros L. destruct (hierarchy_spec objects x L) as (l & ids' & H1 & H2 & H3). rewrite H3. split.
  - intros [= <-]. eauto.
  - intros (l' & H1' & H2'). rewrite (lineage_fun _ _ _ H1' H1) in H2'.
    f_equal. eapply ids_of_fun; eauto.
Qed.

Lemma ids_of_range objects l ids : ids_of objects l ids -> Forall (fun i => 0 <= i < lenZ objects) ids.
Proof. induction 1; auto. constructor; auto. eapply first_index_range; eauto. Qed.
