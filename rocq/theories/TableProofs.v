(** * Proofs: spawn table and attribute tables *)

From Coq Require Import ZArith List Bool Lia ZifyBool ZifyNat Permutation.
From Verif Require Import Base NetTypes SegArray Errors Header Body BitReader NetModels Data ObjectIndex Network
  SpecBasic BasicProofs HierarchyProofs MapProofs SpecNet.
Open Scope Z_scope.
#[local] Opaque PARENT_CLASSES SPAWN_STATS ATTRIBUTES.

Lemma spawn_stats_nodup : NoDup (map fst SPAWN_STATS).
Proof. apply nodup_strs_ok. vm_compute. reflexivity. Qed.
Lemma attributes_nodup : NoDup (map fst ATTRIBUTES).
Proof. apply nodup_strs_ok. vm_compute. reflexivity. Qed.

Lemma kind_of_spec name t :
  kind_of name t <-> t = match str_assoc name ATTRIBUTES with Some t => t | None => TNotImplemented end.
Proof.
  unfold kind_of. destruct (str_assoc name ATTRIBUTES) as [t'|] eqn:E.
  - pose proof E as E'. rewrite (str_assoc_nodup _ _ _ attributes_nodup) in E. split.
    + intros [H|[H _]].
      * rewrite <- (str_assoc_nodup _ _ _ attributes_nodup) in H. congruence.
      * exfalso. apply H. apply in_map with (f := fst) in E. exact E.
    + intros ->. auto.
  - apply str_assoc_none in E. split.
    + intros [H|[_ H]]; auto. exfalso. apply E. apply in_map with (f := fst) in H. exact H.
    + auto.
Qed.

(** no class without a parent that others inherit from has a spawn entry *)
Lemma tops_no_spawn : forallb (fun e =>
  match str_assoc (normalize_object (snd e)) PARENT_CLASSES with
  | Some _ => true
  | None => match str_assoc (snd e) SPAWN_STATS with Some _ => false | None => true end
  end) PARENT_CLASSES = true.
Proof. vm_compute. reflexivity. Qed.

Lemma top_no_spawn x p t : parent x p -> (forall q, ~ parent p q) -> ~ In (p, t) SPAWN_STATS.
Proof.
  intros Hp Hn Hin. pose proof tops_no_spawn as T. rewrite forallb_forall in T.
  destruct Hp as (c & _ & Hc). specialize (T _ Hc). simpl in T.
  apply no_parent_spec in Hn. rewrite Hn in T.
  rewrite (proj2 (str_assoc_nodup _ _ _ spawn_stats_nodup) Hin) in T. discriminate.
Qed.

(** ** Lists *)

Lemma first_with_cons {A C} (R : A -> C -> Prop) x l r :
  first_with R (x :: l) r <-> R x r \/ (forall z, ~ R x z) /\ first_with R l r.
Proof.
  split.
  - intros (b & z & a & E & H & N). destruct b as [|y b]; simpl in E; injection E as E1 E2; subst.
    + auto.
    + right. split; [intros w; apply N; simpl; auto|]. exists b, z, a. split; auto. split; auto.
      intros; apply N; simpl; auto.
  - intros [H|[N (b & z & a & -> & H & M)]].
    + exists [], x, l. split; [reflexivity|]. split; [exact H|]. intros y z [].
    + exists (x :: b), z, a. split; [reflexivity|]. split; [exact H|]. intros y w [<-|Hy]; eauto.
Qed.

Lemma none_with_cons {A C} (R : A -> C -> Prop) x l :
  none_with R (x :: l) <-> (forall z, ~ R x z) /\ none_with R l.
Proof.
  unfold none_with. split.
  - intros H. split; intros; apply H; simpl; auto.
  - intros [H1 H2] y z [<-|H]; auto.
Qed.

Lemma path_lineage x l : lineage x l -> exists top, path x (l ++ [top]) /\ forall p, ~ parent top p.
Proof.
  induction 1 as [x H|x p l H Hl [top [IH IT]]].
  - exists x. split; [now constructor|exact H].
  - exists top. split; [econstructor; eauto|exact IT].
Qed.

Lemma path_fun x l l' : path x l -> path x l' -> l = l'.
Proof.
  intros H; revert l'; induction H as [x H|x p l H Hl IH]; intros l' H'; inversion H'; subst; auto.
  - exfalso. eapply H; eauto.
  - exfalso. eapply H0; eauto.
  - assert (p = p0) by (eapply parent_fun; eauto). subst. f_equal. auto.
Qed.

Lemma path_cons x y l : path x (y :: l) -> x = y.
Proof. intros H. inversion H; auto. Qed.

Lemma path_top_parent l : forall x top, path x (l ++ [top]) -> l <> [] -> exists y, parent y top.
Proof.
  induction l as [|a l IH]; intros x top H N; [congruence|]. cbn [app] in H.
  inversion H as [x' Hn E1 E2|x' p l' Hp Hl E1 E2]; subst; [destruct l; discriminate|].
  destruct l as [|b l].
  - apply path_cons in Hl. subst. eauto.
  - eapply IH; [exact Hl|discriminate].
Qed.

(** the lineage of a member is the rest of the lineage *)
Lemma lineage_suffix x l : lineage x l -> forall b y a, l = b ++ y :: a -> lineage y (y :: a).
Proof.
  induction 1 as [x H|x p l H Hl IH]; intros b y a E.
  - destruct b; discriminate.
  - destruct b as [|z b]; simpl in E; injection E as E1 E2.
    + subst. econstructor; eauto.
    + eapply IH; eauto.
Qed.

Section Objects.
Context (objects : list str) (L : lenZ objects <= 2 ^ 31).
Let ix := object_index_new objects.

Lemma ids_suffix l ids : ids_of objects l ids -> forall b id a, ids = b ++ id :: a ->
  exists b' y a', l = b' ++ y :: a' /\ first_index objects y id /\ ids_of objects a' a.
Proof.
  induction 1 as [|n l i ids H Hl IH|n l ids H Hl IH]; intros b id a E.
  - destruct b; discriminate.
  - destruct b as [|z b]; simpl in E; injection E as E1 E2.
    + subst. exists [], n, l. auto.
    + destruct (IH b id a E2) as (b' & y & a' & -> & H1 & H2). exists (n :: b'), y, a'. auto.
  - destruct (IH b id a E) as (b' & y & a' & -> & H1 & H2). exists (n :: b'), y, a'. auto.
Qed.

Lemma class_ids_suffix x b id a : class_ids objects x (b ++ id :: a) ->
  exists y, first_index objects y id /\ (exists p, parent y p) /\ class_ids objects y (id :: a).
Proof.
  intros (l & Hl & Hi). destruct (ids_suffix _ _ Hi _ _ _ eq_refl) as (b' & y & a' & -> & H1 & H2).
  exists y. split; auto. pose proof (lineage_suffix _ _ Hl _ _ _ eq_refl) as Hy. split.
  - inversion Hy; subst. eauto.
  - exists (y :: a'). split; auto. now constructor.
Qed.

Lemma class_ids_fun x ids ids' : class_ids objects x ids -> class_ids objects x ids' -> ids = ids'.
Proof.
  intros (l & H1 & H2) (l' & H1' & H2'). rewrite (lineage_fun _ _ _ H1 H1') in H2.
  eapply ids_of_fun; eauto.
Qed.

Lemma class_ids_total x : exists ids, class_ids objects x ids /\ hierarchy ix x = Some ids.
Proof.
  destruct (hierarchy_spec objects x L) as (l & ids & H1 & H2 & H3). exists ids. split; auto. exists l; auto.
Qed.

Lemma class_ids_range x ids : class_ids objects x ids -> Forall (fun i => 0 <= i < lenZ objects) ids.
Proof. intros (l & _ & H). eapply ids_of_range; eauto. Qed.

Lemma spawnable_ids obj name : spawnable objects obj name -> exists ids, class_ids objects name (obj :: ids).
Proof.
  intros [F [p Hp]]. destruct (lineage_total p) as (l & Hl & _).
  destruct (ids_of_total objects l L) as [ids Hi].
  exists ids. exists (name :: l). split; [econstructor; eauto|]. now constructor.
Qed.

Lemma class_ids_head name obj ids : In name objects -> class_ids objects name (obj :: ids) ->
  spawnable objects obj name.
Proof.
  intros Hin (l & Hl & Hi). inversion Hl; subst; [inversion Hi|].
  inversion Hi; subst; [|exfalso; auto]. split; eauto.
Qed.

Lemma spawnable_fun obj n n' : spawnable objects obj n -> spawnable objects obj n' -> n = n'.
Proof. intros [H _] [H' _]. eapply first_index_inj; eauto. Qed.

Lemma first_index_in name i : first_index objects name i -> In name objects.
Proof. intros (b & a & -> & _). apply in_or_app; simpl; auto. Qed.

Lemma first_index_ex name : In name objects -> exists i, first_index objects name i.
Proof.
  intros H. destruct (by_name ix name) as [i|] eqn:E.
  - exists i. now apply by_name_spec.
  - apply by_name_none in E; auto. tauto.
Qed.

Lemma index_usize i : 0 <= i < lenZ objects -> as_usize i = i.
Proof. intros H. unfold as_usize. apply Z.mod_small. lia. Qed.

(** ** Spawns *)

(** the entry of the spawn table for an id *)
Definition seed (id : Z) (t : spawn_trajectory) : Prop :=
  exists n, first_index objects n id /\ In (n, t) SPAWN_STATS.

Lemma seed_fun id t t' : seed id t -> seed id t' -> t = t'.
Proof.
  intros (n & F & H) (n' & F' & H'). rewrite (first_index_inj _ _ _ _ F F') in H.
  rewrite <- (str_assoc_nodup _ _ _ spawn_stats_nodup) in H.
  rewrite <- (str_assoc_nodup _ _ _ spawn_stats_nodup) in H'. congruence.
Qed.

Lemma seed_dec id : (exists t, seed id t) \/ (forall t, ~ seed id t).
Proof.
  assert (D : (exists n, first_index objects n id) \/ (forall n, ~ first_index objects n id)).
  { destruct (nth_error objects (Z.to_nat id)) as [n|] eqn:E.
    - destruct (by_name ix n) as [i|] eqn:F.
      + destruct (Z.eq_dec i id) as [->|N]; [left; exists n; now apply by_name_spec|].
        right. intros m H. pose proof (first_index_name _ _ _ H) as H'. rewrite E in H'. injection H' as <-.
        apply by_name_spec in H; auto. fold ix in H. congruence.
      + apply by_name_none in F; auto. exfalso. apply F. eapply nth_error_In; eauto.
    - right. intros n H. apply first_index_name in H. congruence. }
  destruct D as [[n F]|N].
  - destruct (str_assoc n SPAWN_STATS) as [t|] eqn:E.
    + left. exists t, n. split; auto. now apply (str_assoc_nodup _ _ _ spawn_stats_nodup).
    + right. intros t (m & F' & H). rewrite (first_index_inj _ _ _ _ F' F) in H.
      rewrite <- (str_assoc_nodup _ _ _ spawn_stats_nodup) in H. congruence.
  - right. intros t (n & F & _). eapply N; eauto.
Qed.

(** the trajectory found along a list of ids *)
Definition along (ids : list Z) (t : spawn_trajectory) : Prop :=
  first_with seed ids t \/ none_with seed ids /\ t = SpNone.

Lemma along_cons id ids t : along (id :: ids) t <-> seed id t \/ (forall z, ~ seed id z) /\ along ids t.
Proof.
  unfold along. rewrite first_with_cons, none_with_cons. tauto.
Qed.

Lemma along_fun ids t t' : along ids t -> along ids t' -> t = t'.
Proof.
  induction ids as [|id ids IH].
  - intros [(b & x & a & E & _)|[_ ->]] [(b' & x' & a' & E' & _)|[_ ->]]; auto;
      first [destruct b; discriminate|destruct b'; discriminate].
  - rewrite !along_cons. intros [H|[H1 H2]] [H'|[H1' H2']]; auto.
    + eapply seed_fun; eauto.
    + exfalso; eapply H1'; eauto.
    + exfalso; eapply H1; eauto.
Qed.

Lemma along_total ids : exists t, along ids t.
Proof.
  induction ids as [|id ids [t IH]].
  - exists SpNone. right. split; auto. intros y z [].
  - destruct (seed_dec id) as [[s H]|H].
    + exists s. apply along_cons. auto.
    + exists t. apply along_cons. auto.
Qed.

(** what cell [id] of the vector may hold *)
Definition cell_ok (id : Z) (t : spawn_trajectory) : Prop :=
  seed id t \/ exists n ids, first_index objects n id /\ class_ids objects n (id :: ids) /\ along (id :: ids) t.

Definition spawn_inv (v : spawn_vec) : Prop :=
  length v = length objects /\
  (forall id t, seed id t -> getZ id v = Some (Some t)) /\
  (forall id t, getZ id v = Some (Some t) -> cell_ok id t).

Lemma getZ_in {A} i (l : list A) x : getZ i l = Some x -> In x l.
Proof.
  revert i; induction l as [|y l IH]; simpl; [discriminate|]. intros i.
  destruct (i =? 0); [intros [= ->]; auto|]. intros H. right. eauto.
Qed.

Lemma seed_range id t : seed id t -> 0 <= id < lenZ objects.
Proof. intros (n & F & _). eapply first_index_range; eauto. Qed.

Lemma must_some {E A} p (o : option A) a : o = Some a -> @must E A p o = Ok a.
Proof. now intros ->. Qed.

Lemma seed_spawns_ok : forall stats v, length v = length objects ->
  (forall n t, In (n, t) stats -> In (n, t) SPAWN_STATS) ->
  (forall id t, getZ id v = Some (Some t) -> seed id t) ->
  exists v', seed_spawns ix stats v = Ok v' /\ length v' = length objects /\
    (forall id t, getZ id v' = Some (Some t) -> seed id t) /\
    (forall id t, getZ id v = Some (Some t) -> getZ id v' = Some (Some t)) /\
    (forall n t id, In (n, t) stats -> first_index objects n id -> getZ id v' = Some (Some t)).
Proof.
  induction stats as [|[n sp] stats IH]; intros v Lv Sub Sd; cbn [seed_spawns].
  - exists v. split; auto. split; auto. split; auto. split; auto. intros n t id [].
  - destruct (by_name ix n) as [i|] eqn:E.
    + apply by_name_spec in E; auto. pose proof (first_index_range _ _ _ E) as R.
      rewrite index_usize by auto.
      destruct (setZ_some i (Some sp) v) as (v1 & Es & L1 & G1); [unfold lenZ in *; rewrite Lv; auto|].
      rewrite (must_some _ _ _ Es). cbn [obind].
      assert (S1 : seed i sp) by (exists n; split; auto; apply Sub; simpl; auto).
      destruct (IH v1) as (v' & E' & L' & A' & K' & C').
      * congruence.
      * intros; apply Sub; simpl; auto.
      * intros id t. rewrite G1. destruct (Z.eqb_spec id i) as [->|]; auto. now intros [= <-].
      * exists v'. split; auto. split; auto. split; auto. split.
        -- intros id t H. apply K'. rewrite G1. destruct (Z.eqb_spec id i) as [->|]; auto.
           apply Sd in H. now rewrite (seed_fun _ _ _ S1 H).
        -- intros n' t id [[= <- <-]|H] F; [|eauto]. apply K'. rewrite G1.
           rewrite (first_index_fun _ _ _ _ L F E), Z.eqb_refl. auto.
    + apply by_name_none in E; auto.
      destruct (IH v) as (v' & E' & L' & A' & K' & C'); auto.
      { intros; apply Sub; simpl; auto. }
      exists v'. split; auto. split; auto. split; auto. split; auto.
      intros n' t id [[= <- <-]|H] F; [|eauto]. exfalso. apply E. eapply first_index_in; eauto.
Qed.

Lemma spawn_walk_ok v : spawn_inv v -> forall ids x b, class_ids objects x (b ++ ids) ->
  exists t stack rest, spawn_walk v ids = Ok (t, stack) /\ ids = stack ++ rest /\ along ids t /\
    none_with seed stack.
Proof.
  intros (Lv & Sd & Ck). induction ids as [|id ids IH]; intros x b Hx; cbn [spawn_walk].
  - exists SpNone, [], []. split; auto. split; auto. split; [|intros y z []].
    right. split; auto. intros y z [].
  - destruct (class_ids_suffix _ _ _ _ Hx) as (y & F & Hp & Hy).
    pose proof (first_index_range _ _ _ F) as R. rewrite index_usize by auto.
    destruct (getZ id v) as [cell|] eqn:G.
    2: { apply getZ_none in G. exfalso. apply G. unfold lenZ in *. rewrite Lv. auto. }
    cbn [must obind]. destruct cell as [t|].
    + exists t, [], (id :: ids). split; auto. split; auto. split; [|intros ? ? []].
      destruct (Ck _ _ G) as [H|(n & ids' & F' & H1 & H2)].
      * apply along_cons. auto.
      * rewrite (first_index_inj _ _ _ _ F' F) in H1.
        pose proof (class_ids_fun _ _ _ H1 Hy) as E. injection E as ->. auto.
    + assert (N : forall z, ~ seed id z) by (intros z H; apply Sd in H; congruence).
      destruct (IH x (b ++ [id])) as (t & stack & rest & E & -> & Ha & Hn).
      { now rewrite <- app_assoc. }
      rewrite E. cbn [obind fst snd]. exists t, (id :: stack), rest.
      split; auto. split; auto. split; [apply along_cons; auto|]. apply none_with_cons. auto.
Qed.

(** every id of the stack lies before the place where the walk stopped, so the
    walk from it finds the same *)
Lemma along_app a b t : none_with seed a -> (along (a ++ b) t <-> along b t).
Proof.
  induction a as [|x a IH]; simpl; [tauto|]. intros H. apply none_with_cons in H as [H1 H2].
  rewrite along_cons, IH by auto. split; [intros [H|[_ H]]; auto; exfalso; eapply H1; eauto|auto].
Qed.

Lemma fill_spawns_ok t : forall stack v, spawn_inv v ->
  Forall (fun id => 0 <= id < lenZ objects /\ cell_ok id t /\ forall z, ~ seed id z) stack ->
  exists v', fill_spawns t stack v = Ok v' /\ spawn_inv v' /\
    (forall id, In id stack -> getZ id v' <> Some None) /\
    (forall id, getZ id v <> Some None -> getZ id v' <> Some None).
Proof.
  induction stack as [|id stack IH]; intros v I H; cbn [fill_spawns].
  - exists v. split; auto.
  - inversion H as [|? ? [R [C N]] H']; subst. rewrite index_usize by auto.
    destruct I as (Lv & Sd & Ck).
    destruct (setZ_some id (Some t) v) as (v1 & Es & L1 & G1); [unfold lenZ in *; rewrite Lv; auto|].
    rewrite (must_some _ _ _ Es). cbn [obind].
    destruct (IH v1) as (v' & E' & I' & A' & K'); auto.
    { split; [congruence|]. split.
      - intros j s Hs. rewrite G1. destruct (Z.eqb_spec j id) as [->|]; auto. exfalso. eapply N; eauto.
      - intros j s. rewrite G1. destruct (Z.eqb_spec j id) as [->|]; auto. now intros [= <-]. }
    exists v'. split; auto. split; auto. split.
    + intros j [<-|Hj]; auto. apply K'. rewrite G1, Z.eqb_refl. discriminate.
    + intros j Hj. apply K'. rewrite G1. destruct (j =? id); [discriminate|auto].
Qed.

Lemma spread_spawns_ok : forall objs v, spawn_inv v ->
  exists v', spread_spawns ix objs v = Ok v' /\ spawn_inv v' /\
    (forall name id ids, In name objs -> class_ids objects name (id :: ids) -> getZ id v' <> Some None) /\
    (forall id, getZ id v <> Some None -> getZ id v' <> Some None).
Proof.
  induction objs as [|name objs IH]; intros v I; cbn [spread_spawns].
  - exists v. split; [reflexivity|]. split; [exact I|]. split; [|auto]. intros ? ? ? [].
  - destruct (class_ids_total name) as (ids & Hc & Hh). rewrite Hh. cbn [must obind].
    destruct (spawn_walk_ok v I ids name [] Hc) as (t & stack & rest & E & Ei & Ha & Hn).
    rewrite E. cbn [obind fst snd].
    destruct (fill_spawns_ok t stack v I) as (v1 & E1 & I1 & A1 & K1).
    { apply Forall_forall. intros id Hin. pose proof (class_ids_range _ _ Hc) as R.
      rewrite Forall_forall in R. split; [apply R; rewrite Ei; apply in_or_app; auto|]. split.
      - right. apply in_split in Hin as (b & a & ->). rewrite Ei in Hc, Ha.
        rewrite <- app_assoc in Hc, Ha. cbn [app] in Hc, Ha.
        destruct (class_ids_suffix _ _ _ _ Hc) as (y & F & _ & Hy). exists y, (a ++ rest).
        split; auto. split; auto. apply along_app in Ha; auto.
        intros y' z Hy'. apply Hn, in_or_app. auto.
      - intros z. apply Hn; auto. }
    rewrite E1. cbn [obind]. destruct (IH v1 I1) as (v' & E' & I' & A' & K').
    exists v'. split; auto. split; auto. split; [|auto].
    intros n id ids' [<-|Hin] Hc'; [|eauto]. apply K'.
    pose proof (class_ids_fun _ _ _ Hc' Hc) as Eq. destruct stack as [|id' stack].
    + simpl in Ei. subst rest.
      (* the walk stopped at once: the cell was set already *)
      apply K1. subst ids. clear - E Hc L I. cbn [spawn_walk] in E.
      pose proof (class_ids_range _ _ Hc) as R. inversion R as [|? ? R1 _]; subst.
      rewrite index_usize in E by auto. destruct (getZ id v) as [[c|]|]; try discriminate.
      cbn [must obind] in E. destruct (spawn_walk v ids'); discriminate.
    + apply A1. rewrite Ei in Eq. simpl in Eq. injection Eq as -> _. simpl; auto.
Qed.

Lemma compute_spawns_ok : exists v, compute_spawns ix objects = Ok v /\ length v = length objects /\
  (forall id t, getZ id v = Some (Some t) -> cell_ok id t) /\
  (forall id t, seed id t -> getZ id v = Some (Some t)) /\
  (forall name id, spawnable objects id name -> exists t, getZ id v = Some (Some t)).
Proof.
  unfold compute_spawns.
  destruct (seed_spawns_ok SPAWN_STATS (repeat None (length objects))) as (v & E & Lv & A & K & C); auto.
  { apply repeat_length. }
  { intros id t H. apply getZ_in, repeat_spec in H. discriminate. }
  rewrite E. cbn [obind].
  assert (I : spawn_inv v).
  { split; auto. split.
    - intros id t (n & F & Hin). eapply C; eauto.
    - intros id t H. left. auto. }
  destruct (spread_spawns_ok objects v I) as (v' & E' & (L' & Sd' & Ck') & A' & K').
  exists v'. split; [exact E'|]. split; [exact L'|]. split; [exact Ck'|]. split; [exact Sd'|].
  intros name id Hs. destruct (spawnable_ids _ _ Hs) as [ids Hc].
  pose proof (A' name id ids (first_index_in _ _ (proj1 Hs)) Hc) as N.
  destruct (getZ id v') as [[t|]|] eqn:G; [eauto|congruence|].
  apply getZ_none in G. exfalso. apply G. unfold lenZ in *. rewrite L'.
  apply (first_index_range _ _ _ (proj1 Hs)).
Qed.

(** the specification in terms of names *)
Lemma along_names l ids t : ids_of objects l ids ->
  along ids t <-> (first_with (spawn_entry objects) l t \/ none_with (spawn_entry objects) l /\ t = SpNone).
Proof.
  intros H. induction H as [|n l i ids F Hl IH|n l ids N Hl IH].
  - unfold along, none_with, first_with. split; intros [(b & x & a & E & _)|[_ ->]];
      first [destruct b; discriminate|right; split; auto; intros y z []].
  - assert (Q : forall z, seed i z <-> spawn_entry objects n z).
    { intros z. unfold spawn_entry. split.
      - intros (m & F' & Hin). rewrite (first_index_inj _ _ _ _ F' F) in Hin.
        split; auto. eapply first_index_in; eauto.
      - intros [_ Hin]. exists n. auto. }
    rewrite along_cons, first_with_cons, none_with_cons, IH.
    assert (Q2 : (forall z, ~ seed i z) <-> (forall z, ~ spawn_entry objects n z))
      by (split; intros H z Hz; eapply H, Q, Hz).
    rewrite Q, Q2. tauto.
  - assert (Q : forall z, ~ spawn_entry objects n z) by (intros z [Hin _]; auto).
    rewrite first_with_cons, none_with_cons, IH. split.
    + intros [H|[H ->]]; auto.
    + intros [[H|[_ H]]|[[_ H] ->]]; auto. exfalso; eapply Q; eauto.
Qed.

Lemma first_with_app_none {A C} (R : A -> C -> Prop) l x r : (forall z, ~ R x z) ->
  (first_with R (l ++ [x]) r <-> first_with R l r) /\ (none_with R (l ++ [x]) <-> none_with R l).
Proof.
  intros N. split.
  - induction l as [|y l IH]; cbn [app].
    + rewrite first_with_cons. split; [intros [H|[_ H]]; auto; exfalso; eapply N; eauto|].
      intros (b & z & a & E & _). destruct b; discriminate.
    + rewrite !first_with_cons. tauto.
  - unfold none_with. split; intros H y z Hin; [apply H, in_or_app; auto|].
    apply in_app_or in Hin as [Hin|[<-|[]]]; auto.
Qed.

Lemma spawns_as_lineage name l t : parent name l -> spawns_as objects name t <->
  exists ls ids, lineage name ls /\ ids_of objects ls ids /\ along ids t.
Proof.
  intros Hp. destruct (lineage_total name) as (ls & Hl & _).
  destruct (ids_of_total objects ls L) as [ids Hi].
  destruct (path_lineage _ _ Hl) as (top & Hpath & Htop).
  assert (Nt : forall z, ~ spawn_entry objects top z).
  { intros z [_ Hin]. revert Hin.
    assert (T : exists x, parent x top).
    { eapply path_top_parent; [exact Hpath|]. intros ->. inversion Hl; subst. eapply H, Hp. }
    destruct T as [x Hx]. intros Hin. eapply top_no_spawn; eauto. }
  destruct (first_with_app_none (spawn_entry objects) ls top t Nt) as [Q1 Q2].
  unfold spawns_as. split.
  - intros (l' & Hl' & H). rewrite (path_fun _ _ _ Hl' Hpath), Q1, Q2 in H.
    exists ls, ids. split; auto. split; auto. now apply (along_names ls ids t Hi).
  - intros (ls' & ids' & H1 & H2 & H3). rewrite (lineage_fun _ _ _ H1 Hl) in H2.
    exists (ls ++ [top]). split; auto. rewrite Q1, Q2. apply (along_names ls ids' t H2). auto.
Qed.

End Objects.
