(** * The operations spent on the tables *)

From Coq Require Import ZArith List Bool Lia ZifyBool ZifyNat Permutation.
From Verif Require Import Base F32 Text NetTypes SegArray Errors Core Header Body BitReader NetModels Data ObjectIndex
  Network Parser SpecText SpecBasic SpecNet SpecFrames SpecFile SpecReplay SpecSize SpecTable
  BasicProofs HierarchyProofs MapProofs TableProofs CacheProofs TableFacts NetworkProofs TextProofs CoreLogic
  FormatProofs FileProofs FileFacts ParseProofs SizeProofs GrowthProofs BitLemmas CostFile CostFileProofs CostTables.
Open Scope Z_scope.
#[local] Opaque PARENT_CLASSES SPAWN_STATS ATTRIBUTES.

(** ** Without the counts *)

Lemma fst_tbind {A C} (m : tally A) (k : A -> tally C) : fst (tbind m k) = obind (fst m) (fun a => fst (k a)).
Proof. unfold tbind, obind. now destruct (fst m). Qed.

Lemma obind_ext {E A C} (m : outcome E A) (k k' : A -> outcome E C) : (forall a, k a = k' a) -> obind m k = obind m k'.
Proof. intros H. destruct m; cbn [obind]; auto. Qed.

Lemma spread_same ix : forall objs v, fst (spread_spawns_c ix objs v) = spread_spawns ix objs v.
Proof.
  induction objs as [|x t IH]; intros v; cbn [spread_spawns_c spread_spawns]; [reflexivity|].
  repeat (rewrite fst_tbind; cbn [fst]; apply obind_ext; intros ?). apply IH.
Qed.
Lemma spawns_same ix objs : fst (compute_spawns_c ix objs) = compute_spawns ix objs.
Proof.
  unfold compute_spawns_c, compute_spawns. rewrite fst_tbind. cbn [fst]. apply obind_ext. intros v. apply spread_same.
Qed.
Lemma push_same objects : forall ps acc, fst (push_props_c objects ps acc) = push_props objects ps acc.
Proof.
  induction ps as [|x t IH]; intros acc; cbn [push_props_c push_props]; [reflexivity|].
  rewrite fst_tbind. cbn [fst]. apply obind_ext. intros a. apply IH.
Qed.
Lemma build_same objects : forall cs m, fst (build_net_properties_c objects cs m) = build_net_properties objects cs m.
Proof.
  induction cs as [|c t IH]; intros m; cbn [build_net_properties_c build_net_properties]; [reflexivity|].
  rewrite fst_tbind. cbn [fst obind]. rewrite fst_tbind, push_same. apply obind_ext. intros l. apply IH.
Qed.
Lemma fill_same np : forall st acc known, fst (attrs_fill_c np st acc known) = attrs_fill np st acc known.
Proof. induction st as [|x t IH]; intros acc known; cbn [attrs_fill_c attrs_fill fst]; auto. Qed.
Lemma traversal_same ho ix np name known : fst (net_traversal_c ho ix np name known) = net_traversal ho ix np name known.
Proof.
  unfold net_traversal_c, net_traversal. rewrite fst_tbind. cbn [fst]. apply obind_ext. intros ids.
  destruct (attrs_walk ho known ids) as [acc st]. cbn [fst]. now rewrite fill_same.
Qed.
Lemma traverse_same ho ix np : forall objs known, fst (traverse_all_c ho ix np objs known) = traverse_all ho ix np objs known.
Proof.
  induction objs as [|x t IH]; intros known; cbn [traverse_all_c traverse_all]; [reflexivity|].
  rewrite fst_tbind, traversal_same. apply obind_ext. intros k. apply IH.
Qed.
Lemma store_same ho : forall l v, fst (store_caches_c ho l v) = store_caches ho l v.
Proof.
  induction l as [|[i m] t IH]; intros v; cbn [store_caches_c store_caches]; [reflexivity|].
  rewrite fst_tbind. cbn [fst]. apply obind_ext. intros k. apply IH.
Qed.
Lemma caches_same ho ix objs cs : fst (compute_caches_c ho ix objs cs) = compute_caches ho ix objs cs.
Proof.
  unfold compute_caches_c, compute_caches. rewrite fst_tbind, build_same. apply obind_ext. intros np.
  rewrite fst_tbind, traverse_same. apply obind_ext. intros k. rewrite fst_tbind. cbn [fst obind]. apply store_same.
Qed.
Lemma tables_same ho b : fst (tables_c ho b) =
  obind (compute_spawns (object_index_new (b_objects b)) (b_objects b)) (fun s =>
  obind (compute_caches ho (object_index_new (b_objects b)) (b_objects b) (b_net_cache b)) (fun v => Ok (s, v))).
Proof.
  unfold tables_c. rewrite fst_tbind. cbn [fst obind]. rewrite fst_tbind, spawns_same. apply obind_ext. intros s.
  rewrite fst_tbind, caches_same. reflexivity.
Qed.

(** ** Bounds *)

Lemma snd_tbind {A C} (m : tally A) (k : A -> tally C) a c : snd m <= a -> 0 <= c ->
  (forall x, fst m = Ok x -> snd (k x) <= c) -> snd (tbind m k) <= a + c.
Proof.
  intros H1 H2 H3. unfold tbind. destruct (fst m) as [x| |]; cbn [snd].
  - specialize (H3 x eq_refl). lia.
  - lia.
  - lia.
Qed.

Lemma climb_bound ix known l x : lineage x l -> forall f, climb f ix known x <= lenZ l + 1.
Proof.
  unfold lenZ. induction 1 as [x H|x p l H _ IH]; intros [|f]; cbn [climb length]; try lia.
  - apply no_parent_spec in H. rewrite H. lia.
  - apply parent_spec in H. rewrite H. specialize (IH f).
    destruct (by_name ix x) as [id|]; [destruct (known id)|]; lia.
Qed.
Lemma climbed_bound ix known x : climbed ix known x <= 13.
Proof.
  destruct (lineage_total x) as (l & H & Hl). pose proof (climb_bound ix known l x H (S (S (length PARENT_CLASSES)))) as B.
  unfold climbed. unfold lenZ, max_depth in *. lia.
Qed.

Lemma ids_short objects l ids : ids_of objects l ids -> (length ids <= length l)%nat.
Proof. induction 1; cbn [length] in *; lia. Qed.

Section Bounds.
Context (objects : list str) (L : lenZ objects <= 2 ^ 31).
Let ix := object_index_new objects.

Lemma hierarchy_ids name ids : hierarchy ix name = Some ids -> class_ids objects name ids.
Proof. intros H. destruct (class_ids_total objects L name) as (i & C & E). unfold ix in H. rewrite H in E. now injection E as ->. Qed.

Lemma hierarchy_short name ids : hierarchy ix name = Some ids -> lenZ ids <= 12.
Proof.
  intros H. apply hierarchy_ids in H as (l & Hl & Hi). apply ids_short in Hi.
  destruct (lineage_total name) as (l' & Hl' & B). rewrite (lineage_fun _ _ _ Hl Hl') in Hi.
  unfold max_depth, lenZ in *. lia.
Qed.

Lemma walk_short v : forall ids r, spawn_walk v ids = Ok r -> lenZ (snd r) <= lenZ ids.
Proof.
  unfold lenZ. induction ids as [|id t IH]; intros r; cbn [spawn_walk].
  - intros [= <-]. reflexivity.
  - destruct (getZ (as_usize id) v) as [[c|]|]; cbn [must obind]; [intros [= <-]; cbn [snd length]; lia| |discriminate].
    destruct (spawn_walk v t) as [q| |]; cbn [obind]; try discriminate. intros [= <-].
    specialize (IH _ eq_refl). cbn [snd length]. lia.
Qed.

Lemma spread_bound : forall objs v, snd (spread_spawns_c ix objs v) <= 25 * lenZ objs.
Proof.
  induction objs as [|x t IH]; intros v; cbn [spread_spawns_c]; [cbn; lia|].
  replace (25 * lenZ (x :: t)) with (13 + (0 + (12 + 25 * lenZ t))) by (unfold lenZ; cbn [length]; lia).
  apply snd_tbind; [apply climbed_bound|unfold lenZ; lia|]. cbn [fst]. intros ids E.
  destruct (hierarchy ix x) as [i|] eqn:Eh; [|discriminate]. injection E as ->. apply hierarchy_short in Eh.
  apply snd_tbind; [reflexivity|unfold lenZ; lia|]. cbn [fst]. intros r Er. apply walk_short in Er.
  apply snd_tbind; [cbn [snd]; lia|unfold lenZ; lia|]. intros v' _. apply IH.
Qed.

Lemma stats_len : lenZ SPAWN_STATS = 11.
Proof. reflexivity. Qed.

Lemma spawns_bound : snd (compute_spawns_c ix objects) <= 26 * lenZ objects + 11.
Proof.
  unfold compute_spawns_c. replace (26 * lenZ objects + 11) with ((lenZ objects + 11) + 25 * lenZ objects) by lia.
  apply snd_tbind; [cbn [snd]; rewrite stats_len; lia|unfold lenZ; lia|]. intros v _. apply spread_bound.
Qed.

Lemma push_bound : forall ps acc, snd (push_props_c objects ps acc) <= lenZ ps.
Proof.
  induction ps as [|x t IH]; intros acc; cbn [push_props_c]; [cbn; lia|].
  replace (lenZ (x :: t)) with (1 + lenZ t) by (unfold lenZ; cbn [length]; lia).
  apply snd_tbind; [reflexivity|unfold lenZ; lia|]. intros a _. apply IH.
Qed.
Lemma listed_nonneg cs : 0 <= properties_listed cs.
Proof. rewrite listed_length. lia. Qed.
Lemma build_bound : forall cs m, snd (build_net_properties_c objects cs m) <= lenZ cs + properties_listed cs.
Proof.
  induction cs as [|c t IH]; intros m; cbn [build_net_properties_c]; [cbn; lia|].
  pose proof (listed_nonneg t).
  replace (lenZ (c :: t) + properties_listed (c :: t)) with (1 + (lenZ (nc_properties c) + (lenZ t + properties_listed t)))
    by (unfold lenZ, properties_listed; rewrite total_cons; cbn [length]; lia).
  apply snd_tbind; [reflexivity|unfold lenZ in *; lia|]. intros _ _.
  apply snd_tbind; [apply push_bound|unfold lenZ in *; lia|]. intros l _. apply IH.
Qed.

(** *** Traversal *)

Lemma class_ids_nodup : forall ids x b, class_ids objects x (b ++ ids) -> NoDup ids.
Proof.
  induction ids as [|id ids IH]; intros x b H; constructor.
  - intros Hin. apply in_split in Hin as (c & a & ->).
    destruct (class_ids_suffix _ _ _ _ _ H) as (y & F & _ & C).
    change (id :: c ++ id :: a) with ((id :: c) ++ id :: a) in H. rewrite app_assoc in H.
    destruct (class_ids_suffix _ _ _ _ _ H) as (y' & F' & _ & C').
    rewrite (first_index_inj _ _ _ _ F' F) in C'.
    pose proof (class_ids_fun _ L _ _ _ C C') as E. injection E as E.
    apply (f_equal (@length Z)) in E. rewrite app_length in E. cbn [length] in E. lia.
  - apply (IH x (b ++ [id])). now rewrite <- app_assoc.
Qed.


End Bounds.

Fixpoint owned (cs : list class_net_cache) (ids : list Z) : Z :=
  match ids with [] => 0 | id :: t => lenZ (listed cs id) + owned cs t end.

Lemma listed_cons c cs id : listed (c :: cs) id = (if nc_object_ind c =? id then nc_properties c else []) ++ listed cs id.
Proof. unfold listed. cbn [filter]. destruct (nc_object_ind c =? id); reflexivity. Qed.

Lemma owned_none c cs ids : ~ In (nc_object_ind c) ids -> owned (c :: cs) ids = owned cs ids.
Proof.
  induction ids as [|id t IH]; intros H; cbn [owned]; [reflexivity|].
  rewrite IH by (intros K; apply H; now right). rewrite listed_cons.
  destruct (Z.eqb_spec (nc_object_ind c) id) as [E|]; [|reflexivity]. exfalso. apply H. left. now rewrite E.
Qed.
Lemma owned_cons c cs ids : NoDup ids -> owned (c :: cs) ids <= lenZ (nc_properties c) + owned cs ids.
Proof.
  induction 1 as [|id t H _ IH]; cbn [owned]; [unfold lenZ; lia|]. rewrite listed_cons.
  destruct (Z.eqb_spec (nc_object_ind c) id) as [E|]; [|cbn [app]; lia].
  rewrite owned_none by congruence. unfold lenZ. rewrite app_length. lia.
Qed.
Lemma owned_all cs ids : NoDup ids -> owned cs ids <= properties_listed cs.
Proof.
  intros H. induction cs as [|c cs IH].
  - clear. unfold properties_listed. cbn. induction ids; cbn [owned]; [lia|]. unfold listed. cbn. lia.
  - pose proof (owned_cons c cs ids H). unfold properties_listed in *. rewrite total_cons. unfold lenZ in *. lia.
Qed.

Lemma insert_new {V} k (v : V) m : map_get k m = None -> lenZ (map_insert k v m) = lenZ m + 1.
Proof.
  unfold lenZ. induction m as [|[j w] m IH]; cbn [map_get map_insert length]; [reflexivity|].
  intros H. destruct (Z.eqb_spec k j) as [E|E]; [discriminate|].
  destruct (k <? j); cbn [length] in *; [lia|]. specialize (IH H). lia.
Qed.

Section Known.
Context (objects : list str) (caches : list class_net_cache) (ho : hash_order).
Let P := properties_listed caches.

Lemma P_nonneg : 0 <= P.
Proof. apply listed_nonneg. Qed.

Lemma known_small known id m : known_inv objects caches known -> map_get id known = Some m -> lenZ m <= P.
Proof. intros [_ K] H. destruct (K _ _ H) as (n & ids & _ & _ & ->). apply table_length. Qed.

Lemma known_count known : known_inv objects caches known -> lenZ known <= lenZ objects.
Proof.
  intros [S K]. unfold lenZ.
  assert (H : (length (map fst known) <= length (first_n (length objects)))%nat).
  { apply NoDup_incl_length; [now apply sorted_nodup|]. intros id Hid. apply in_first_n.
    destruct (map_get id known) as [m|] eqn:E.
    - apply K in E. apply table_at_range in E. exact E.
    - apply map_get_none in E. tauto. }
  rewrite map_length, first_n_length in H. lia.
Qed.

Lemma store_bound : forall l v, Forall (fun kv => lenZ (snd kv) <= P) l ->
  snd (store_caches_c ho l v) <= lenZ l * (1 + 2 * P).
Proof.
  pose proof P_nonneg as NN.
  induction l as [|[i m] t IH]; intros v H; cbn [store_caches_c]; [cbn; lia|].
  inversion H as [|? ? H1 H2]; subst. cbn [snd] in H1.
  replace (lenZ ((i, m) :: t) * (1 + 2 * P)) with ((1 + 2 * P) + lenZ t * (1 + 2 * P)) by (unfold lenZ; cbn [length]; lia).
  apply snd_tbind; [cbn [snd]; lia|unfold lenZ; nia|]. intros v' _. apply IH. exact H2.
Qed.
End Known.

Section Traverse.
Context (objects : list str) (L : lenZ objects <= 2 ^ 31) (caches : list class_net_cache).
Context (ho : hash_order) (Hho : hash_order_ok ho).
Context (np : amap (list (Z * object_attribute))) (NP : forall id, props_at np id = map (conv objects) (listed caches id)).
Let ix := object_index_new objects.
Let P := properties_listed caches.

Let NN : 0 <= P := P_nonneg caches.

Lemma walk_len known : known_inv objects caches known -> forall ids acc st, attrs_walk ho known ids = (acc, st) ->
  lenZ acc <= P /\ Forall (fun id => map_get id known = None) st.
Proof.
  intros K. induction ids as [|id t IH]; intros acc st; cbn [attrs_walk].
  - intros [= <- <-]. split; [exact NN|constructor].
  - destruct (map_get id known) as [m|] eqn:E.
    + intros [= <- <-]. split; [|constructor]. unfold lenZ. rewrite (Permutation_length (Hho _ m)).
      apply (known_small _ _ _ _ _ K E).
    + destruct (attrs_walk ho known t) as [a s]. intros [= <- <-]. destruct (IH _ _ eq_refl). auto.
Qed.

Lemma fill_bound : forall rst rest acc known, map_extend [] acc = table objects caches rest ->
  NoDup rst -> Forall (fun id => map_get id known = None) rst -> lenZ acc + owned caches rst <= 2 * P ->
  snd (attrs_fill_c np rst acc known) <= lenZ rst * (4 * P + 1) /\
  lenZ (fst (attrs_fill_c np rst acc known)) = lenZ known + lenZ rst.
Proof.
  induction rst as [|id t IH]; intros rest acc known A ND KN B; cbn [attrs_fill_c fst snd].
  - unfold lenZ. cbn [length]. lia.
  - fold (props_at np id). rewrite NP.
    assert (A' : map_extend [] (acc ++ map (conv objects) (listed caches id)) = table objects caches (id :: rest)).
    { rewrite map_extend_app, A. symmetry. apply table_cons. }
    rewrite A'. pose proof (table_length objects caches (id :: rest)) as T. fold P in T.
    inversion ND as [|? ? ND1 ND2]; subst. inversion KN as [|? ? KN1 KN2]; subst.
    cbn [owned] in B.
    assert (O : lenZ (listed caches id) <= P).
    { pose proof (owned_all caches [id]) as O. cbn [owned] in O. fold P in O. rewrite Z.add_0_r in O. apply O.
      repeat constructor. intros []. }
    assert (R : lenZ (acc ++ map (conv objects) (listed caches id)) = lenZ acc + lenZ (listed caches id)).
    { unfold lenZ. rewrite app_length, map_length. lia. }
    assert (Q : 0 <= owned caches t).
    { clear. induction t; cbn [owned]; unfold lenZ in *; lia. }
    destruct (IH (id :: rest) (acc ++ map (conv objects) (listed caches id)) (map_insert id (table objects caches (id :: rest)) known))
      as [H1 H2]; auto.
    { rewrite Forall_forall in KN2 |- *. intros j Hj. rewrite map_get_insert.
      destruct (Z.eqb_spec j id) as [->|]; [tauto|auto]. }
    { lia. }
    rewrite H2, (insert_new _ _ _ KN1), R.
    replace (lenZ (map (conv objects) (listed caches id))) with (lenZ (listed caches id)) by (unfold lenZ; now rewrite map_length).
    unfold lenZ in *. cbn [length]. split; [|lia]. 
    change (Z.of_nat (length (table objects caches (id :: rest))) <= P) in T. nia.
Qed.

Lemma traversal_bound name known : known_inv objects caches known ->
  exists known', fst (net_traversal_c ho ix np name known) = Ok known' /\ known_inv objects caches known' /\
    snd (net_traversal_c ho ix np name known) + lenZ known * (4 * P + 1) <= 13 + P + lenZ known' * (4 * P + 1).
Proof.
  intros K. unfold net_traversal_c. destruct (class_ids_total objects L name) as (ids & C & E).
  fold ix in E. rewrite E. cbn [must]. unfold tbind. cbn [fst snd].
  destruct (attrs_walk_ok objects L caches ho Hho known K ids name [] C) as (acc & st & rest & Ew & Ei & Ha & _).
  rewrite Ew. cbn [fst snd]. rewrite fill_same. eexists. split; [reflexivity|].
  destruct (walk_len known K ids acc st Ew) as [W1 W2].
  assert (ND : NoDup st).
  { pose proof (class_ids_nodup objects L ids name [] C) as N. rewrite Ei in N. clear -N.
    induction st as [|x t IH]; [constructor|]. cbn [app] in N. inversion N; subst. constructor; [|auto].
    intros H'. apply H1, in_or_app. now left. }
  split.
  { apply (attrs_fill_ok objects caches np NP name (rev st) rest acc known []); auto.
    rewrite rev_involutive. cbn [app]. now rewrite <- Ei. }
  destruct (fill_bound (rev st) rest acc known Ha) as [F1 F2].
  - apply NoDup_rev. exact ND.
  - apply Forall_rev. exact W2.
  - pose proof (owned_all caches (rev st) (NoDup_rev ND)) as O. fold P in O. lia.
  - rewrite <- fill_same, F2. pose proof (climbed_bound ix (attrs_set known) name). nia.
Qed.

Lemma traverse_bound : forall objs known, known_inv objects caches known ->
  exists known', fst (traverse_all_c ho ix np objs known) = Ok known' /\ known_inv objects caches known' /\
    snd (traverse_all_c ho ix np objs known) + lenZ known * (4 * P + 1) <= lenZ objs * (13 + P) + lenZ known' * (4 * P + 1).
Proof.
  induction objs as [|x t IH]; intros known K; cbn [traverse_all_c].
  - exists known. split; [reflexivity|]. split; [exact K|]. cbn [snd]. unfold lenZ at 2. cbn [length]. lia.
  - destruct (traversal_bound x known K) as (k1 & E1 & K1 & B1).
    destruct (IH k1 K1) as (k2 & E2 & K2 & B2). exists k2.
    unfold tbind. rewrite E1. cbn [fst snd]. split; [exact E2|]. split; [exact K2|].
    replace (lenZ (x :: t)) with (1 + lenZ t) by (unfold lenZ; cbn [length]; lia). lia.
Qed.

End Traverse.

Lemma caches_bound ho objects caches : hash_order_ok ho -> lenZ objects <= 2 ^ 31 -> net_cache_ok caches ->
  snd (compute_caches_c ho (object_index_new objects) objects caches) <=
  lenZ caches + properties_listed caches + lenZ objects * (16 + 7 * properties_listed caches).
Proof.
  intros Hho L CI. pose proof (listed_nonneg caches) as NN. unfold compute_caches_c.
  apply snd_tbind; [apply build_bound|unfold lenZ; nia|]. rewrite build_same. intros np Enp.
  assert (NP : forall id, props_at np id = map (conv objects) (listed caches id)).
  { destruct (build_net_properties_spec objects L caches CI []) as [[_ (m & E & H)]|(x & _ & E)]; [|congruence].
    rewrite Enp in E. injection E as <-. intros id. now rewrite H. }
  destruct (traverse_bound objects L caches ho Hho np NP objects []) as (known & Ek & K & B).
  { split; [exact I|]. discriminate. }
  pose proof (known_count objects caches known K) as KC.
  unfold tbind at 1. rewrite Ek. cbn [fst snd]. unfold tbind at 1. cbn [fst snd].
  pose proof (store_bound caches ho (ho _ known) (repeat None (length objects))) as SB.
  assert (F : Forall (fun kv => lenZ (snd kv) <= properties_listed caches) (ho _ known)).
  { apply Forall_forall. intros [id m] H. cbn [snd]. apply (known_small objects caches known id); auto.
    apply map_get_in; [destruct K; now apply sorted_nodup|]. eapply Permutation_in; [apply Hho|exact H]. }
  specialize (SB F). assert (El : lenZ (ho (amap object_attribute) known) = lenZ known)
    by (unfold lenZ; now rewrite (Permutation_length (Hho _ known))).
  change (lenZ (@nil (Z * amap object_attribute))) with 0 in B.
  assert (lenZ known * (4 * properties_listed caches + 1) <= lenZ objects * (4 * properties_listed caches + 1)) by nia.
  assert (lenZ known * (1 + 2 * properties_listed caches) <= lenZ objects * (1 + 2 * properties_listed caches)) by nia.
  unfold lenZ, amap in *. rewrite El in SB. lia.
Qed.

Lemma tables_cost ho b : hash_order_ok ho -> lenZ (b_objects b) <= 2 ^ 31 -> net_cache_ok (b_net_cache b) ->
  snd (tables_c ho b) <= lenZ (b_objects b) * (43 + 7 * properties_listed (b_net_cache b)) +
    lenZ (b_net_cache b) + properties_listed (b_net_cache b) + 11.
Proof.
  intros Hho L CI. pose proof (listed_nonneg (b_net_cache b)) as NN. unfold tables_c.
  pose proof (caches_bound ho _ _ Hho L CI) as B.
  eapply Z.le_trans.
  - apply snd_tbind with (a := lenZ (b_objects b)); [reflexivity| |intros _ _; apply snd_tbind; [apply (spawns_bound _ L)| |
      intros s _; apply snd_tbind with (c := 0); [exact B|lia|intros v _; cbn [snd]; lia]]]; unfold lenZ; nia.
  - unfold lenZ; nia.
Qed.

(** ** Lower bound *)

Lemma setZ_tables (l : list (option cache_info)) : forall i ci l', setZ i (Some ci) l = Some l' ->
  tables_size l' <= tables_size l + filled (ci_attributes ci).
Proof.
  assert (N : forall (s : seg_array object_attribute), 0 <= filled s).
  { intros s. unfold filled. assert (0 <= total (maybe (fun _ => 1)) (sg_array s)); [|lia].
    apply total_nonneg. intros [x|]; cbn [maybe]; lia. }
  unfold tables_size. induction l as [|y l IH]; intros i ci l' H; cbn [setZ] in H; [discriminate|].
  destruct (i =? 0).
  - injection H as <-. rewrite !total_cons. cbn [maybe].
    destruct y as [y|]; cbn [maybe]; [pose proof (N (ci_attributes y))|]; lia.
  - destruct (setZ (i - 1) (Some ci) l) as [m|] eqn:E; [|discriminate]. injection H as <-.
    apply IH in E. rewrite !total_cons. lia.
Qed.

Lemma store_least ho : hash_order_ok ho -> forall l v v', fst (store_caches_c ho l v) = Ok v' ->
  tables_size v' <= tables_size v + snd (store_caches_c ho l v).
Proof.
  intros Hho. induction l as [|[i m] t IH]; intros v v'; cbn [store_caches_c].
  - cbn [fst snd]. intros [= ->]. lia.
  - unfold tbind. cbn [fst snd]. destruct (setZ (as_usize i) (Some (cache_info_of ho m)) v) as [v1|] eqn:E; cbn [must]; [|discriminate].
    cbn [fst snd]. intros H. apply IH in H. apply setZ_tables in E. unfold cache_info_of in E. cbn [ci_attributes] in E.
    pose proof (filled_fill (ho _ m) (seg_new 64)) as F. change (filled (seg_new 64)) with 0 in F.
    assert (length (ho _ m) = length m) as El by (apply Permutation_length, Hho). unfold lenZ in *. lia.
Qed.

Lemma tally_nonneg {A C} (m : tally A) (k : A -> tally C) : 0 <= snd m -> (forall x, 0 <= snd (k x)) -> 0 <= snd (tbind m k).
Proof. intros H1 H2. unfold tbind. destruct (fst m) as [x| |]; cbn [snd]; [specialize (H2 x)| |]; lia. Qed.

Lemma climb_nonneg ix known : forall f x, 0 <= climb f ix known x.
Proof.
  induction f as [|f IH]; intros x; cbn [climb]; [lia|]. destruct (str_assoc _ _) as [p|]; [|lia].
  specialize (IH p). destruct (by_name ix x) as [id|]; [destruct (known id)|]; lia.
Qed.
Lemma spread_nonneg ix : forall objs v, 0 <= snd (spread_spawns_c ix objs v).
Proof.
  induction objs as [|x t IH]; intros v; cbn [spread_spawns_c]; [cbn; lia|].
  apply tally_nonneg; [apply climb_nonneg|intros ?]. apply tally_nonneg; [cbn; lia|intros ?].
  apply tally_nonneg; [cbn [snd]; unfold lenZ; lia|intros ?]. apply IH.
Qed.
Lemma push_nonneg objects : forall ps acc, 0 <= snd (push_props_c objects ps acc).
Proof. induction ps as [|x t IH]; intros acc; cbn [push_props_c]; [cbn; lia|]. apply tally_nonneg; [cbn; lia|intros ?]. apply IH. Qed.
Lemma build_nonneg objects : forall cs m, 0 <= snd (build_net_properties_c objects cs m).
Proof.
  induction cs as [|x t IH]; intros m; cbn [build_net_properties_c]; [cbn; lia|].
  apply tally_nonneg; [cbn; lia|intros ?]. apply tally_nonneg; [apply push_nonneg|intros ?]. apply IH.
Qed.
Lemma fill_nonneg np : forall st acc known, 0 <= snd (attrs_fill_c np st acc known).
Proof.
  induction st as [|x t IH]; intros acc known; cbn [attrs_fill_c snd]; [lia|].
  match goal with |- context [attrs_fill_c np t ?a ?k] => specialize (IH a k) end. unfold lenZ. lia.
Qed.
Lemma traverse_nonneg ho ix np : forall objs known, 0 <= snd (traverse_all_c ho ix np objs known).
Proof.
  induction objs as [|x t IH]; intros known; cbn [traverse_all_c]; [cbn; lia|].
  apply tally_nonneg; [|intros ?; apply IH]. unfold net_traversal_c. apply tally_nonneg; [apply climb_nonneg|].
  intros ids. destruct (attrs_walk ho known ids) as [acc st]. cbn [snd].
  pose proof (fill_nonneg np (rev st) acc known). unfold lenZ. lia.
Qed.

Lemma caches_least ho ix objs cs v : hash_order_ok ho -> compute_caches ho ix objs cs = Ok v ->
  tables_size v <= snd (compute_caches_c ho ix objs cs).
Proof.
  intros Hho H. rewrite <- caches_same in H. revert H. unfold compute_caches_c.
  pose proof (build_nonneg objs cs []) as N1. unfold tbind at 1 4.
  destruct (fst (build_net_properties_c objs cs [])) as [np| |]; [|discriminate|discriminate]. cbn [fst snd].
  pose proof (traverse_nonneg ho ix np objs []) as N2. unfold tbind at 1 3.
  destruct (fst (traverse_all_c ho ix np objs [])) as [known| |]; [|discriminate|discriminate]. cbn [fst snd].
  unfold tbind. cbn [fst snd]. intros H. apply (store_least ho Hho) in H.
  assert (tables_size (repeat None (length objs)) = 0) as Z0.
  { clear. unfold tables_size. induction (length objs) as [|n IH]; [reflexivity|]. cbn [repeat]. now rewrite total_cons, IH. }
  rewrite Z0 in H. unfold lenZ. lia.
Qed.

Lemma tables_least ho b v : hash_order_ok ho -> lenZ (b_objects b) <= 2 ^ 31 ->
  compute_caches ho (object_index_new (b_objects b)) (b_objects b) (b_net_cache b) = Ok v ->
  tables_size v <= snd (tables_c ho b).
Proof.
  intros Hho L H. pose proof (caches_least _ _ _ _ _ Hho H) as B. unfold tables_c.
  assert (N : 0 <= snd (compute_spawns_c (object_index_new (b_objects b)) (b_objects b))).
  { unfold compute_spawns_c. apply tally_nonneg; [cbn [snd]; unfold lenZ; lia|intros ?]. apply spread_nonneg. }
  destruct (compute_spawns_ok (b_objects b) L) as (s & Es & _). rewrite <- spawns_same in Es.
  unfold tbind at 1. cbn [fst snd]. unfold tbind at 1. rewrite Es. cbn [fst snd]. unfold tbind.
  destruct (fst (compute_caches_c _ _ _ _)); cbn [fst snd]; unfold lenZ; lia.
Qed.

(** ** Files *)

(** four bytes for every object, sixteen for every class of the net cache beside the
    eight for each of its properties *)
Lemma fp_net_cache_all : fpays f_net_cache (fun c => 128 + 64 * len (nc_properties c)).
Proof.
  intros i v o H. unfold f_net_cache in H. spread.
  match goal with H : f_list _ _ _ _ |- _ => apply (fp_list _ _ fp_cache_prop_64) in H end.
  assert (E : forall l : list cache_prop, total (fun _ => 64) l = 64 * len l).
  { induction l as [|y l IH]; [reflexivity|]. rewrite total_cons, IH. cbn [length]. lia. }
  rewrite E in *. cbn [nc_properties]. lia.
Qed.
Lemma fp_texts_all : fpays (f_list f_text) (fun l => 32 * len l).
Proof.
  intros i v o H. apply (fp_list f_text (fun s => 32)) in H.
  - assert (E : total (fun _ => 32) v = 32 * len v).
    { clear. induction v as [|y l IH]; [reflexivity|]. rewrite total_cons, IH. cbn [length]. lia. }
    lia.
  - intros i' v' o' K. apply fp_text in K. pose proof (text_nonneg v'). lia.
Qed.
Lemma fp_body_all : fpays f_body (fun b => 32 * lenZ (b_objects b) + 128 * lenZ (b_net_cache b) + 64 * properties_listed (b_net_cache b)).
Proof.
  intros i v o H. unfold f_body in H. spread.
  assert (E : forall l, total (fun c => 128 + 64 * len (nc_properties c)) l = 128 * lenZ l + 64 * properties_listed l).
  { unfold properties_listed, lenZ. induction l as [|y l IH]; [reflexivity|]. rewrite !total_cons, IH. cbn [length]. lia. }
  repeat match goal with
  | H : f_list f_text _ ?l _ |- _ => apply fp_texts_all in H
  | H : f_list f_keyframe _ _ _ |- _ => apply (fp_list _ _ fp_keyframe) in H; rewrite total_one in H
  | H : f_list f_debug _ ?l _ |- _ => apply (fp_list _ _ fp_debug) in H;
      assert (0 <= total (fun d => 1 + text_size (di_user d) + text_size (di_text d)) l) by
      (apply total_nonneg; intros s; pose proof (text_nonneg (di_user s)); pose proof (text_nonneg (di_text s)); lia)
  | H : f_list f_tickmark _ ?l _ |- _ => apply (fp_list _ _ fp_tickmark) in H;
      assert (0 <= total (fun t => 1 + text_size (tm_description t)) l) by
      (apply total_nonneg; intros s; pose proof (text_nonneg (tm_description s)); lia)
  | H : f_list f_class_index _ ?l _ |- _ => apply (fp_list _ _ fp_class_index) in H;
      assert (0 <= total (fun t => 1 + text_size (cx_class t)) l) by
      (apply total_nonneg; intros s; pose proof (text_nonneg (cx_class s)); lia)
  | H : f_list f_net_cache _ _ _ |- _ => apply (fp_list _ _ fp_net_cache_all) in H; rewrite E in H
  | H : f_network _ _ _ |- _ => apply fp_network in H
  end.
  cbn [b_net_cache b_objects]. unfold lenZ in *. lia.
Qed.

Lemma tables_cost_file ho data h b rest : hash_order_ok ho -> f_file data (h, b) rest ->
  snd (tables_c ho (sec_value b)) <= 21876 * lenZ data + 11 /\
  128 * snd (tables_c ho (sec_value b)) <= 7 * (lenZ data * lenZ data) + 1376 * lenZ data + 1408.
Proof.
  intros Ho F. pose proof (file_ready _ _ _ _ F) as [Lo _ Hc _].
  pose proof (tables_cost _ _ Ho Lo Hc) as T.
  assert (N : lenZ (b_objects (sec_value b)) <= 25000).
  { pose proof (file_small _ _ _ _ None F) as (_ & S). unfold lenZ. cbn in S. tauto. }
  assert (W : 32 * lenZ (b_objects (sec_value b)) + 128 * lenZ (b_net_cache (sec_value b)) +
    64 * properties_listed (b_net_cache (sec_value b)) <= 8 * lenZ data).
  { destruct F as (h' & m & Hh & b' & m' & Hb & E & _). injection E as -> ->.
    destruct Hh as (hs & hc & hcov & hm & hv & (m1 & D1 & D2 & _) & Hh & _).
    apply fp_i32 in D1. apply fp_u32 in D2. apply header_shrinks in Hh.
    destruct Hb as (bs & bc & bcov & bm & bv & (m2 & D3 & D4 & _) & Hb & ->).
    apply fp_i32 in D3. apply fp_u32 in D4. apply fp_body_all in Hb. cbn [sec_value]. unfold lenZ in *. lia. }
  pose proof (listed_nonneg (b_net_cache (sec_value b))) as NN.
  set (n := lenZ (b_objects (sec_value b))) in *. set (c := lenZ (b_net_cache (sec_value b))) in *.
  set (q := properties_listed (b_net_cache (sec_value b))) in *. set (x := lenZ data) in *.
  assert (0 <= n) by (unfold n, lenZ; lia). assert (0 <= c) by (unfold c, lenZ; lia).
  clearbody n c q x. clear - T N W NN H H0. generalize dependent (snd (tables_c ho (sec_value b))). intros t T.
  split.
  - assert (n * q <= 25000 * q) by nia. lia.
  - assert (4 * n + 8 * q <= x) by lia.
    assert (4 * (4 * n * (8 * q)) <= (4 * n + 8 * q) * (4 * n + 8 * q)).
    { pose proof (Z.square_nonneg (4 * n - 8 * q)). lia. }
    assert ((4 * n + 8 * q) * (4 * n + 8 * q) <= x * x) by nia. lia.
Qed.

Lemma tables_cost_grows : forall n m, 0 <= n < 25000 -> 0 <= m <= 25000 -> exists data h b rest,
  f_file data (h, b) rest /\ lenZ data = 48 * n + 8 * m + 118 /\
  forall B ho, hash_order_ok ho ->
    (exists r, parse_with B ho CrcOnError NetIgnoreOnError data = Ok r) /\ n * m <= snd (tables_c ho (sec_value b)).
Proof.
  intros n m Hn Hm. destruct (tables_grow n m Hn Hm) as (data & h & b & rest & F & Hl & H).
  exists data, h, b, rest. split; [exact F|]. split; [exact Hl|]. intros B ho Ho.
  destruct (H B ho Ho) as [R (v & Ev & S)]. split; [exact R|].
  pose proof (file_ready _ _ _ _ F) as [Lo _ _ _]. pose proof (tables_least _ _ _ Ho Lo Ev). lia.
Qed.

Lemma all_cost B ho c n data h b rest : bitter_ok B -> hash_order_ok ho -> f_file data (h, b) rest ->
  snd (parse_counted B ho c n data) + snd (tables_c ho (sec_value b)) <= 21914 * lenZ data + 1111.
Proof.
  intros HB Ho F. pose proof (counted_bound B ho c n data HB). destruct (tables_cost_file ho data h b rest Ho F). lia.
Qed.
