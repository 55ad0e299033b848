(** * Added table entries: the tables made from them *)

From Coq Require Import ZArith List Bool Lia ZifyBool ZifyNat Permutation.
From Verif Require Import Base NetTypes SegArray Errors Header Body BitReader NetModels Data ObjectIndex Network
  SpecBasic BasicProofs HierarchyProofs MapProofs SpecNet TableProofs CacheProofs Added SpecAdded.
Import ListNotations.
Open Scope Z_scope.
#[local] Opaque PARENT_CLASSES SPAWN_STATS ATTRIBUTES.

Lemma str_assoc_app {V} k (a b : list (str * V)) :
  str_assoc k (a ++ b) = match str_assoc k a with Some v => Some v | None => str_assoc k b end.
Proof. induction a as [|[i v] a IH]; cbn [app str_assoc]; [reflexivity|]. destruct (str_eqb k i); auto. Qed.

(** ** Classes and spawn entries *)

Section Classes.
Context (P : list (str * str)) (S0 : list (str * spawn_trajectory)) (A : list (str * attribute_tag)).
Context (objects : list str) (L : lenZ objects <= 2 ^ 31).
Context (NC : new_classes P objects) (NS : new_spawns S0 objects).
Let ix := object_index_new objects.
Let T := mkTables (PARENT_CLASSES ++ P) (SPAWN_STATS ++ S0) A.
Let U := mkTables PARENT_CLASSES SPAWN_STATS A.

Definition clean (x : str) : Prop := forall name c, name = x \/ ancestor x name -> class_of name c -> ~ In c (map fst P).

Lemma clean_up x p : clean x -> parent x p -> clean p.
Proof.
  intros H Hp name c [->|Ha]; apply H; right; [now apply anc_parent|now apply anc_trans with p].
Qed.

Lemma hierarchy_same f : forall f' x ids, clean x -> (f <= f')%nat ->
  hierarchy_fuel_t U f ix x = Some ids -> hierarchy_fuel_t T f' ix x = Some ids.
Proof.
  induction f as [|f IH]; intros f' x ids C Lf; cbn [hierarchy_fuel_t]; [discriminate|].
  destruct f' as [|f']; [lia|]. cbn [hierarchy_fuel_t T U tb_parents]. rewrite str_assoc_app.
  destruct (str_assoc (normalize_object x) PARENT_CLASSES) as [p|] eqn:E.
  - destruct (hierarchy_fuel_t U f ix p) as [l|] eqn:H; [|discriminate]. intros [= <-].
    assert (Hp : parent x p) by now apply parent_spec.
    rewrite (IH f' p l (clean_up _ _ C Hp) ltac:(lia) H). reflexivity.
  - intros [= <-].
    assert (N : str_assoc (normalize_object x) P = None).
    { apply str_assoc_none. apply (C x); [now left|]. now apply normalize_class. }
    now rewrite N.
Qed.

Lemma hierarchy_u x : hierarchy_t U ix x = hierarchy ix x.
Proof. unfold hierarchy_t, hierarchy. cbn [U tb_parents]. generalize (S (S (length PARENT_CLASSES))). intros f.
  revert x. induction f as [|f IH]; intros x; cbn [hierarchy_fuel_t hierarchy_fuel U tb_parents]; [reflexivity|].
  destruct (str_assoc (normalize_object x) PARENT_CLASSES); [|reflexivity]. now rewrite IH.
Qed.

Lemma hierarchy_objects x : In x objects -> hierarchy_t T ix x = hierarchy_t U ix x.
Proof.
  intros Hx. destruct (hierarchy_spec objects x L) as (l & ids & _ & _ & H). fold ix in H.
  rewrite <- hierarchy_u in H. rewrite H. unfold hierarchy_t in *.
  eapply hierarchy_same; [| |exact H].
  - intros name c Hn Hc. exact (NC x name c Hx Hn Hc).
  - cbn [T U tb_parents]. rewrite app_length. lia.
Qed.

Lemma seed_app stats : forall v, seed_spawns ix (stats ++ S0) v = seed_spawns ix stats v.
Proof.
  induction stats as [|[n sp] stats IH]; intros v; cbn [app seed_spawns].
  - revert NS. generalize S0. intros l NS'. induction l as [|[n sp] l IH]; cbn [seed_spawns]; [reflexivity|].
    assert (N : by_name ix n = None).
    { apply by_name_none; [exact L|]. apply NS'. now left. }
    rewrite N. apply IH. intros m Hm. apply NS'. now right.
  - destruct (by_name ix n) as [id|]; [|apply IH]. destruct (must _ _); cbn [obind]; auto.
Qed.

Lemma spread_same : forall objs v, (forall x, In x objs -> In x objects) ->
  spread_spawns_t T ix objs v = spread_spawns_t U ix objs v.
Proof.
  induction objs as [|x objs IH]; intros v H; cbn [spread_spawns_t]; [reflexivity|].
  rewrite hierarchy_objects by (apply H; now left).
  destruct (must PanicFuel (hierarchy_t U ix x)); cbn [obind]; [|reflexivity|reflexivity].
  destruct (spawn_walk v a) as [r|e|p]; cbn [obind]; [|reflexivity|reflexivity].
  destruct (fill_spawns (fst r) (snd r) v); cbn [obind]; [|reflexivity|reflexivity]. apply IH. intros y Hy. apply H. now right.
Qed.

Lemma spawns_same : compute_spawns_t T ix objects = compute_spawns_t U ix objects.
Proof.
  unfold compute_spawns_t. cbn [T U tb_spawns]. rewrite seed_app.
  destruct (seed_spawns ix SPAWN_STATS (repeat None (length objects))); cbn [obind]; [|reflexivity|reflexivity].
  apply spread_same. auto.
Qed.

Lemma traverse_same ho np : forall objs known, (forall x, In x objs -> In x objects) ->
  traverse_all_t T ho ix np objs known = traverse_all_t U ho ix np objs known.
Proof.
  induction objs as [|x objs IH]; intros known H; cbn [traverse_all_t]; [reflexivity|].
  unfold net_traversal_t. rewrite hierarchy_objects by (apply H; now left).
  destruct (must PanicFuel (hierarchy_t U ix x)); cbn [obind]; [|reflexivity|reflexivity].
  destruct (attrs_walk ho known a). cbn [obind]. apply IH. intros y Hy. apply H. now right.
Qed.

Lemma push_same ps : forall acc, push_props_t T objects ps acc = push_props_t U objects ps acc.
Proof. induction ps as [|x ps IH]; intros acc; cbn [push_props_t]; [reflexivity|].
  change (attr_of_prop_t T objects x) with (attr_of_prop_t U objects x).
  destruct (attr_of_prop_t U objects x); cbn [obind]; auto.
Qed.

Lemma build_same caches : forall m, build_net_properties_t T objects caches m = build_net_properties_t U objects caches m.
Proof.
  induction caches as [|c caches IH]; intros m; cbn [build_net_properties_t]; [reflexivity|].
  rewrite push_same. destruct (push_props_t U objects _ _); cbn [obind]; auto.
Qed.

Lemma caches_same ho caches : compute_caches_t T ho ix objects caches = compute_caches_t U ho ix objects caches.
Proof.
  unfold compute_caches_t. rewrite build_same. destruct (build_net_properties_t U objects caches []); cbn [obind]; [|reflexivity|reflexivity].
  rewrite traverse_same by auto. reflexivity.
Qed.

End Classes.

(** ** Attributes that are not in the replay *)

Section NewAttributes.
Context (A : list (str * attribute_tag)) (objects : list str) (NA : new_attributes A objects).
Let T := mkTables PARENT_CLASSES SPAWN_STATS (ATTRIBUTES ++ A).

Lemma prop_same x : attr_of_prop_t T objects x = attr_of_prop objects x.
Proof.
  unfold attr_of_prop_t, attr_of_prop. destruct (getZ (as_usize (cp_object_ind x)) objects) as [n|] eqn:G; [|reflexivity].
  cbn [T tb_attributes]. rewrite str_assoc_app.
  assert (N : str_assoc n A = None).
  { apply str_assoc_none. intros H. apply (NA n H). eapply getZ_in; exact G. }
  rewrite N. destruct (str_assoc n ATTRIBUTES); reflexivity.
Qed.

Lemma push_plain ps : forall acc, push_props_t T objects ps acc = push_props objects ps acc.
Proof. induction ps as [|x ps IH]; intros acc; cbn [push_props_t push_props]; [reflexivity|].
  rewrite prop_same. destruct (attr_of_prop objects x); cbn [obind]; [apply IH|reflexivity|reflexivity].
Qed.

Lemma build_plain caches : forall m, build_net_properties_t T objects caches m = build_net_properties objects caches m.
Proof.
  induction caches as [|c caches IH]; intros m; cbn [build_net_properties_t build_net_properties]; [reflexivity|].
  rewrite push_plain. destruct (push_props objects _ _); cbn [obind]; [apply IH|reflexivity|reflexivity].
Qed.

Lemma traverse_plain ho ix np : forall objs known, traverse_all_t T ho ix np objs known = traverse_all ho ix np objs known.
Proof.
  induction objs as [|x objs IH]; intros known; cbn [traverse_all_t traverse_all]; [reflexivity|].
  unfold net_traversal_t, net_traversal.
  assert (E : hierarchy_t T ix x = hierarchy ix x).
  { unfold hierarchy_t, hierarchy. cbn [T tb_parents]. generalize (S (S (length PARENT_CLASSES))). intros f.
    revert x. clear. induction f as [|f IH]; intros x; cbn [hierarchy_fuel_t hierarchy_fuel T tb_parents]; [reflexivity|].
    destruct (str_assoc (normalize_object x) PARENT_CLASSES); [|reflexivity]. now rewrite IH. }
  rewrite E. destruct (must PanicFuel (hierarchy ix x)); cbn [obind]; [|reflexivity|reflexivity].
  destruct (attrs_walk ho known a). cbn [obind]. apply IH.
Qed.

Lemma caches_plain ho ix caches : compute_caches_t T ho ix objects caches = compute_caches ho ix objects caches.
Proof.
  unfold compute_caches_t, compute_caches. rewrite build_plain.
  destruct (build_net_properties objects caches []); cbn [obind]; [|reflexivity|reflexivity].
  rewrite traverse_plain. reflexivity.
Qed.

End NewAttributes.

(** ** Attributes *)

Section Attributes.
Context (A : list (str * attribute_tag)) (objects : list str).

(** what becomes known about an attribute *)
Definition up (a : object_attribute) : object_attribute :=
  match oa_attribute a with
  | TNotImplemented =>
      match getZ (as_usize (oa_object_id a)) objects with
      | Some name => match str_assoc name ATTRIBUTES, str_assoc name A with
                     | None, Some t => mkObjAttr t (oa_object_id a)
                     | _, _ => a
                     end
      | None => a
      end
  | _ => a
  end.

Lemma up_id a : oa_object_id (up a) = oa_object_id a.
Proof.
  unfold up. destruct (oa_attribute a); try reflexivity.
  destruct (getZ _ _) as [n|]; [|reflexivity]. destruct (str_assoc n ATTRIBUTES), (str_assoc n A); reflexivity.
Qed.

Definition mapv {V W} (f : V -> W) (m : list (Z * V)) : list (Z * W) := map (fun kv => (fst kv, f (snd kv))) m.

Section Mapv.
Context {V W : Type} (f : V -> W).

Lemma mapv_keys m : map fst (mapv f m) = map fst m.
Proof. unfold mapv. rewrite map_map. reflexivity. Qed.

Lemma mapv_get k m : map_get k (mapv f m) = option_map f (map_get k m).
Proof. induction m as [|[i v] m IH]; cbn; [reflexivity|]. destruct (k =? i); auto. Qed.

Lemma mapv_insert k v (m : amap V) : map_insert k (f v) (mapv f m) = mapv f (map_insert k v m).
Proof.
  induction m as [|[i u] m IH]; cbn; [reflexivity|]. destruct (k <? i); [reflexivity|].
  destruct (k =? i); [reflexivity|]. cbn [map fst snd]. f_equal. exact IH.
Qed.

Lemma mapv_remove k (m : amap V) : map_remove k (mapv f m) = mapv f (map_remove k m).
Proof. induction m as [|[i u] m IH]; cbn; [reflexivity|]. destruct (k =? i); [exact IH|]. cbn [map fst snd]. f_equal. exact IH. Qed.

Lemma mapv_extend l : forall m : amap V, map_extend (mapv f m) (mapv f l) = mapv f (map_extend m l).
Proof.
  unfold map_extend. induction l as [|[k v] l IH]; intros m; cbn [mapv map fold_left fst snd]; [reflexivity|].
  rewrite mapv_insert. apply IH.
Qed.

Lemma mapv_app a b : mapv f (a ++ b) = mapv f a ++ mapv f b.
Proof. apply map_app. Qed.

Lemma mapv_sorted (m : amap V) : sorted m -> sorted (mapv f m).
Proof.
  unfold sorted. generalize (@None Z). induction m as [|[k v] m IH]; intros lo; cbn [mapv map sorted_from fst snd]; [auto|].
  intros [H1 H2]. split; [exact H1|]. now apply IH.
Qed.

Lemma map_getZ i (l : list (option V)) : getZ i (map (option_map f) l) = option_map (option_map f) (getZ i l).
Proof. revert i. induction l as [|x l IH]; intros i; cbn; [reflexivity|]. destruct (i =? 0); auto. Qed.

Lemma map_setZ i x (l : list (option V)) :
  setZ i (option_map f x) (map (option_map f) l) = option_map (map (option_map f)) (setZ i x l).
Proof.
  revert i. induction l as [|y l IH]; intros i; cbn [map setZ option_map]; [reflexivity|].
  destruct (i =? 0); [reflexivity|]. rewrite IH. destruct (setZ (i - 1) x l); reflexivity.
Qed.

Definition smap (s : seg_array V) : seg_array W := mkSeg (map (option_map f) (sg_array s)) (mapv f (sg_map s)).

Lemma smap_insert k v s : seg_insert k (f v) (smap s) = smap (seg_insert k v s).
Proof.
  unfold seg_insert, raw_insert, smap. cbn [sg_array sg_map].
  change (Some (f v)) with (option_map f (Some v)). rewrite map_setZ.
  destruct (setZ (as_usize k) (Some v) (sg_array s)); cbn [option_map sg_array sg_map]; [reflexivity|].
  now rewrite mapv_insert.
Qed.

Lemma smap_get k s : seg_get k (smap s) = option_map f (seg_get k s).
Proof.
  unfold seg_get, raw_get, smap. cbn [sg_array sg_map]. rewrite map_getZ.
  destruct (getZ (as_usize k) (sg_array s)); cbn [option_map]; [reflexivity|]. apply mapv_get.
Qed.

Lemma smap_delete k s : seg_delete k (smap s) = smap (seg_delete k s).
Proof.
  unfold seg_delete, raw_delete, smap. cbn [sg_array sg_map]. rewrite map_getZ.
  destruct (getZ (as_usize k) (sg_array s)); cbn [option_map sg_array sg_map]; [reflexivity|]. now rewrite mapv_remove.
Qed.

Lemma smap_new n : smap (seg_new n) = seg_new n.
Proof. unfold smap, seg_new. cbn [sg_array sg_map mapv map]. f_equal. induction n; cbn; congruence. Qed.

Lemma smap_fill l : forall s, fold_left (fun a kv => seg_insert (fst kv) (snd kv) a) (mapv f l) (smap s) =
  smap (fold_left (fun a kv => seg_insert (fst kv) (snd kv) a) l s).
Proof.
  induction l as [|[k v] l IH]; intros s; cbn [mapv map fold_left fst snd]; [reflexivity|].
  rewrite smap_insert. apply IH.
Qed.

Lemma max_key_mapv (l : list (Z * V)) : max_key (mapv f l) = max_key l.
Proof.
  unfold max_key. generalize (@None Z). induction l as [|[k v] l IH]; intros m; cbn [mapv map fold_left fst snd]; [reflexivity|].
  apply IH.
Qed.

End Mapv.

Definition up_cache (c : cache_info) : cache_info :=
  mkCache (ci_max_prop_id c) (ci_prop_id_bits c) (smap up (ci_attributes c)).

Context (ho : hash_order) (Ho : hash_order_ok ho).
Let T := with_attributes A.

Lemma ho_mapv {V W} (f : V -> W) (m : amap V) : Permutation (ho _ (mapv f m)) (mapv f (ho _ m)).
Proof. etransitivity; [apply Ho|]. unfold mapv. apply Permutation_map, Permutation_sym, Ho. Qed.

Definition inner_ok (m : amap object_attribute) : Prop := sorted m /\ Forall (fun kv => is_i32 (fst kv)) m.

Lemma cache_up m : inner_ok m -> cache_info_of ho (mapv up m) = up_cache (cache_info_of ho m).
Proof.
  intros [S K]. unfold cache_info_of, up_cache. cbn [ci_max_prop_id ci_prop_id_bits ci_attributes].
  assert (E : max_key (ho _ (mapv up m)) = max_key (ho _ m)).
  { rewrite (max_key_perm _ _ (ho_mapv up m)). apply max_key_mapv. }
  rewrite E. f_equal. rewrite <- smap_fill, smap_new. apply seg_fill_perm.
  - apply Forall_forall. intros [k v] H. cbn [fst]. apply (Permutation_in _ (Ho _ _)) in H.
    unfold mapv in H. apply in_map_iff in H as ([i u] & [= <- <-] & H). rewrite Forall_forall in K. exact (K _ H).
  - eapply Permutation_NoDup; [apply Permutation_map, Permutation_sym, Ho|]. rewrite mapv_keys. now apply sorted_nodup.
  - apply ho_mapv.
  - exact Logic.I.
Qed.

(** storing in another order *)
Lemma setZ_comm {X} i j (x y : X) : i <> j -> forall l,
  match setZ i x l with Some l' => setZ j y l' | None => None end =
  match setZ j y l with Some l' => setZ i x l' | None => None end.
Proof.
  intros N l. revert i j N. induction l as [|z l IH]; intros i j N; cbn [setZ]; [reflexivity|].
  destruct (Z.eqb_spec i 0) as [->|Hi], (Z.eqb_spec j 0) as [->|Hj]; try (exfalso; apply N; reflexivity).
  - cbn [setZ]. destruct (Z.eqb_spec j 0); [lia|]. destruct (setZ (j - 1) y l); reflexivity.
  - cbn [setZ]. destruct (Z.eqb_spec i 0); [lia|]. destruct (setZ (i - 1) x l); reflexivity.
  - specialize (IH (i - 1) (j - 1) ltac:(lia)).
    destruct (setZ (i - 1) x l) as [l1|], (setZ (j - 1) y l) as [l2|]; cbn [setZ];
      destruct (Z.eqb_spec i 0), (Z.eqb_spec j 0); try lia.
    + now rewrite IH.
    + rewrite IH. reflexivity.
    + rewrite <- IH. reflexivity.
    + reflexivity.
Qed.

Lemma store_perm l l' : Permutation l l' -> NoDup (map (fun kv => as_usize (fst kv)) l) ->
  forall v, store_caches ho l v = store_caches ho l' v.
Proof.
  induction 1 as [|[k m] l l' P IH|[k m] [k' m'] l|l l' l'' P1 IH1 P2 IH2]; intros N v; cbn [store_caches]; try reflexivity.
  - destruct (must _ _); cbn [obind]; [|reflexivity|reflexivity]. apply IH. now inversion N.
  - assert (D : as_usize k <> as_usize k').
    { cbn [map fst] in N. inversion N as [|? ? N1 _]; subst. intros E. apply N1. left. congruence. }
    pose proof (setZ_comm _ _ (Some (cache_info_of ho m)) (Some (cache_info_of ho m')) D v) as C.
    destruct (setZ (as_usize k) (Some (cache_info_of ho m)) v) as [v1|],
      (setZ (as_usize k') (Some (cache_info_of ho m')) v) as [v2|]; cbn [must obind] in *.
    + rewrite C. reflexivity.
    + rewrite C. reflexivity.
    + rewrite <- C. reflexivity.
    + reflexivity.
  - rewrite IH1 by exact N. apply IH2.
    eapply Permutation_NoDup; [apply Permutation_map; exact P1|exact N].
Qed.

Lemma store_mapv l : Forall (fun kv => inner_ok (snd kv)) l -> forall v,
  store_caches ho (mapv (mapv up) l) (map (option_map up_cache) v) =
  match store_caches ho l v with Ok t => Ok (map (option_map up_cache) t) | Err e => Err e | Panic p => Panic p end.
Proof.
  induction 1 as [|[k m] l Hm _ IH]; intros v; [reflexivity|].
  change (mapv (mapv up) ((k, m) :: l)) with ((k, mapv up m) :: mapv (mapv up) l). cbn [store_caches].
  cbn [snd] in Hm. rewrite (cache_up m Hm).
  change (Some (up_cache (cache_info_of ho m))) with (option_map up_cache (Some (cache_info_of ho m))).
  rewrite map_setZ. destruct (setZ (as_usize k) (Some (cache_info_of ho m)) v); cbn [option_map must obind]; [|reflexivity].
  apply IH.
Qed.

(** ** The listed properties *)

Lemma prop_up x : attr_of_prop_t T objects x =
  match attr_of_prop objects x with Ok kv => Ok (fst kv, up (snd kv)) | Err e => Err e | Panic p => Panic p end.
Proof.
  unfold attr_of_prop_t, attr_of_prop. destruct (getZ (as_usize (cp_object_ind x)) objects) as [n|] eqn:G; [|reflexivity].
  cbn [T with_attributes added tb_attributes]. rewrite str_assoc_app.
  unfold up. cbn [fst snd oa_attribute oa_object_id]. rewrite G.
  destruct (str_assoc n ATTRIBUTES) as [t|] eqn:E; rewrite ?E.
  - destruct t; reflexivity.
  - destruct (str_assoc n A); reflexivity.
Qed.

Lemma push_up ps : forall acc, push_props_t T objects ps (mapv up acc) =
  match push_props objects ps acc with Ok l => Ok (mapv up l) | Err e => Err e | Panic p => Panic p end.
Proof.
  induction ps as [|x ps IH]; intros acc; cbn [push_props_t push_props]; [reflexivity|].
  rewrite prop_up. destruct (attr_of_prop objects x) as [[k a]|e|p]; cbn [obind fst snd]; [|reflexivity|reflexivity].
  rewrite <- IH. f_equal. rewrite mapv_app. reflexivity.
Qed.

Lemma build_up caches : forall m, build_net_properties_t T objects caches (mapv (mapv up) m) =
  match build_net_properties objects caches m with Ok l => Ok (mapv (mapv up) l) | Err e => Err e | Panic p => Panic p end.
Proof.
  induction caches as [|c caches IH]; intros m; cbn [build_net_properties_t build_net_properties]; [reflexivity|].
  rewrite mapv_get.
  replace (match option_map (mapv up) (map_get (nc_object_ind c) m) with Some l => l | None => [] end)
    with (mapv up (match map_get (nc_object_ind c) m with Some l => l | None => [] end))
    by (destruct (map_get (nc_object_ind c) m); reflexivity).
  rewrite push_up. destruct (push_props objects (nc_properties c) _); cbn [obind]; [|reflexivity|reflexivity].
  rewrite mapv_insert. apply IH.
Qed.

(** ** The attributes of every object *)

Lemma walk_up known ids : Forall (fun kv => sorted (snd kv)) known ->
  snd (attrs_walk ho (mapv (mapv up) known) ids) = snd (attrs_walk ho known ids) /\
  map_extend [] (fst (attrs_walk ho (mapv (mapv up) known) ids)) = mapv up (map_extend [] (fst (attrs_walk ho known ids))).
Proof.
  intros K. induction ids as [|id ids IH]; cbn [attrs_walk]; [split; reflexivity|].
  pose proof (mapv_get (mapv up) id known) as G. unfold amap in *.
  destruct (map_get id known) as [m|] eqn:E; rewrite G; cbn [option_map].
  - cbn [fst snd]. split; [reflexivity|]. rewrite Forall_forall in K.
    assert (S : sorted m).
    { apply (K (id, m)). clear -E. induction known as [|[i u] known IH]; cbn in E; [discriminate|].
      destruct (Z.eqb_spec id i) as [->|]; [injection E as ->; now left|right; auto]. }
    rewrite (extend_self _ m S (Ho _ _)). apply extend_self; [now apply mapv_sorted|apply Ho].
  - destruct (attrs_walk ho (mapv (mapv up) known) ids), (attrs_walk ho known ids). cbn [fst snd] in *.
    destruct IH as [-> IH]. split; [reflexivity|exact IH].
Qed.

Lemma insert_Forall {V} (Q : Z * V -> Prop) k v (m : amap V) : Q (k, v) -> Forall Q m -> Forall Q (map_insert k v m).
Proof.
  intros Hq. induction 1 as [|[i u] m Hi Hm IH]; cbn [map_insert]; [auto|]. destruct (k <? i); [auto|]. destruct (k =? i); auto.
Qed.

Lemma fill_up np stack : forall acc acc' known, map_extend [] acc' = mapv up (map_extend [] acc) ->
  attrs_fill (mapv (mapv up) np) stack acc' (mapv (mapv up) known) = mapv (mapv up) (attrs_fill np stack acc known).
Proof.
  induction stack as [|id stack IH]; intros acc acc' known H; cbn [attrs_fill]; [reflexivity|].
  rewrite mapv_get.
  set (l := match map_get id np with Some l => l | None => [] end).
  replace (match option_map (mapv up) (map_get id np) with Some l => l | None => [] end) with (mapv up l)
    by (unfold l; destruct (map_get id np); reflexivity).
  assert (E : map_extend [] (acc' ++ mapv up l) = mapv up (map_extend [] (acc ++ l))).
  { rewrite !map_extend_app, H. apply mapv_extend. }
  rewrite E, mapv_insert. apply IH. exact E.
Qed.

Lemma fill_sorted np stack : forall acc known, Forall (fun kv => sorted (snd kv)) known ->
  Forall (fun kv => sorted (snd kv)) (attrs_fill np stack acc known).
Proof.
  induction stack as [|id stack IH]; intros acc known K; cbn [attrs_fill]; [exact K|].
  apply IH. apply insert_Forall; [|exact K]. cbn [snd]. apply sorted_extend. exact Logic.I.
Qed.

Lemma hierarchy_plain ix x : hierarchy_t T ix x = hierarchy ix x.
Proof.
  unfold hierarchy_t, hierarchy. cbn [T with_attributes added tb_parents]. rewrite app_nil_r.
  generalize (S (S (length PARENT_CLASSES))). intros f.
  revert x. induction f as [|f IH]; intros x; cbn [hierarchy_fuel_t hierarchy_fuel T with_attributes added tb_parents]; [reflexivity|].
  rewrite app_nil_r. destruct (str_assoc (normalize_object x) PARENT_CLASSES); [|reflexivity]. now rewrite IH.
Qed.

Lemma traverse_up ix np : forall objs known, Forall (fun kv => sorted (snd kv)) known ->
  traverse_all_t T ho ix (mapv (mapv up) np) objs (mapv (mapv up) known) =
  match traverse_all ho ix np objs known with Ok k => Ok (mapv (mapv up) k) | Err e => Err e | Panic p => Panic p end.
Proof.
  induction objs as [|x objs IH]; intros known K; cbn [traverse_all_t traverse_all]; [reflexivity|].
  unfold net_traversal_t, net_traversal. rewrite hierarchy_plain.
  destruct (must PanicFuel (hierarchy ix x)) as [ids|e|p]; cbn [obind]; [|reflexivity|reflexivity].
  destruct (walk_up known ids K) as [E1 E2].
  destruct (attrs_walk ho (mapv (mapv up) known) ids) as [acc' st'], (attrs_walk ho known ids) as [acc st].
  cbn [fst snd] in *. subst st'. cbn [obind]. rewrite (fill_up np (rev st) acc acc' known E2). apply IH.
  now apply fill_sorted.
Qed.

Lemma caches_up caches (L : lenZ objects <= 2 ^ 31) (CI : net_cache_ok caches) :
  compute_caches_t T ho (object_index_new objects) objects caches =
  match compute_caches ho (object_index_new objects) objects caches with
  | Ok t => Ok (map (option_map up_cache) t) | Err e => Err e | Panic p => Panic p end.
Proof.
  unfold compute_caches_t, compute_caches.
  change (build_net_properties_t T objects caches []) with (build_net_properties_t T objects caches (mapv (mapv up) [])).
  rewrite build_up. pose proof (build_net_properties_spec objects L caches CI []) as BS.
  destruct (build_net_properties objects caches []) as [np|e|p]; cbn [obind]; [|reflexivity|reflexivity].
  destruct BS as [[_ (np' & [= <-] & NP)]|(x & _ & [=])].
  change (traverse_all_t T ho (object_index_new objects) (mapv (mapv up) np) objects [])
    with (traverse_all_t T ho (object_index_new objects) (mapv (mapv up) np) objects (mapv (mapv up) [])).
  rewrite traverse_up by constructor.
  destruct (traverse_all_ok objects L caches ho Ho np NP objects []) as (known & Et & [S K] & _).
  { split; [exact Logic.I|]. discriminate. }
  unfold amap in *. rewrite !Et.
  cbn [obind].
  assert (IO : Forall (fun kv => inner_ok (snd kv)) known).
  { apply Forall_forall. intros [id m] H. cbn [snd]. apply map_get_in in H; [|now apply sorted_nodup].
    destruct (K _ _ H) as (n & ids & _ & _ & ->). split; [apply table_sorted|].
    apply Forall_forall. intros [k a] Hk. cbn [fst]. apply (table_keys objects caches CI (id :: ids)).
    apply in_map_iff. exists (k, a). auto. }
  transitivity (store_caches ho (mapv (mapv up) (ho _ known)) (map (option_map up_cache) (repeat None (length objects)))).
  - transitivity (store_caches ho (mapv (mapv up) (ho _ known)) (repeat None (length objects))).
    + apply store_perm; [apply ho_mapv|].
      assert (N : NoDup (map fst (ho _ (mapv (mapv up) known)))).
      { eapply Permutation_NoDup; [apply Permutation_map, Permutation_sym, Ho|]. rewrite mapv_keys. now apply sorted_nodup. }
      unfold amap in *. rewrite (map_ext_in _ fst); [exact N|]. intros [id m] H. cbn [fst].
      apply (Permutation_in _ (Ho _ _)) in H.
      unfold mapv in H. apply in_map_iff in H as ([i u] & [= <- <-] & H).
      apply map_get_in in H; [|now apply sorted_nodup]. apply K, table_at_range in H. cbn [fst].
      unfold as_usize. apply Z.mod_small. lia.
    + f_equal. generalize (length objects). intros n. induction n; cbn; congruence.
  - apply store_mapv. apply Forall_forall. intros x Hx. rewrite Forall_forall in IO. apply IO.
    eapply Permutation_in; [apply Ho|exact Hx].
Qed.

Lemma spread_plain ix : forall objs v, spread_spawns_t T ix objs v = spread_spawns ix objs v.
Proof.
  induction objs as [|x objs IH]; intros v; cbn [spread_spawns_t spread_spawns]; [reflexivity|]. rewrite hierarchy_plain.
  destruct (must PanicFuel (hierarchy ix x)); cbn [obind]; [|reflexivity|reflexivity].
  destruct (spawn_walk v a) as [r|e|p]; cbn [obind]; [|reflexivity|reflexivity].
  destruct (fill_spawns (fst r) (snd r) v); cbn [obind]; auto.
Qed.

Lemma spawns_plain ix objs : compute_spawns_t T ix objs = compute_spawns ix objs.
Proof.
  unfold compute_spawns_t, compute_spawns. cbn [T with_attributes added tb_spawns]. rewrite app_nil_r.
  destruct (seed_spawns ix SPAWN_STATS (repeat None (length objs))); cbn [obind]; [|reflexivity|reflexivity]. apply spread_plain.
Qed.

End Attributes.
