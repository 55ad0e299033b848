(** * The width of [usize]: network data *)

From Coq Require Import ZArith List Bool Lia Permutation.
From Verif Require Import Base F32 Text NetTypes SegArray Errors Core Header Body BitReader
  NetModels Attributes Data ObjectIndex FrameDecoder Network Crc Parser SpecBasic SpecWidth Width
  CoreLogic BasicProofs MapProofs CacheProofs RecordProofs StreamProofs WidthCore WidthAttr.
Import ListNotations.
Open Scope Z_scope.
#[local] Opaque PARENT_CLASSES SPAWN_STATS ATTRIBUTES.

Section Width.
Context (w : Z) (W : 32 <= w <= 64).

(** ** Keys *)

Lemma usize_i32_w j : is_i32 j -> as_usize j mod 2 ^ w = (if 0 <=? j then j else j + 2 ^ w).
Proof.
  intros [H1 H2]. destruct (pow_w w W) as [P _]. rewrite <- (usize_narrow w W). unfold as_usize_w.
  destruct (Z.leb_spec 0 j); [apply Z.mod_small; lia|].
  symmetry. apply Z.mod_unique with (-1); lia.
Qed.

Lemma key_ltb j k : is_i32 j -> is_i32 k ->
  (as_usize j mod 2 ^ w <? as_usize k mod 2 ^ w) = (as_usize j <? as_usize k).
Proof.
  intros Hj Hk. rewrite !usize_i32_w, !as_usize_i32 by assumption. destruct (pow_w w W) as [P _].
  destruct Hj, Hk. destruct (Z.leb_spec 0 j), (Z.leb_spec 0 k);
    apply Bool.eq_true_iff_eq; rewrite !Z.ltb_lt; lia.
Qed.

Lemma key_eqb j k : is_i32 j -> is_i32 k ->
  (as_usize j mod 2 ^ w =? as_usize k mod 2 ^ w) = (as_usize j =? as_usize k).
Proof.
  intros Hj Hk. rewrite !usize_i32_w, !as_usize_i32 by assumption. destruct (pow_w w W) as [P _].
  destruct Hj, Hk. destruct (Z.leb_spec 0 j), (Z.leb_spec 0 k);
    apply Bool.eq_true_iff_eq; rewrite !Z.eqb_eq; lia.
Qed.

Definition key_ok (k : Z) : Prop := exists j, is_i32 j /\ k = as_usize j.

(** ** Segmented arrays *)

Section Seg.
Context {V : Type} (f : V -> V) (P : V -> Prop).

Definition rekey (kv : Z * V) : Z * V := (fst kv mod 2 ^ w, f (snd kv)).

Lemma rekey_get j (m : amap V) : is_i32 j -> Forall (fun kv => key_ok (fst kv)) m ->
  map_get (as_usize j mod 2 ^ w) (map rekey m) = option_map f (map_get (as_usize j) m).
Proof.
  intros Hj. induction 1 as [|[k v] m (i & Hi & Ek) _ IH]; [reflexivity|].
  cbn [map rekey map_get fst snd] in *. subst k. rewrite key_eqb by assumption.
  destruct (as_usize j =? as_usize i); [reflexivity|exact IH].
Qed.

Lemma rekey_remove j (m : amap V) : is_i32 j -> Forall (fun kv => key_ok (fst kv)) m ->
  map_remove (as_usize j mod 2 ^ w) (map rekey m) = map rekey (map_remove (as_usize j) m).
Proof.
  intros Hj. induction 1 as [|[k v] m (i & Hi & Ek) _ IH]; [reflexivity|].
  cbn [map rekey map_remove fst snd] in *. subst k. rewrite key_eqb by assumption.
  destruct (as_usize j =? as_usize i); [exact IH|]. cbn [map rekey fst snd]. now rewrite IH.
Qed.

Lemma rekey_insert j v (m : amap V) : is_i32 j -> Forall (fun kv => key_ok (fst kv)) m ->
  map_insert (as_usize j mod 2 ^ w) (f v) (map rekey m) = map rekey (map_insert (as_usize j) v m).
Proof.
  intros Hj. induction 1 as [|[k u] m (i & Hi & Ek) _ IH]; [reflexivity|].
  cbn [map rekey map_insert fst snd] in *. subst k. rewrite key_eqb, key_ltb by assumption.
  destruct (as_usize j <? as_usize i); [reflexivity|].
  destruct (as_usize j =? as_usize i); [reflexivity|]. cbn [map rekey fst snd]. now rewrite IH.
Qed.

Lemma map_getZ i (l : list (option V)) :
  getZ i (map (option_map f) l) = option_map (option_map f) (getZ i l).
Proof.
  revert i. induction l as [|x l IH]; intros i; cbn [map getZ option_map]; [reflexivity|].
  destruct (i =? 0); auto.
Qed.

Lemma map_setZ i x (l : list (option V)) :
  setZ i (option_map f x) (map (option_map f) l) = option_map (map (option_map f)) (setZ i x l).
Proof.
  revert i. induction l as [|y l IH]; intros i; cbn [map setZ option_map]; [reflexivity|].
  destruct (i =? 0); [reflexivity|]. rewrite IH. destruct (setZ (i - 1) x l); reflexivity.
Qed.

Lemma setZ_forall {A} (Q : A -> Prop) i x (l a : list A) : Q x -> Forall Q l -> setZ i x l = Some a -> Forall Q a.
Proof.
  intros Hx H. revert i a. induction H as [|y l Hy Hl IH]; intros i a E; cbn [setZ] in E; [discriminate|].
  destruct (i =? 0); [injection E as <-; now constructor|].
  destruct (setZ (i - 1) x l) eqn:E2; [|discriminate]. injection E as <-. constructor; eauto.
Qed.

Lemma setZ_len {A} i (x : A) l a : setZ i x l = Some a -> lenZ a = lenZ l.
Proof.
  revert i a. induction l as [|y l IH]; intros i a E; cbn [setZ] in E; [discriminate|].
  destruct (i =? 0); [now injection E as <-|].
  destruct (setZ (i - 1) x l) eqn:E2; [|discriminate]. injection E as <-. apply IH in E2.
  unfold lenZ in *. cbn [length]. lia.
Qed.

Lemma getZ_forall {A} (Q : A -> Prop) i x (l : list A) : Forall Q l -> getZ i l = Some x -> Q x.
Proof.
  intros H. revert i. induction H as [|y l Hy Hl IH]; intros i E; cbn [getZ] in E; [discriminate|].
  destruct (i =? 0); [injection E as <-; assumption|eauto].
Qed.

Definition cell_fine (o : option V) : Prop := match o with Some v => P v | None => True end.

Record seg_ok (s : seg_array V) : Prop := {
  so_sorted : sorted (sg_map s);
  so_keys : Forall (fun kv => key_ok (fst kv)) (sg_map s);
  so_len : lenZ (sg_array s) <= 2 ^ 31;
  so_cells : Forall cell_fine (sg_array s);
  so_vals : Forall (fun kv => P (snd kv)) (sg_map s) }.

Definition seg_map_w (s : seg_array V) : seg_array V :=
  mkSeg (map (option_map f) (sg_array s)) (map rekey (sg_map s)).

Lemma lenZ_map {A C} (g : A -> C) l : lenZ (map g l) = lenZ l.
Proof. unfold lenZ. now rewrite map_length. Qed.

Lemma insert_forall (Q : Z * V -> Prop) k v (m : amap V) : Q (k, v) -> Forall Q m -> Forall Q (map_insert k v m).
Proof.
  intros Hq. induction 1 as [|[i u] m Hi Hm IH]; cbn [map_insert]; [auto|].
  destruct (k <? i); [auto|]. destruct (k =? i); auto.
Qed.

Lemma remove_forall (Q : Z * V -> Prop) k (m : amap V) : Forall Q m -> Forall Q (map_remove k m).
Proof.
  induction 1 as [|[i u] m Hi Hm IH]; cbn [map_remove]; [auto|]. destruct (k =? i); auto.
Qed.

Lemma seg_insert_ok k v s : is_i32 k -> P v -> seg_ok s -> seg_ok (seg_insert k v s).
Proof.
  intros Hk Hv [S1 S2 S3 S4 S5]. unfold seg_insert, raw_insert.
  destruct (setZ (as_usize k) (Some v) (sg_array s)) as [a|] eqn:E; constructor; cbn [sg_array sg_map]; auto.
  - erewrite setZ_len by eauto. assumption.
  - eapply setZ_forall; [|exact S4|exact E]. exact Hv.
  - now apply sorted_insert.
  - apply insert_forall; [|assumption]. exists k. auto.
  - apply insert_forall; assumption.
Qed.

Lemma seg_insert_w_map k v s : is_i32 k -> seg_ok s ->
  seg_insert_w w k (f v) (seg_map_w s) = seg_map_w (seg_insert k v s).
Proof.
  intros Hk [S1 S2 S3 S4 S5]. unfold seg_insert_w, seg_insert, raw_insert, seg_map_w. cbn [sg_array sg_map].
  rewrite (setZ_w w W) by (rewrite ?lenZ_map; assumption).
  change (Some (f v)) with (option_map f (Some v)). rewrite map_setZ.
  destruct (setZ (as_usize k) (Some v) (sg_array s)) as [a|]; cbn [option_map sg_array sg_map]; [reflexivity|].
  rewrite (usize_narrow w W), rekey_insert by assumption. reflexivity.
Qed.

Lemma seg_delete_ok k s : seg_ok s -> seg_ok (seg_delete k s).
Proof.
  intros [S1 S2 S3 S4 S5]. unfold seg_delete, raw_delete.
  destruct (getZ (as_usize k) (sg_array s)); constructor; cbn [sg_array sg_map]; auto.
  - now apply sorted_remove.
  - now apply remove_forall.
  - now apply remove_forall.
Qed.

Lemma seg_delete_w_map k s : is_i32 k -> seg_ok s -> seg_delete_w w k (seg_map_w s) = seg_map_w (seg_delete k s).
Proof.
  intros Hk [S1 S2 S3 S4 S5]. unfold seg_delete_w, seg_delete, raw_delete, seg_map_w. cbn [sg_array sg_map].
  rewrite (getZ_w w W) by (rewrite ?lenZ_map; assumption). rewrite map_getZ.
  destruct (getZ (as_usize k) (sg_array s)) as [a|]; cbn [option_map sg_array sg_map]; [reflexivity|].
  rewrite (usize_narrow w W), rekey_remove by assumption. reflexivity.
Qed.

Lemma seg_get_w_map k s : is_i32 k -> seg_ok s -> seg_get_w w k (seg_map_w s) = option_map f (seg_get k s).
Proof.
  intros Hk [S1 S2 S3 S4 S5]. unfold seg_get_w, seg_get, raw_get, seg_map_w. cbn [sg_array sg_map].
  rewrite (getZ_w w W) by (rewrite ?lenZ_map; assumption). rewrite map_getZ.
  destruct (getZ (as_usize k) (sg_array s)) as [a|]; cbn [option_map]; [reflexivity|].
  rewrite (usize_narrow w W), rekey_get by assumption. reflexivity.
Qed.

Lemma map_get_forall (Q : Z * V -> Prop) k v (m : amap V) : Forall Q m -> map_get k m = Some v -> exists j, Q (j, v).
Proof.
  induction 1 as [|[i u] m Hi Hm IH]; cbn [map_get]; [discriminate|].
  destruct (k =? i); [intros [= <-]; eauto|auto].
Qed.

Lemma seg_get_ok k v s : seg_ok s -> seg_get k s = Some v -> P v.
Proof.
  intros [S1 S2 S3 S4 S5] E. unfold seg_get, raw_get in E.
  destruct (getZ (as_usize k) (sg_array s)) as [a|] eqn:G.
  - subst a. exact (getZ_forall cell_fine _ _ _ S4 G).
  - destruct (map_get_forall _ _ _ _ S5 E) as [j H]. exact H.
Qed.

Lemma seg_new_ok n : Z.of_nat n <= 2 ^ 31 -> seg_ok (seg_new n).
Proof.
  intros H. constructor; cbn [sg_array sg_map seg_new]; auto.
  - exact Logic.I.
  - unfold lenZ. now rewrite repeat_length.
  - apply Forall_forall. intros x Hx. apply repeat_spec in Hx. subst. exact Logic.I.
Qed.

Lemma seg_new_w n : seg_map_w (seg_new n) = seg_new n.
Proof.
  unfold seg_map_w, seg_new. cbn [sg_array sg_map map]. f_equal.
  induction n; cbn [repeat map option_map]; congruence.
Qed.

End Seg.

(** ** Caches *)

Definition oid (a : object_attribute) : object_attribute := a.
Definition attr_ok (a : object_attribute) : Prop := is_i32 (oa_object_id a).
Definition attrs_fine (m : list (Z * object_attribute)) : Prop :=
  Forall (fun kv => is_i32 (fst kv) /\ attr_ok (snd kv)) m.

Lemma narrow_attributes_eq s : narrow_attributes w s = seg_map_w oid s.
Proof.
  unfold narrow_attributes, seg_map_w. f_equal.
  rewrite (map_ext _ (fun x => x)); [now rewrite map_id|]. intros [x|]; reflexivity.
Qed.

Definition cache_fine (c : cache_info) : Prop := seg_ok attr_ok (ci_attributes c).
Definition table_ok (t : list (option cache_info)) : Prop :=
  Forall (fun o => match o with Some c => cache_fine c | None => True end) t /\ lenZ t <= 2 ^ 31.
Definition narrow_table (t : list (option cache_info)) : list (option cache_info) :=
  map (option_map (narrow_cache w)) t.

Lemma fill_w (l : list (Z * object_attribute)) s : attrs_fine l -> seg_ok attr_ok s ->
  fold_left (fun a kv => seg_insert_w w (fst kv) (snd kv) a) l (seg_map_w oid s) =
    seg_map_w oid (fold_left (fun a kv => seg_insert (fst kv) (snd kv) a) l s) /\
  seg_ok attr_ok (fold_left (fun a kv => seg_insert (fst kv) (snd kv) a) l s).
Proof.
  intros H. revert s. induction H as [|[k v] l [Hk Hv] _ IH]; intros s S; cbn [fold_left]; [auto|].
  cbn [fst snd] in *. change v with (oid v) at 1. rewrite (seg_insert_w_map oid attr_ok) by assumption.
  apply IH. now apply seg_insert_ok.
Qed.

Context (ho : hash_order) (Ho : hash_order_ok ho).

Lemma ho_forall {V} (Q : Z * V -> Prop) (m : amap V) : Forall Q m -> Forall Q (ho _ m).
Proof.
  intros H. apply Forall_forall. intros x Hx. rewrite Forall_forall in H. apply H.
  eapply Permutation_in; [apply Ho|exact Hx].
Qed.

Lemma cache_info_w attrs : attrs_fine attrs ->
  cache_info_of_w w ho attrs = narrow_cache w (cache_info_of ho attrs) /\ cache_fine (cache_info_of ho attrs).
Proof.
  intros H. unfold cache_info_of_w, cache_info_of, narrow_cache, cache_fine. cbn [ci_attributes ci_max_prop_id ci_prop_id_bits].
  destruct (fill_w (ho _ attrs) (seg_new 64) (ho_forall _ _ H)) as [E S].
  { apply seg_new_ok. lia. }
  rewrite seg_new_w in E. rewrite narrow_attributes_eq, <- E. split; [reflexivity|exact S].
Qed.

Lemma store_w : forall (l : list (Z * amap object_attribute)) v, Forall (fun kv => is_i32 (fst kv) /\ attrs_fine (snd kv)) l ->
  table_ok v ->
  store_caches_w w ho l (narrow_table v) =
    match store_caches ho l v with Ok t => Ok (narrow_table t) | Err e => Err e | Panic p => Panic p end /\
  match store_caches ho l v with Ok t => table_ok t | Err e => False | Panic p => True end.
Proof.
  induction l as [|[obj attrs] l IH]; intros v H [T1 T2]; cbn [store_caches_w store_caches].
  { repeat split; assumption. }
  inversion H as [|? ? [H1 H2] H3]; subst. cbn [fst snd] in *.
  destruct (cache_info_w attrs H2) as [E C]. rewrite E.
  rewrite (setZ_w w W) by (unfold narrow_table; rewrite ?lenZ_map; assumption).
  change (Some (narrow_cache w (cache_info_of ho attrs))) with (option_map (narrow_cache w) (Some (cache_info_of ho attrs))).
  unfold narrow_table at 1. rewrite map_setZ.
  destruct (setZ (as_usize obj) (Some (cache_info_of ho attrs)) v) as [v'|] eqn:S; cbn [option_map must obind]; [|auto].
  apply IH; [exact H3|]. split.
  - eapply setZ_forall; [|exact T1|exact S]. exact C.
  - erewrite setZ_len by exact S. exact T2.
Qed.

Lemma push_props_w_eq objects (L : lenZ objects <= 2 ^ 31) ps : Forall cache_prop_ok ps -> forall acc, attrs_fine acc ->
  push_props_w w objects ps acc = push_props objects ps acc /\
  match push_props objects ps acc with Ok l => attrs_fine l | Err e => forall f c, e <> NFrameError f c | Panic p => False end.
Proof.
  induction 1 as [|x ps [H1 H2] _ IH]; intros acc A; cbn [push_props_w push_props]; [auto|].
  unfold attr_of_prop_w, attr_of_prop. rewrite (getZ_w w W) by assumption.
  destruct (getZ (as_usize (cp_object_ind x)) objects); cbn [obind]; [|split; [reflexivity|discriminate]].
  apply IH. apply Forall_app. split; [exact A|]. constructor; [split; assumption|constructor].
Qed.

Definition net_props_ok (m : amap (list (Z * object_attribute))) : Prop := Forall (fun kv => attrs_fine (snd kv)) m.

Lemma build_w objects (L : lenZ objects <= 2 ^ 31) caches :
  Forall (fun c => is_i32 (nc_object_ind c) /\ Forall cache_prop_ok (nc_properties c)) caches ->
  forall m, net_props_ok m ->
  build_net_properties_w w objects caches m = build_net_properties objects caches m /\
  match build_net_properties objects caches m with
  | Ok m => net_props_ok m | Err e => forall f c, e <> NFrameError f c | Panic p => False end.
Proof.
  induction 1 as [|c caches [H1 H2] _ IH]; intros m M; cbn [build_net_properties_w build_net_properties]; [auto|].
  set (old := match map_get _ m with Some l => l | None => [] end).
  assert (A : attrs_fine old).
  { unfold old. destruct (map_get (nc_object_ind c) m) as [l|] eqn:E; [|constructor].
    destruct (map_get_forall _ _ _ _ M E) as [j Hj]. exact Hj. }
  destruct (push_props_w_eq objects L _ H2 old A) as [E P]. rewrite E.
  destruct (push_props objects (nc_properties c) old) as [l|e|p]; cbn [obind]; auto.
  apply IH. apply insert_forall; [exact P|exact M].
Qed.

Lemma index_i32 objects : forall i m, Forall (fun kv : str * Z => is_i32 (snd kv)) m ->
  Forall (fun kv => is_i32 (snd kv)) (index_from i objects m).
Proof.
  induction objects as [|n objects IH]; intros i m M; cbn [index_from]; [exact M|]. apply IH.
  unfold or_insert. destruct (str_assoc n m); [exact M|]. constructor; [apply as_i32_range|exact M].
Qed.

Lemma str_assoc_forall {V} (Q : V -> Prop) k v (m : list (str * V)) : Forall (fun kv => Q (snd kv)) m ->
  str_assoc k m = Some v -> Q v.
Proof.
  induction 1 as [|[i u] m Hi Hm IH]; cbn [str_assoc]; [discriminate|].
  destruct (str_eqb k i); [intros [= <-]; exact Hi|auto].
Qed.

Section Objects.
Context (objects : list str) (L : lenZ objects <= 2 ^ 31).
Let ix := object_index_new objects.

Lemma by_name_i32 name i : by_name ix name = Some i -> is_i32 i.
Proof. apply str_assoc_forall, index_i32. constructor. Qed.

Lemma hierarchy_i32 fuel : forall name ids, hierarchy_fuel fuel ix name = Some ids -> Forall is_i32 ids.
Proof.
  induction fuel as [|fuel IH]; intros name ids E; cbn [hierarchy_fuel] in E; [discriminate|].
  destruct (str_assoc (normalize_object name) PARENT_CLASSES) as [parent|]; [|injection E as <-; constructor].
  destruct (hierarchy_fuel fuel ix parent) as [l|] eqn:H; [|discriminate]. injection E as <-.
  apply IH in H. destruct (by_name ix name) eqn:N; [|exact H]. constructor; [|exact H]. eapply by_name_i32; eauto.
Qed.

Lemma seed_w : forall stats v, lenZ v <= 2 ^ 31 -> seed_spawns_w w ix stats v = seed_spawns ix stats v /\
  match seed_spawns ix stats v with Ok t => lenZ t <= 2 ^ 31 | Err e => False | Panic p => True end.
Proof.
  induction stats as [|[name sp] stats IH]; intros v H; cbn [seed_spawns_w seed_spawns]; [auto|].
  destruct (by_name ix name) as [id|] eqn:N; [|apply IH, H]. apply by_name_i32 in N.
  rewrite (setZ_w w W) by assumption.
  destruct (setZ (as_usize id) (Some sp) v) eqn:S; cbn [must obind]; [|auto].
  apply IH. erewrite setZ_len by exact S. exact H.
Qed.

Lemma walk_w v (H : lenZ v <= 2 ^ 31) ids : Forall is_i32 ids -> spawn_walk_w w v ids = spawn_walk v ids /\
  match spawn_walk v ids with Ok r => Forall is_i32 (snd r) | Err e => False | Panic p => True end.
Proof.
  induction 1 as [|id ids Hid Hids [IH1 IH2]]; cbn [spawn_walk_w spawn_walk]; [split; [reflexivity|constructor]|].
  rewrite (getZ_w w W) by assumption. destruct (getZ (as_usize id) v) as [[sp|]|]; cbn [must obind]; auto.
  - cbn. auto.
  - rewrite IH1. destruct (spawn_walk v ids); cbn [obind]; auto. split; [reflexivity|]. cbn [snd]. now constructor.
Qed.

Lemma fill_spawns_w_eq t ids : Forall is_i32 ids -> forall v, lenZ v <= 2 ^ 31 ->
  fill_spawns_w w t ids v = fill_spawns t ids v /\
  match fill_spawns t ids v with Ok u => lenZ u <= 2 ^ 31 | Err e => False | Panic p => True end.
Proof.
  induction 1 as [|id ids Hid Hids IH]; intros v H; cbn [fill_spawns_w fill_spawns]; [auto|].
  rewrite (setZ_w w W) by assumption.
  destruct (setZ (as_usize id) (Some t) v) eqn:S; cbn [must obind]; [|auto].
  apply IH. erewrite setZ_len by exact S. exact H.
Qed.

Lemma spread_w : forall objs v, lenZ v <= 2 ^ 31 -> spread_spawns_w w ix objs v = spread_spawns ix objs v /\
  match spread_spawns ix objs v with Ok u => lenZ u <= 2 ^ 31 | Err e => False | Panic p => True end.
Proof.
  induction objs as [|name objs IH]; intros v H; cbn [spread_spawns_w spread_spawns]; [auto|].
  destruct (hierarchy ix name) as [ids|] eqn:Hi; cbn [must obind]; [|auto].
  apply hierarchy_i32 in Hi. destruct (walk_w v H ids Hi) as [E1 R]. rewrite E1.
  destruct (spawn_walk v ids) as [r|e|p]; cbn [obind]; auto.
  destruct (fill_spawns_w_eq (fst r) (snd r) R v H) as [E2 R2]. rewrite E2.
  destruct (fill_spawns (fst r) (snd r) v); cbn [obind]; auto.
Qed.

Lemma spawns_w : compute_spawns_w w ix objects = compute_spawns ix objects /\
  match compute_spawns ix objects with Ok u => lenZ u <= 2 ^ 31 | Err e => False | Panic p => True end.
Proof.
  unfold compute_spawns_w, compute_spawns.
  destruct (seed_w SPAWN_STATS (repeat None (length objects))) as [E R].
  { unfold lenZ in *. now rewrite repeat_length. }
  rewrite E. destruct (seed_spawns ix SPAWN_STATS (repeat None (length objects))); cbn [obind]; auto.
  now apply spread_w.
Qed.

(** *** Attributes of objects *)

Definition known_ok (m : amap (amap object_attribute)) : Prop :=
  Forall (fun kv => is_i32 (fst kv) /\ attrs_fine (snd kv)) m.

Lemma extend_fine l m : attrs_fine l -> attrs_fine m -> attrs_fine (map_extend m l).
Proof.
  intros H. revert m. induction H as [|[k v] l Hk _ IH]; intros m M; cbn [map_extend fold_left]; [exact M|].
  apply IH. apply insert_forall; assumption.
Qed.

Lemma attrs_walk_ok known (K : known_ok known) ids : Forall is_i32 ids ->
  attrs_fine (fst (attrs_walk ho known ids)) /\ Forall is_i32 (snd (attrs_walk ho known ids)).
Proof.
  induction 1 as [|id ids Hid Hids IH]; cbn [attrs_walk]; [split; constructor|].
  destruct (map_get id known) as [attrs|] eqn:E.
  - destruct (map_get_forall _ _ _ _ K E) as [j [_ Hj]]. split; [apply ho_forall, Hj|constructor].
  - destruct (attrs_walk ho known ids) as [acc stack]. cbn [fst snd] in *. destruct IH. split; [assumption|now constructor].
Qed.

Lemma attrs_fill_ok np (N : net_props_ok np) stack : Forall is_i32 stack -> forall acc known,
  attrs_fine acc -> known_ok known -> known_ok (attrs_fill np stack acc known).
Proof.
  induction 1 as [|id stack Hid _ IH]; intros acc known A K; cbn [attrs_fill]; [exact K|].
  assert (A' : attrs_fine (acc ++ match map_get id np with Some l => l | None => [] end)).
  { apply Forall_app. split; [exact A|]. destruct (map_get id np) as [l|] eqn:E; [|constructor].
    destruct (map_get_forall _ _ _ _ N E) as [j Hj]. exact Hj. }
  apply IH; [exact A'|]. apply insert_forall; [|exact K]. split; [exact Hid|].
  apply extend_fine; [exact A'|constructor].
Qed.

Lemma traverse_ok np (N : net_props_ok np) : forall objs known, known_ok known ->
  match traverse_all ho ix np objs known with Ok k => known_ok k | Err e => False | Panic p => True end.
Proof.
  induction objs as [|name objs IH]; intros known K; cbn [traverse_all]; [exact K|].
  unfold net_traversal. destruct (hierarchy ix name) as [ids|] eqn:Hi; cbn [must obind]; [|exact Logic.I].
  apply hierarchy_i32 in Hi. destruct (attrs_walk_ok known K ids Hi) as [A S].
  destruct (attrs_walk ho known ids) as [acc stack]. cbn [fst snd] in *. cbn [obind]. apply IH.
  apply attrs_fill_ok; auto. now apply Forall_rev.
Qed.

Lemma caches_w net_cache :
  Forall (fun c => is_i32 (nc_object_ind c) /\ Forall cache_prop_ok (nc_properties c)) net_cache ->
  compute_caches_w w ho ix objects net_cache =
    match compute_caches ho ix objects net_cache with
    | Ok t => Ok (narrow_table t) | Err e => Err e | Panic p => Panic p end /\
  match compute_caches ho ix objects net_cache with
  | Ok t => table_ok t | Err e => forall f c, e <> NFrameError f c | Panic p => True end.
Proof.
  intros H. unfold compute_caches_w, compute_caches.
  destruct (build_w objects L net_cache H []) as [E B]; [constructor|]. rewrite E.
  destruct (build_net_properties objects net_cache []) as [np|e|p]; cbn [obind]; auto.
  pose proof (traverse_ok np B objects [] (Forall_nil _)) as T.
  destruct (traverse_all ho ix np objects []) as [k|e|p]; cbn [obind]; auto; try contradiction.
  assert (T0 : table_ok (repeat None (length objects))).
  { split; [|unfold lenZ in *; now rewrite repeat_length].
    apply Forall_forall. intros x Hx. apply repeat_spec in Hx. subst. exact Logic.I. }
  destruct (store_w (ho _ k) (repeat None (length objects))) as [E2 S]; [apply ho_forall, T|exact T0|].
  assert (E3 : narrow_table (repeat None (length objects)) = repeat None (length objects)).
  { unfold narrow_table. generalize (length objects). intros n. induction n; cbn [repeat map option_map]; congruence. }
  rewrite E3 in E2. rewrite E2. split; [reflexivity|].
  destruct (store_caches ho (ho _ k) (repeat None (length objects))); auto; contradiction.
Qed.

End Objects.

End Width.
