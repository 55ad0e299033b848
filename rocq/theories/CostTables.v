(** * The tables of network/mod.rs with their operations counted

    The functions of Network.v that build the two tables, once more with a count beside
    the outcome.  One is counted for each object entered in the index, for each name
    looked up on the way up the classes, for each cell of a vector set, for each class
    and each property of the net cache, and for each attribute copied, inserted or
    looked at for the largest key.  An operation on a hash map is one operation, a
    pass over it one for each entry. *)

From Coq Require Import ZArith List Bool.
From Verif Require Import Base NetTypes SegArray Errors Header Body NetModels Data ObjectIndex Network.
Open Scope Z_scope.

(** an outcome and a count; there is no such thing in the code, network/mod.rs:42-154 *)
Definition tally (A : Type) : Type := outcome network_error A * Z.
(** [?], counting on, network/mod.rs:97, 152 *)
Definition tbind {A C} (m : tally A) (k : A -> tally C) : tally C :=
  match fst m with
  | Ok a => let r := k a in (fst r, snd m + snd r)
  | Err e => (Err e, snd m)
  | Panic p => (Panic p, snd m)
  end.

(** Names looked up by the iterator until it yields an id that ends the loop of its
    caller, or to the top: network/object_index.rs:42-54, run by network/mod.rs:65-73
    and 205-213. *)
Fixpoint climb (fuel : nat) (ix : object_index) (known : Z -> bool) (name : str) : Z :=
  match fuel with
  | O => 0
  | S f =>
      1 + match str_assoc (normalize_object name) PARENT_CLASSES with
          | None => 0
          | Some parent =>
              match by_name ix name with
              | Some id => if known id then 0 else climb f ix known parent
              | None => climb f ix known parent
              end
          end
  end.
(** with the fuel of [hierarchy], network/object_index.rs:32-34 *)
Definition climbed (ix : object_index) (known : Z -> bool) (name : str) : Z :=
  climb (S (S (length PARENT_CLASSES))) ix known name.

(** whether the cell of an object is set, network/mod.rs:66 *)
Definition spawn_set (spawns : spawn_vec) (id : Z) : bool :=
  match getZ (as_usize id) spawns with Some (Some _) => true | _ => false end.

(** network/mod.rs:63-78 *)
Fixpoint spread_spawns_c (ix : object_index) (objects : list str) (spawns : spawn_vec) : tally spawn_vec :=
  match objects with
  | [] => (Ok spawns, 0)
  | name :: t =>
      tbind (must PanicFuel (hierarchy ix name), climbed ix (spawn_set spawns) name) (fun ids =>
      tbind (spawn_walk spawns ids, 0) (fun r =>
      tbind (fill_spawns (fst r) (snd r) spawns, lenZ (snd r)) (fun spawns' =>
      spread_spawns_c ix t spawns')))
  end.

(** network/mod.rs:51-78; the vector of [None]s, the eleven classes, the objects *)
Definition compute_spawns_c (ix : object_index) (objects : list str) : tally spawn_vec :=
  tbind (seed_spawns ix SPAWN_STATS (repeat None (length objects)), lenZ objects + lenZ SPAWN_STATS) (fun seeded =>
  spread_spawns_c ix objects seeded).

(** network/mod.rs:87-106 *)
Fixpoint push_props_c (objects : list str) (ps : list cache_prop) (acc : list (Z * object_attribute))
  : tally (list (Z * object_attribute)) :=
  match ps with
  | [] => (Ok acc, 0)
  | x :: t => tbind (attr_of_prop objects x, 1) (fun a => push_props_c objects t (acc ++ [a]))
  end.

(** network/mod.rs:82-107 *)
Fixpoint build_net_properties_c (objects : list str) (caches : list class_net_cache)
    (m : amap (list (Z * object_attribute))) : tally (amap (list (Z * object_attribute))) :=
  match caches with
  | [] => (Ok m, 0)
  | c :: t =>
      let key := nc_object_ind c in
      let old := match map_get key m with Some l => l | None => [] end in
      tbind (Ok tt, 1) (fun _ =>
      tbind (push_props_c objects (nc_properties c) old) (fun new =>
      build_net_properties_c objects t (map_insert key new m)))
  end.

Section AttrsC.
Context (ho : hash_order).

(** whether the attributes of an object are known, network/mod.rs:206 *)
Definition attrs_set (known : amap (amap object_attribute)) (id : Z) : bool :=
  match map_get id known with Some _ => true | None => false end.

(** network/mod.rs:215-222: the attributes of the class are appended, all go into the
    map, the map is copied and inserted *)
Fixpoint attrs_fill_c (net_properties : amap (list (Z * object_attribute))) (stack : list Z)
    (acc : list (Z * object_attribute)) (known : amap (amap object_attribute))
  : amap (amap object_attribute) * Z :=
  match stack with
  | [] => (known, 0)
  | id :: t =>
      let own := match map_get id net_properties with Some l => l | None => [] end in
      let acc' := acc ++ own in
      let m := map_extend [] acc' in
      let r := attrs_fill_c net_properties t acc' (map_insert id m known) in
      (fst r, lenZ own + lenZ acc' + lenZ m + 1 + snd r)
  end.

(** network/mod.rs:196-223 *)
Definition net_traversal_c (ix : object_index) (net_properties : amap (list (Z * object_attribute)))
    (name : str) (known : amap (amap object_attribute)) : tally (amap (amap object_attribute)) :=
  tbind (must PanicFuel (hierarchy ix name), climbed ix (attrs_set known) name) (fun ids =>
  let '(acc, stack) := attrs_walk ho known ids in
  let r := attrs_fill_c net_properties (rev stack) acc known in
  (Ok (fst r), lenZ acc + snd r)).

(** network/mod.rs:113-122 *)
Fixpoint traverse_all_c (ix : object_index) (net_properties : amap (list (Z * object_attribute)))
    (objects : list str) (known : amap (amap object_attribute)) : tally (amap (amap object_attribute)) :=
  match objects with
  | [] => (Ok known, 0)
  | name :: t =>
      tbind (net_traversal_c ix net_properties name known) (fun known' =>
      traverse_all_c ix net_properties t known')
  end.

(** network/mod.rs:127-154: the attributes are gone through for the largest key and
    again to be inserted *)
Fixpoint store_caches_c (l : list (Z * amap object_attribute)) (v : list (option cache_info))
  : tally (list (option cache_info)) :=
  match l with
  | [] => (Ok v, 0)
  | (obj, attrs) :: t =>
      tbind (must PanicIndex (setZ (as_usize obj) (Some (cache_info_of ho attrs)) v), 1 + 2 * lenZ attrs) (fun v' =>
      store_caches_c t v')
  end.

(** network/mod.rs:80-154 *)
Definition compute_caches_c (ix : object_index) (objects : list str) (net_cache : list class_net_cache)
  : tally (list (option cache_info)) :=
  tbind (build_net_properties_c objects net_cache []) (fun net_properties =>
  tbind (traverse_all_c ix net_properties objects []) (fun object_ind_attrs =>
  tbind (Ok tt, lenZ objects) (fun _ =>
  store_caches_c (ho _ object_ind_attrs) (repeat None (length objects))))).

(** both tables, network/mod.rs:49-154: the index, then the tables *)
Definition tables_c (b : body) : tally (spawn_vec * list (option cache_info)) :=
  let objects := b_objects b in
  let ix := object_index_new objects in
  tbind (Ok tt, lenZ objects) (fun _ =>
  tbind (compute_spawns_c ix objects) (fun spawns =>
  tbind (compute_caches_c ix objects (b_net_cache b)) (fun caches =>
  (Ok (spawns, caches), 0)))).

End AttrsC.
