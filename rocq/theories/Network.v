(** * Network data: model of /repo/src/network/mod.rs *)

From Coq Require Import ZArith List Bool.
From Verif Require Import Base F32 NetTypes SegArray Errors Header Body BitReader
  NetModels Attributes Data ObjectIndex FrameDecoder.
Open Scope Z_scope.

(** [?] on a [Result] without state, network/mod.rs:97, 152 *)
Definition obind {E A C} (m : outcome E A) (k : A -> outcome E C) : outcome E C :=
  match m with Ok a => k a | Err e => Err e | Panic p => Panic p end.
(** [let x = m?;], network/mod.rs:152 *)
Notation "'let?' x ':=' m 'in' k" := (obind m (fun x => k))
  (at level 61, x name, m at next level, right associativity).

(** A value whose absence is a panic. Indexing at network/mod.rs:59, 66, 76, 153. *)
Definition must {E A} (p : panic) (o : option A) : outcome E A :=
  match o with Some a => Ok a | None => Panic p end.

(** ** Spawn table, mod.rs:51-78 *)

(** mod.rs:53 *)
Definition spawn_vec : Type := list (option spawn_trajectory).

(** mod.rs:54-60 *)
Fixpoint seed_spawns (ix : object_index) (stats : list (str * spawn_trajectory)) (spawns : spawn_vec)
  : outcome network_error spawn_vec :=
  match stats with
  | [] => Ok spawns
  | (name, sp) :: t =>
      match by_name ix name with
      | None => seed_spawns ix t spawns
      | Some id =>
          let? spawns' := must PanicIndex (setZ (as_usize id) (Some sp) spawns) in
          seed_spawns ix t spawns'
      end
  end.

(** mod.rs:65-73: the walk up the hierarchy; returns the trajectory found (or
    [SpNone]) and the ids pushed on [parent_stack] *)
Fixpoint spawn_walk (spawns : spawn_vec) (ids : list Z)
  : outcome network_error (spawn_trajectory * list Z) :=
  match ids with
  | [] => Ok (SpNone, [])
  | id :: t =>
      let? cell := must PanicIndex (getZ (as_usize id) spawns) in
      match cell with
      | Some sp => Ok (sp, [])
      | None =>
          let? r := spawn_walk spawns t in
          Ok (fst r, id :: snd r)
      end
  end.

(** mod.rs:75-77 *)
Fixpoint fill_spawns (result : spawn_trajectory) (stack : list Z) (spawns : spawn_vec)
  : outcome network_error spawn_vec :=
  match stack with
  | [] => Ok spawns
  | id :: t =>
      let? spawns' := must PanicIndex (setZ (as_usize id) (Some result) spawns) in
      fill_spawns result t spawns'
  end.

(** mod.rs:63-78 *)
Fixpoint spread_spawns (ix : object_index) (objects : list str) (spawns : spawn_vec)
  : outcome network_error spawn_vec :=
  match objects with
  | [] => Ok spawns
  | name :: t =>
      let? ids := must PanicFuel (hierarchy ix name) in
      let? r := spawn_walk spawns ids in
      let? spawns' := fill_spawns (fst r) (snd r) spawns in
      spread_spawns ix t spawns'
  end.

(** mod.rs:51-78 *)
Definition compute_spawns (ix : object_index) (objects : list str) : outcome network_error spawn_vec :=
  let? seeded := seed_spawns ix SPAWN_STATS (repeat None (length objects)) in
  spread_spawns ix objects seeded.

(** ** Attribute tables, mod.rs:80-154 and 196-223 *)

(** mod.rs:87-97 *)
Definition attr_of_prop (objects : list str) (x : cache_prop) : outcome network_error (Z * object_attribute) :=
  match getZ (as_usize (cp_object_ind x)) objects with
  | None => Err (NStreamTooLargeIndex (cp_stream_id x) (cp_object_ind x))
  | Some name =>
      let tag := match str_assoc name ATTRIBUTES with Some t => t | None => TNotImplemented end in
      Ok (cp_stream_id x, mkObjAttr tag (cp_object_ind x))
  end.

(** mod.rs:87-106: the inner loop, pushing on [properties] *)
Fixpoint push_props (objects : list str) (ps : list cache_prop) (acc : list (Z * object_attribute))
  : outcome network_error (list (Z * object_attribute)) :=
  match ps with
  | [] => Ok acc
  | x :: t =>
      let? a := attr_of_prop objects x in
      push_props objects t (acc ++ [a])
  end.

(** mod.rs:82-107: [entry(key).or_default()] then pushes *)
Fixpoint build_net_properties (objects : list str) (caches : list class_net_cache)
    (m : amap (list (Z * object_attribute)))
  : outcome network_error (amap (list (Z * object_attribute))) :=
  match caches with
  | [] => Ok m
  | c :: t =>
      let key := nc_object_ind c in
      let old := match map_get key m with Some l => l | None => [] end in
      let? new := push_props objects (nc_properties c) old in
      build_net_properties objects t (map_insert key new m)
  end.

Section Attrs.
Context (ho : hash_order).

(** mod.rs:205-213: walk up until an object whose attributes are known; returns
    [acc_attrs] and [parent_stack] *)
Fixpoint attrs_walk (known : amap (amap object_attribute)) (ids : list Z)
  : list (Z * object_attribute) * list Z :=
  match ids with
  | [] => ([], [])
  | id :: t =>
      match map_get id known with
      | Some attrs => (ho _ attrs, [])
      | None => let '(acc, stack) := attrs_walk known t in (acc, id :: stack)
      end
  end.

(** mod.rs:215-222; [stack] is already reversed *)
Fixpoint attrs_fill (net_properties : amap (list (Z * object_attribute))) (stack : list Z)
    (acc : list (Z * object_attribute)) (known : amap (amap object_attribute))
  : amap (amap object_attribute) :=
  match stack with
  | [] => known
  | id :: t =>
      let acc' := acc ++ match map_get id net_properties with Some l => l | None => [] end in
      attrs_fill net_properties t acc' (map_insert id (map_extend [] acc') known)
  end.

(** mod.rs:196-223 *)
Definition net_traversal (ix : object_index) (net_properties : amap (list (Z * object_attribute)))
    (name : str) (known : amap (amap object_attribute))
  : outcome network_error (amap (amap object_attribute)) :=
  let? ids := must PanicFuel (hierarchy ix name) in
  let '(acc, stack) := attrs_walk known ids in
  Ok (attrs_fill net_properties (rev stack) acc known).

(** mod.rs:113-122 *)
Fixpoint traverse_all (ix : object_index) (net_properties : amap (list (Z * object_attribute)))
    (objects : list str) (known : amap (amap object_attribute))
  : outcome network_error (amap (amap object_attribute)) :=
  match objects with
  | [] => Ok known
  | name :: t =>
      let? known' := net_traversal ix net_properties name known in
      traverse_all ix net_properties t known'
  end.

(** [Iterator::max] over the keys, mod.rs:130-133 *)
Definition max_key {V} (l : list (Z * V)) : option Z :=
  fold_left (fun m kv => match m with
                         | None => Some (fst kv)
                         | Some x => Some (Z.max x (fst kv))
                         end) l None.

(** [i32::saturating_add(1)], mod.rs:135 *)
Definition saturating_succ (x : Z) : Z := if x =? 2 ^ 31 - 1 then x else x + 1.

(** mod.rs:128-147: the closure building a [CacheInfo] *)
Definition cache_info_of (attrs : amap object_attribute) : cache_info :=
  let max := saturating_succ (match max_key (ho _ attrs) with Some x => x | None => 2 end) in
  let attributes :=
    fold_left (fun a kv => seg_insert (fst kv) (snd kv) a) (ho _ attrs) (seg_new 64) in
  let max_bit_width := bit_width (as_u64 max) in
  mkCache (as_u32 max) (Z.max max_bit_width 1 - 1) attributes.

(** mod.rs:151-154 *)
Fixpoint store_caches (l : list (Z * amap object_attribute)) (v : list (option cache_info))
  : outcome network_error (list (option cache_info)) :=
  match l with
  | [] => Ok v
  | (obj, attrs) :: t =>
      let? v' := must PanicIndex (setZ (as_usize obj) (Some (cache_info_of attrs)) v) in
      store_caches t v'
  end.

(** mod.rs:80-154 *)
Definition compute_caches (ix : object_index) (objects : list str) (net_cache : list class_net_cache)
  : outcome network_error (list (option cache_info)) :=
  let? net_properties := build_net_properties objects net_cache [] in
  let? object_ind_attrs := traverse_all ix net_properties objects [] in
  store_caches (ho _ object_ind_attrs) (repeat None (length objects)).

End Attrs.

(** attributes.rs:458-483; [unwrap_or_default] of an [ObjectId] is 0 *)
Definition product_decoder_create (v : version) (ix : object_index) : product_value_decoder :=
  let ind name := match by_name ix (lit name) with Some i => i | None => 0 end in
  mkProductDecoder v
    (ind "TAGame.ProductAttribute_UserColor_TA"%string)
    (ind "TAGame.ProductAttribute_Painted_TA"%string)
    (ind "TAGame.ProductAttribute_SpecialEdition_TA"%string)
    (ind "TAGame.ProductAttribute_TeamEdition_TA"%string)
    (ind "TAGame.ProductAttribute_TitleID_TA"%string).

(** mod.rs:43-47 *)
Definition version_of (h : header) : version :=
  mkVersion (h_major h) (h_minor h) (match h_net h with Some n => n | None => 0 end).

(** mod.rs:159 *)
Definition max_channels_of (h : header) : Z :=
  as_u32 (match max_channels h with Some x => x | None => 1023 end).
(** mod.rs:160-161; [saturating_sub(1)] *)
Definition channel_bits_of (h : header) : Z := Z.max (bit_width (max_channels_of h) - 1) 0.
(** mod.rs:163 *)
Definition is_lan_of (h : header) : bool :=
  match match_type h with Some x => str_eqb x (lit "Lan") | None => false end.
(** mod.rs:164 *)
Definition is_rl_223_of (h : header) : bool :=
  match build_version h with Some x => str_geb x (lit "221120.42953.406184") | None => false end.

(** mod.rs:42-194 *)
Definition network_parse_frames (B : bitter) (ho : hash_order) (h : header) (b : body)
  : outcome network_error (list frame) :=
  let version := version_of h in
  let ix := object_index_new (b_objects b) in
  let? spawns := compute_spawns ix (b_objects b) in
  let? object_ind_attributes := compute_caches ho ix (b_objects b) (b_net_cache b) in
  let product_decoder := product_decoder_create version ix in
  match num_frames h with
  | Some frame_len =>
      if lenZ (b_network_data b) <? as_usize frame_len then Err (NTooManyFrames frame_len)
      else
        decode_frames B ho
          (mkFrameDecoder (as_usize frame_len) product_decoder (max_channels_of h)
             (channel_bits_of h) (b_objects b) (b_network_data b)
             (map (fun x => match x with Some s => s | None => SpNone end) spawns)
             object_ind_attributes version (is_lan_of h) (is_rl_223_of h))
  | None => Ok []
  end.
