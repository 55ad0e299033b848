(** * The network data with other tables

    The functions of ObjectIndex.v, Network.v and Parser.v that use the three static tables
    of data.rs, with the tables as an argument.  [C95_model] says that
    with the tables of the library they are the functions of the model. *)

From Coq Require Import ZArith List Bool.
From Verif Require Import Base F32 Crc NetTypes SegArray Errors Core Header Body BitReader
  NetModels Attributes Data ObjectIndex FrameDecoder Network Parser.
Open Scope Z_scope.

(** data.rs:3 ([SPAWN_STATS]), 21 ([ATTRIBUTES]), 324 ([PARENT_CLASSES]) *)
Record tables := mkTables {
  tb_parents : list (str * str);
  tb_spawns : list (str * spawn_trajectory);
  tb_attributes : list (str * attribute_tag) }.

(** data.rs:3, 21, 324 *)
Definition shipped : tables := mkTables PARENT_CLASSES SPAWN_STATS ATTRIBUTES.

Section Added.
Context (T : tables).

(** object_index.rs:32-34 and 42-54, as [hierarchy_fuel] *)
Fixpoint hierarchy_fuel_t (fuel : nat) (ix : object_index) (name : str) : option (list Z) :=
  match fuel with
  | O => None
  | S fuel' =>
      match str_assoc (normalize_object name) (tb_parents T) with
      | None => Some []
      | Some parent =>
          match hierarchy_fuel_t fuel' ix parent with
          | None => None
          | Some ids =>
              Some (match by_name ix name with
                    | Some id => id :: ids
                    | None => ids
                    end)
          end
      end
  end.

(** network/object_index.rs:32-34 *)
Definition hierarchy_t (ix : object_index) (name : str) : option (list Z) :=
  hierarchy_fuel_t (S (S (length (tb_parents T)))) ix name.

(** mod.rs:63-78 *)
Fixpoint spread_spawns_t (ix : object_index) (objects : list str) (spawns : spawn_vec)
  : outcome network_error spawn_vec :=
  match objects with
  | [] => Ok spawns
  | name :: t =>
      let? ids := must PanicFuel (hierarchy_t ix name) in
      let? r := spawn_walk spawns ids in
      let? spawns' := fill_spawns (fst r) (snd r) spawns in
      spread_spawns_t ix t spawns'
  end.

(** mod.rs:51-78 *)
Definition compute_spawns_t (ix : object_index) (objects : list str) : outcome network_error spawn_vec :=
  let? seeded := seed_spawns ix (tb_spawns T) (repeat None (length objects)) in
  spread_spawns_t ix objects seeded.

(** mod.rs:87-97 *)
Definition attr_of_prop_t (objects : list str) (x : cache_prop) : outcome network_error (Z * object_attribute) :=
  match getZ (as_usize (cp_object_ind x)) objects with
  | None => Err (NStreamTooLargeIndex (cp_stream_id x) (cp_object_ind x))
  | Some name =>
      let tag := match str_assoc name (tb_attributes T) with Some t => t | None => TNotImplemented end in
      Ok (cp_stream_id x, mkObjAttr tag (cp_object_ind x))
  end.

(** mod.rs:87-106 *)
Fixpoint push_props_t (objects : list str) (ps : list cache_prop) (acc : list (Z * object_attribute))
  : outcome network_error (list (Z * object_attribute)) :=
  match ps with
  | [] => Ok acc
  | x :: t =>
      let? a := attr_of_prop_t objects x in
      push_props_t objects t (acc ++ [a])
  end.

(** mod.rs:82-107 *)
Fixpoint build_net_properties_t (objects : list str) (caches : list class_net_cache)
    (m : amap (list (Z * object_attribute)))
  : outcome network_error (amap (list (Z * object_attribute))) :=
  match caches with
  | [] => Ok m
  | c :: t =>
      let key := nc_object_ind c in
      let old := match map_get key m with Some l => l | None => [] end in
      let? new := push_props_t objects (nc_properties c) old in
      build_net_properties_t objects t (map_insert key new m)
  end.

Context (ho : hash_order).

(** mod.rs:196-223 *)
Definition net_traversal_t (ix : object_index) (net_properties : amap (list (Z * object_attribute)))
    (name : str) (known : amap (amap object_attribute))
  : outcome network_error (amap (amap object_attribute)) :=
  let? ids := must PanicFuel (hierarchy_t ix name) in
  let '(acc, stack) := attrs_walk ho known ids in
  Ok (attrs_fill net_properties (rev stack) acc known).

(** mod.rs:113-122 *)
Fixpoint traverse_all_t (ix : object_index) (net_properties : amap (list (Z * object_attribute)))
    (objects : list str) (known : amap (amap object_attribute))
  : outcome network_error (amap (amap object_attribute)) :=
  match objects with
  | [] => Ok known
  | name :: t =>
      let? known' := net_traversal_t ix net_properties name known in
      traverse_all_t ix net_properties t known'
  end.

(** mod.rs:80-154 *)
Definition compute_caches_t (ix : object_index) (objects : list str) (net_cache : list class_net_cache)
  : outcome network_error (list (option cache_info)) :=
  let? net_properties := build_net_properties_t objects net_cache [] in
  let? object_ind_attrs := traverse_all_t ix net_properties objects [] in
  store_caches ho (ho _ object_ind_attrs) (repeat None (length objects)).

Context (B : bitter).

(** mod.rs:42-194 *)
Definition network_parse_frames_t (h : header) (b : body) : outcome network_error (list frame) :=
  let version := version_of h in
  let ix := object_index_new (b_objects b) in
  let? spawns := compute_spawns_t ix (b_objects b) in
  let? object_ind_attributes := compute_caches_t ix (b_objects b) (b_net_cache b) in
  let product_decoder := product_decoder_create version ix in
  match num_frames h with
  | Some frame_len =>
      if lenZ (b_network_data b) <? as_usize frame_len then Err (NTooManyFrames frame_len)
      else
        decode_frames B ho
          (mkFrameDecoder (as_usize frame_len) product_decoder (max_channels_of h)
             (channel_bits_of h) (b_objects b) (b_network_data b)
             (map (fun x => match x with Some s => s | None => SpNone end) spawns)
             object_ind_attributes version (is_lan_of h) (is_rl_223_of h))
  | None => Ok []
  end.

(** parser.rs:379-389 and 415-421 *)
Definition parse_network_t (np : network_parse) (h : header) (b : body) : parser (option (list frame)) :=
  fun s =>
    match np with
    | NetAlways =>
        match network_parse_frames_t h b with
        | Ok fs => (Ok (Some fs), s)
        | Err e => (Err (ENetworkError e), s)
        | Panic p => (Panic p, s)
        end
    | NetIgnoreOnError =>
        match network_parse_frames_t h b with
        | Ok fs => (Ok (Some fs), s)
        | Err _ => (Ok None, s)
        | Panic p => (Panic p, s)
        end
    | NetNever => (Ok None, s)
    end.

(** parser.rs:361-413 *)
Definition parse_replay_t (check : crc_check) (np : network_parse) : parser replay :=
  let* header_size := take_i32 "header size" in
  let* header_crc := take_u32 "header crc" in
  let* header_data := in_section "header data" (view_data (as_usize header_size)) in
  let* h := crc_section check header_data header_crc "header" parse_header in
  let* content_size := take_i32 "content size" in
  let* content_crc := take_u32 "content crc" in
  let* content_data := in_section "content data" (view_data (as_usize content_size)) in
  let* b := crc_section check content_data content_crc "body" parse_body in
  let* network := parse_network_t np h b in
  ret (mkReplay header_size header_crc (h_major h) (h_minor h) (h_net h) (h_game_type h)
         (h_properties h) content_size content_crc network (b_levels b) (b_keyframes b)
         (b_debug_info b) (b_tick_marks b) (b_packages b) (b_objects b) (b_names b)
         (b_class_indices b) (b_net_cache b)).

(** parser.rs:319-326 and 352-358 *)
Definition parse_with_t (c : crc_check) (n : network_parse) (data : list byte) : outcome parse_error replay :=
  fst (parse_replay_t c n (core_new data)).

End Added.
