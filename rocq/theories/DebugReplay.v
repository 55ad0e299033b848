(** * Model: [Debug] of the types of /repo/src/models.rs

    What [#[derive(Debug)]] does; a pair is shown as a tuple without a name. *)

From Coq Require Import ZArith List.
From Verif Require Import Base F32 NetTypes Json Header Body Parser Debug DebugNet.

(** models.rs:81-98 *)
Fixpoint dbg_header_prop (p : header_prop) : dbg :=
  let pairs (l : list (str * header_prop)) :=
    DList (map (fun kv => match kv with (k, v) => DTuple [] [DStr k; dbg_header_prop v] end) l) in
  match p with
  | HArray rows => DTuple (lit "Array") [DList (map pairs rows)]
  | HStruct name fields => DStruct (lit "Struct") [(lit "name", DStr name); (lit "fields", pairs fields)]
  | HBool b => DTuple (lit "Bool") [DBool b]
  | HByte kind value => DStruct (lit "Byte") [(lit "kind", DStr kind); (lit "value", dbg_opt DStr value)]
  | HFloat x => DTuple (lit "Float") [DF32 x]
  | HInt x => DTuple (lit "Int") [DInt x]
  | HQWord x => DTuple (lit "QWord") [DInt x]
  | HName s => DTuple (lit "Name") [DStr s]
  | HStr s => DTuple (lit "Str") [DStr s]
  end.

(** models.rs:30, a list of pairs *)
Definition dbg_props (l : props) : dbg :=
  DList (map (fun kv => match kv with (k, v) => DTuple [] [DStr k; dbg_header_prop v] end) l).

(** models.rs:66-71 *)
Definition dbg_key_frame (k : key_frame) : dbg :=
  DStruct (lit "KeyFrame") [(lit "time", DF32 (kf_time k)); (lit "frame", DInt (kf_frame k)); (lit "position", DInt (kf_position k))].
(** models.rs:55-59 *)
Definition dbg_tick_mark (t : tick_mark) : dbg :=
  DStruct (lit "TickMark") [(lit "description", DStr (tm_description t)); (lit "frame", DInt (tm_frame t))].
(** models.rs:224-229 *)
Definition dbg_debug_info (d : debug_info) : dbg :=
  DStruct (lit "DebugInfo") [(lit "frame", DInt (di_frame d)); (lit "user", DStr (di_user d)); (lit "text", DStr (di_text d))].
(** models.rs:232-239 *)
Definition dbg_class_index (c : class_index) : dbg :=
  DStruct (lit "ClassIndex") [(lit "class", DStr (cx_class c)); (lit "index", DInt (cx_index c))].
(** models.rs:243-251 *)
Definition dbg_cache_prop (c : cache_prop) : dbg :=
  DStruct (lit "CacheProp") [(lit "object_ind", DInt (cp_object_ind c)); (lit "stream_id", DInt (cp_stream_id c))].
(** models.rs:254-267 *)
Definition dbg_class_net_cache (c : class_net_cache) : dbg :=
  DStruct (lit "ClassNetCache") [(lit "object_ind", DInt (nc_object_ind c)); (lit "parent_id", DInt (nc_parent_id c));
    (lit "cache_id", DInt (nc_cache_id c)); (lit "properties", dbg_vec dbg_cache_prop (nc_properties c))].
(** models.rs:46-49 *)
Definition dbg_network_frames (fs : list frame) : dbg := DStruct (lit "NetworkFrames") [(lit "frames", dbg_vec dbg_frame fs)].

(** models.rs:18-43 *)
Definition dbg_replay (r : replay) : dbg :=
  DStruct (lit "Replay") [
    (lit "header_size", DInt (r_header_size r));
    (lit "header_crc", DInt (r_header_crc r));
    (lit "major_version", DInt (r_major_version r));
    (lit "minor_version", DInt (r_minor_version r));
    (lit "net_version", dbg_opt DInt (r_net_version r));
    (lit "game_type", DStr (r_game_type r));
    (lit "properties", dbg_props (r_properties r));
    (lit "content_size", DInt (r_content_size r));
    (lit "content_crc", DInt (r_content_crc r));
    (lit "network_frames", dbg_opt dbg_network_frames (r_network_frames r));
    (lit "levels", dbg_vec DStr (r_levels r));
    (lit "keyframes", dbg_vec dbg_key_frame (r_keyframes r));
    (lit "debug_info", dbg_vec dbg_debug_info (r_debug_info r));
    (lit "tick_marks", dbg_vec dbg_tick_mark (r_tick_marks r));
    (lit "packages", dbg_vec DStr (r_packages r));
    (lit "objects", dbg_vec DStr (r_objects r));
    (lit "names", dbg_vec DStr (r_names r));
    (lit "class_indices", dbg_vec dbg_class_index (r_class_indices r));
    (lit "net_cache", dbg_vec dbg_class_net_cache (r_net_cache r))].
