(** * serde code of the top-level types: model of the [Serialize]
    implementations of /repo/src/models.rs *)

From Coq Require Import ZArith List.
From Verif Require Import Base F32 NetTypes Json JsonNet Header Body Parser.

(** models.rs:275-287 and 293-333 *)
Fixpoint ser_header_prop (p : header_prop) : json :=
  let pair_vec (l : list (str * header_prop)) :=
    JObj (map (fun kv => match kv with (k, v) => (k, ser_header_prop v) end) l) in
  match p with
  | HArray rows => JArr (map pair_vec rows)
  | HStruct name fields => JObj [(lit "name", JStr name); (lit "fields", pair_vec fields)]
  | HBool b => JBool b
  | HByte kind value => JObj [(lit "kind", JStr kind); (lit "value", ser_opt ser_str value)]
  | HFloat x => ser_f32 x
  | HInt x => ser_i32 x
  | HQWord x => ser_u64s x
  | HName s => JStr s
  | HStr s => JStr s
  end.

(** models.rs:275-287 at the top level *)
Definition ser_props (l : props) : json :=
  JObj (map (fun kv => match kv with (k, v) => (k, ser_header_prop v) end) l).

(** models.rs:66-71 *)
Definition ser_key_frame (k : key_frame) : json :=
  JObj [(lit "time", ser_f32 (kf_time k)); (lit "frame", ser_i32 (kf_frame k));
        (lit "position", ser_i32 (kf_position k))].
(** models.rs:55-59 *)
Definition ser_tick_mark (t : tick_mark) : json :=
  JObj [(lit "description", ser_str (tm_description t)); (lit "frame", ser_i32 (tm_frame t))].
(** models.rs:224-229 *)
Definition ser_debug_info (d : debug_info) : json :=
  JObj [(lit "frame", ser_i32 (di_frame d)); (lit "user", ser_str (di_user d));
        (lit "text", ser_str (di_text d))].
(** models.rs:232-239 *)
Definition ser_class_index (c : class_index) : json :=
  JObj [(lit "class", ser_str (cx_class c)); (lit "index", ser_i32 (cx_index c))].
(** models.rs:243-251 *)
Definition ser_cache_prop (c : cache_prop) : json :=
  JObj [(lit "object_ind", ser_i32 (cp_object_ind c)); (lit "stream_id", ser_i32 (cp_stream_id c))].
(** models.rs:254-267 *)
Definition ser_class_net_cache (c : class_net_cache) : json :=
  JObj [(lit "object_ind", ser_i32 (nc_object_ind c)); (lit "parent_id", ser_i32 (nc_parent_id c));
        (lit "cache_id", ser_i32 (nc_cache_id c));
        (lit "properties", ser_vec ser_cache_prop (nc_properties c))].

(** models.rs:18-49 *)
Definition ser_replay (r : replay) : json :=
  JObj [
    (lit "header_size", ser_i32 (r_header_size r));
    (lit "header_crc", ser_u32 (r_header_crc r));
    (lit "major_version", ser_i32 (r_major_version r));
    (lit "minor_version", ser_i32 (r_minor_version r));
    (lit "net_version", ser_opt ser_i32 (r_net_version r));
    (lit "game_type", ser_str (r_game_type r));
    (lit "properties", ser_props (r_properties r));
    (lit "content_size", ser_i32 (r_content_size r));
    (lit "content_crc", ser_u32 (r_content_crc r));
    (lit "network_frames",
      ser_opt (fun fs => JObj [(lit "frames", ser_vec ser_frame fs)]) (r_network_frames r));
    (lit "levels", ser_vec ser_str (r_levels r));
    (lit "keyframes", ser_vec ser_key_frame (r_keyframes r));
    (lit "debug_info", ser_vec ser_debug_info (r_debug_info r));
    (lit "tick_marks", ser_vec ser_tick_mark (r_tick_marks r));
    (lit "packages", ser_vec ser_str (r_packages r));
    (lit "objects", ser_vec ser_str (r_objects r));
    (lit "names", ser_vec ser_str (r_names r));
    (lit "class_indices", ser_vec ser_class_index (r_class_indices r));
    (lit "net_cache", ser_vec ser_class_net_cache (r_net_cache r))].
