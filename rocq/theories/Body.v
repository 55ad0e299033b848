(** * Replay body: model of the body part of /repo/src/parser.rs *)

From Coq Require Import ZArith List Bool.
From Verif Require Import Base Text F32 Errors Core Header.
Open Scope Z_scope.

(** models.rs:56-59 *)
Record tick_mark := mkTick { tm_description : str; tm_frame : Z }.
(** models.rs:67-71 *)
Record key_frame := mkKeyFrame { kf_time : f32; kf_frame : Z; kf_position : Z }.
(** models.rs:225-229 *)
Record debug_info := mkDebug { di_frame : Z; di_user : str; di_text : str }.
(** models.rs:233-239 *)
Record class_index := mkClassIndex { cx_class : str; cx_index : Z }.
(** models.rs:244-251 *)
Record cache_prop := mkCacheProp { cp_object_ind : Z; cp_stream_id : Z }.
(** models.rs:255-267 *)
Record class_net_cache := mkNetCache {
  nc_object_ind : Z; nc_parent_id : Z; nc_cache_id : Z; nc_properties : list cache_prop }.

(** parser.rs:331-342 *)
Record body := mkBody {
  b_levels : list str; b_keyframes : list key_frame; b_debug_info : list debug_info;
  b_tick_marks : list tick_mark; b_packages : list str; b_objects : list str;
  b_names : list str; b_class_indices : list class_index;
  b_net_cache : list class_net_cache; b_network_data : list byte }.

(** parser.rs:520-527 *)
Definition parse_tickmarks : parser (list tick_mark) :=
  list_of (let* d := parse_text in let* f := raw_i32 in ret (mkTick d f)).
(** parser.rs:529-537 *)
Definition parse_keyframe : parser (list key_frame) :=
  list_of (let* t := raw_f32 in let* f := raw_i32 in let* p := raw_i32 in
           ret (mkKeyFrame t f p)).
(** parser.rs:539-547 *)
Definition parse_debuginfo : parser (list debug_info) :=
  list_of (let* f := raw_i32 in let* u := parse_text in let* t := parse_text in
           ret (mkDebug f u t)).
(** parser.rs:549-556 *)
Definition parse_classindex : parser (list class_index) :=
  list_of (let* c := parse_str in let* i := raw_i32 in ret (mkClassIndex c i)).
(** parser.rs:558-572 *)
Definition parse_classcache : parser (list class_net_cache) :=
  list_of (let* o := raw_i32 in let* p := raw_i32 in let* c := raw_i32 in
           let* ps := list_of (let* o := raw_i32 in let* s := raw_i32 in
                               ret (mkCacheProp o s)) in
           ret (mkNetCache o p c ps)).

(** parser.rs:461-518 *)
Definition parse_body : parser body :=
  let* levels := in_section "levels" text_list in
  let* keyframes := in_section "keyframes" parse_keyframe in
  let* network_size := take_i32 "network size" in
  let* network_data := in_section "network data" (take_data (as_usize network_size)) in
  let* debug_infos := in_section "debug info" parse_debuginfo in
  let* tickmarks := in_section "tickmarks" parse_tickmarks in
  let* packages := in_section "packages" text_list in
  let* objects := in_section "objects" text_list in
  let* names := in_section "names" text_list in
  let* class_index := in_section "class index" parse_classindex in
  let* net_cache := in_section "net cache" parse_classcache in
  ret (mkBody levels keyframes debug_infos tickmarks packages objects names
              class_index net_cache network_data).
