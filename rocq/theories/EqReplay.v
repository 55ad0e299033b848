(** * Comparison of replays: the derived [PartialEq] of /repo/src/models.rs *)

From Coq Require Import ZArith List Bool.
From Verif Require Import Base Text F32 NetTypes Header Body Parser EqNet.

(** [(String, HeaderProp)], models.rs:83, 95 *)
Definition eq_pair {A} (e : A -> A -> bool) (v w : str * A) : bool :=
  str_eqb (fst v) (fst w) && e (snd v) (snd w).
(** models.rs:81-97 *)
Fixpoint eq_header_prop (v w : header_prop) : bool :=
  match v, w with
  | HArray a, HArray b => eq_vec (eq_vec (eq_pair eq_header_prop)) a b
  | HBool a, HBool b => Bool.eqb a b
  | HByte k a, HByte l b => str_eqb k l && eq_opt str_eqb a b
  | HFloat a, HFloat b => f32_eq a b
  | HInt a, HInt b => Z.eqb a b
  | HName a, HName b => str_eqb a b
  | HQWord a, HQWord b => Z.eqb a b
  | HStr a, HStr b => str_eqb a b
  | HStruct m a, HStruct n b => str_eqb m n && eq_vec (eq_pair eq_header_prop) a b
  | _, _ => false
  end.
(** models.rs:55-59 *)
Definition eq_tick_mark (v w : tick_mark) : bool :=
  str_eqb (tm_description v) (tm_description w) && Z.eqb (tm_frame v) (tm_frame w).
(** models.rs:66-71 *)
Definition eq_key_frame (v w : key_frame) : bool :=
  f32_eq (kf_time v) (kf_time w) && Z.eqb (kf_frame v) (kf_frame w) && Z.eqb (kf_position v) (kf_position w).
(** models.rs:224-229 *)
Definition eq_debug_info (v w : debug_info) : bool :=
  Z.eqb (di_frame v) (di_frame w) && str_eqb (di_user v) (di_user w) && str_eqb (di_text v) (di_text w).
(** models.rs:232-239 *)
Definition eq_class_index (v w : class_index) : bool :=
  str_eqb (cx_class v) (cx_class w) && Z.eqb (cx_index v) (cx_index w).
(** models.rs:243-251 *)
Definition eq_cache_prop (v w : cache_prop) : bool :=
  Z.eqb (cp_object_ind v) (cp_object_ind w) && Z.eqb (cp_stream_id v) (cp_stream_id w).
(** models.rs:254-267 *)
Definition eq_class_net_cache (v w : class_net_cache) : bool :=
  Z.eqb (nc_object_ind v) (nc_object_ind w) && Z.eqb (nc_parent_id v) (nc_parent_id w) &&
  Z.eqb (nc_cache_id v) (nc_cache_id w) && eq_vec eq_cache_prop (nc_properties v) (nc_properties w).
(** models.rs:18-43; [NetworkFrames] (46-49) is its list of frames *)
Definition eq_replay (v w : replay) : bool :=
  Z.eqb (r_header_size v) (r_header_size w) && Z.eqb (r_header_crc v) (r_header_crc w) &&
  Z.eqb (r_major_version v) (r_major_version w) && Z.eqb (r_minor_version v) (r_minor_version w) &&
  eq_opt Z.eqb (r_net_version v) (r_net_version w) && str_eqb (r_game_type v) (r_game_type w) &&
  eq_vec (eq_pair eq_header_prop) (r_properties v) (r_properties w) &&
  Z.eqb (r_content_size v) (r_content_size w) && Z.eqb (r_content_crc v) (r_content_crc w) &&
  eq_opt (eq_vec eq_frame) (r_network_frames v) (r_network_frames w) &&
  eq_vec str_eqb (r_levels v) (r_levels w) && eq_vec eq_key_frame (r_keyframes v) (r_keyframes w) &&
  eq_vec eq_debug_info (r_debug_info v) (r_debug_info w) && eq_vec eq_tick_mark (r_tick_marks v) (r_tick_marks w) &&
  eq_vec str_eqb (r_packages v) (r_packages w) && eq_vec str_eqb (r_objects v) (r_objects w) &&
  eq_vec str_eqb (r_names v) (r_names w) && eq_vec eq_class_index (r_class_indices v) (r_class_indices w) &&
  eq_vec eq_class_net_cache (r_net_cache v) (r_net_cache w).
