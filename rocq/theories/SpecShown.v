(** * Specification: replays in which all that is not a number is the same

    As in SpecNan.v, for the types of /repo/src/models.rs. *)

From Coq Require Import ZArith List.
From Verif Require Import Base F32 NetTypes Header Body Parser SpecNan.

Fixpoint one_nan_prop (p : header_prop) : header_prop :=
  let entries (l : props) := map (fun kv => (fst kv, one_nan_prop (snd kv))) l in
  match p with
  | HArray rows => HArray (map entries rows)
  | HStruct name fields => HStruct name (entries fields)
  | HFloat x => HFloat (one_nan x)
  | _ => p
  end.
Definition one_nan_props (l : props) : props := map (fun kv => (fst kv, one_nan_prop (snd kv))) l.
Definition one_nan_key_frame (k : key_frame) : key_frame := mkKeyFrame (one_nan (kf_time k)) (kf_frame k) (kf_position k).

(** everything else is the same *)
Definition one_nan_replay (r : replay) : replay :=
  {| r_header_size := r_header_size r; r_header_crc := r_header_crc r;
     r_major_version := r_major_version r; r_minor_version := r_minor_version r; r_net_version := r_net_version r;
     r_game_type := r_game_type r; r_properties := one_nan_props (r_properties r);
     r_content_size := r_content_size r; r_content_crc := r_content_crc r;
     r_network_frames := option_map (map one_nan_frame) (r_network_frames r);
     r_levels := r_levels r; r_keyframes := map one_nan_key_frame (r_keyframes r); r_debug_info := r_debug_info r;
     r_tick_marks := r_tick_marks r; r_packages := r_packages r; r_objects := r_objects r;
     r_names := r_names r; r_class_indices := r_class_indices r; r_net_cache := r_net_cache r |}.
