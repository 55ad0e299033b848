(** * Specification: equal replays *)

From Coq Require Import ZArith List.
From Verif Require Import Base F32 NetTypes Header Body Parser SpecJson SpecEq SpecBlank.
Open Scope Z_scope.

(** header values that differ at most in the representation of floats *)
Inductive equal_prop : header_prop -> header_prop -> Prop :=
| ep_float x y : same_value x y -> equal_prop (HFloat x) (HFloat y)
| ep_struct name f g : Forall2 (fun a b => fst a = fst b /\ equal_prop (snd a) (snd b)) f g ->
    equal_prop (HStruct name f) (HStruct name g)
| ep_array f g : Forall2 (Forall2 (fun a b => fst a = fst b /\ equal_prop (snd a) (snd b))) f g ->
    equal_prop (HArray f) (HArray g)
| ep_other v : (forall x, v <> HFloat x) -> (forall rows, v <> HArray rows) ->
    (forall name fields, v <> HStruct name fields) -> equal_prop v v.

Definition equal_props (f g : props) : Prop := Forall2 (fun a b => fst a = fst b /\ equal_prop (snd a) (snd b)) f g.

(** equal but for their floats, which are numbers equal one by one *)
Definition equal_frame (f g : frame) : Prop :=
  blank_frame f = blank_frame g /\ Forall2 same_value (floats_frame f) (floats_frame g).

Definition equal_key_frame (k l : key_frame) : Prop :=
  same_value (kf_time k) (kf_time l) /\ kf_frame k = kf_frame l /\ kf_position k = kf_position l.

Definition equal_option {A} (R : A -> A -> Prop) (a b : option A) : Prop :=
  match a, b with Some x, Some y => R x y | None, None => True | _, _ => False end.

(** everything else is the same *)
Definition equal_replay (r s : replay) : Prop :=
  equal_props (r_properties r) (r_properties s) /\
  equal_option (Forall2 equal_frame) (r_network_frames r) (r_network_frames s) /\
  Forall2 equal_key_frame (r_keyframes r) (r_keyframes s) /\
  (r_header_size r, r_header_crc r, r_major_version r, r_minor_version r, r_net_version r, r_game_type r) =
  (r_header_size s, r_header_crc s, r_major_version s, r_minor_version s, r_net_version s, r_game_type s) /\
  (r_content_size r, r_content_crc r, r_levels r, r_debug_info r, r_tick_marks r) =
  (r_content_size s, r_content_crc s, r_levels s, r_debug_info s, r_tick_marks s) /\
  (r_packages r, r_objects r, r_names r, r_class_indices r, r_net_cache r) =
  (r_packages s, r_objects s, r_names s, r_class_indices s, r_net_cache s).

(** the floats of a replay *)
Fixpoint prop_floats (p : header_prop) : list f32 :=
  match p with
  | HFloat x => [x]
  | HStruct _ fields => flat_map (fun kv => prop_floats (snd kv)) fields
  | HArray rows => flat_map (flat_map (fun kv => prop_floats (snd kv))) rows
  | _ => []
  end.
Definition replay_floats (r : replay) : list f32 :=
  flat_map (fun kv => prop_floats (snd kv)) (r_properties r) ++
  match r_network_frames r with Some fs => flat_map floats_frame fs | None => [] end ++
  map kf_time (r_keyframes r).
