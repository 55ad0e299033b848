(** * Specification: how much a replay holds

    One for every property, list element, frame, actor record, update and item
    inside an attribute, and one for every byte of text. *)

From Coq Require Import ZArith List Bool.
From Verif Require Import Base NetTypes Header Body Parser.
Open Scope Z_scope.

Definition total {A} (f : A -> Z) (l : list A) : Z := fold_right (fun x n => f x + n) 0 l.
Definition maybe {A} (f : A -> Z) (o : option A) : Z := match o with Some x => f x | None => 0 end.
Definition text_size (s : str) : Z := Z.of_nat (length s).
Definition bytes_size (l : list byte) : Z := Z.of_nat (length l).

Fixpoint value_size (p : header_prop) : Z :=
  match p with
  | HArray rows => total (fun row => 1 + total (fun '(k, v) => 1 + text_size k + value_size v) row) rows
  | HByte kind v => text_size kind + maybe text_size v
  | HName s | HStr s => text_size s
  | HStruct name fields => text_size name + total (fun '(k, v) => 1 + text_size k + value_size v) fields
  | HBool _ | HFloat _ | HInt _ | HQWord _ => 0
  end.
Definition props_size (ps : props) : Z := total (fun '(k, v) => 1 + text_size k + value_size v) ps.

Definition remote_size (r : remote_id) : Z :=
  match r with
  | RPlayStation _ name u => text_size name + bytes_size u
  | RPsyNet _ u | RSwitch _ u => bytes_size u
  | REpic s => text_size s
  | _ => 0
  end.
Definition unique_size (u : unique_id) : Z := remote_size (ui_remote_id u).
Definition product_size (p : product) : Z :=
  1 + match pr_value p with PVTitle s => text_size s | _ => 0 end.
Definition online_size (l : list (list product)) : Z := total (fun x => 1 + total product_size x) l.
Definition attribute_size (a : attribute) : Z :=
  match a with
  | AString s => text_size s
  | AUniqueId u => unique_size u
  | AReservation r => unique_size (rv_unique_id r) + maybe text_size (rv_name r)
  | APartyLeader u => maybe unique_size u
  | APrivateMatch m => text_size (pm_mutators m) + text_size (pm_game_name m) + text_size (pm_password m)
  | ALoadoutOnline l => online_size l
  | ALoadoutsOnline l => online_size (lso_blue l) + online_size (lso_orange l)
  | ARepStatTitle r => text_size (rs_name r)
  | _ => 0
  end.

Definition frame_size (f : frame) : Z :=
  1 + Z.of_nat (length (f_new_actors f)) + Z.of_nat (length (f_deleted_actors f)) +
  total (fun u => 1 + attribute_size (u_attribute u)) (f_updated_actors f).
Definition texts_size (l : list str) : Z := total (fun s => 1 + text_size s) l.

Definition replay_size (r : replay) : Z :=
  text_size (r_game_type r) + props_size (r_properties r) +
  maybe (total frame_size) (r_network_frames r) +
  texts_size (r_levels r) + Z.of_nat (length (r_keyframes r)) +
  total (fun d => 1 + text_size (di_user d) + text_size (di_text d)) (r_debug_info r) +
  total (fun t => 1 + text_size (tm_description t)) (r_tick_marks r) +
  texts_size (r_packages r) + texts_size (r_objects r) + texts_size (r_names r) +
  total (fun c => 1 + text_size (cx_class c)) (r_class_indices r) +
  total (fun c => 1 + Z.of_nat (length (nc_properties c))) (r_net_cache r).
