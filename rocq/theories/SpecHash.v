(** * Specification: unique ids in hash tables *)

From Coq Require Import ZArith List.
From Verif Require Import Base NetTypes HashId SpecText SpecJson SpecNan SpecReplay.
Import ListNotations.
Open Scope Z_scope.

(** [usize] has 16, 32 or 64 bits; which byte comes first is open *)
Definition target_ok (T : target) : Prop := In (t_word T) [2; 4; 8]%nat.

(** every value of the Rust type: numbers in their range, names that are UTF-8, and lists whose length is a [usize] *)
Definition rust_remote_id (T : target) (r : remote_id) : Prop :=
  typed_remote_id r /\ Forall valid_utf8 (texts_remote_id r) /\
  match r with
  | RPlayStation _ _ u | RPsyNet _ u | RSwitch _ u => lenZ u < 256 ^ Z.of_nat (t_word T)
  | _ => True
  end.
Definition rust_unique_id (T : target) (u : unique_id) : Prop :=
  is_u8 (ui_system_id u) /\ rust_remote_id T (ui_remote_id u) /\ is_u8 (ui_local_id u).

(** the unique ids in an attribute, and in the frames of a replay *)
Definition ids_of (a : attribute) : list unique_id :=
  match a with
  | AUniqueId u => [u]
  | AReservation r => [rv_unique_id r]
  | APartyLeader (Some u) => [u]
  | _ => []
  end.
Definition frame_ids (f : frame) : list unique_id := flat_map (fun u => ids_of (u_attribute u)) (f_updated_actors f).
