(** * Specification: memory reserved ahead while the frames are decoded *)

From Coq Require Import ZArith List.
From Verif Require Import Base NetTypes SpecSize.
Import ListNotations.
Open Scope Z_scope.

(** a vector of [n] elements leaves behind room for the least power of two that is at least [n] *)
Definition room (n x : Z) : Prop :=
  (n = 0 /\ x = 0) \/ (exists k, 0 <= k /\ x = 2 ^ k /\ n <= x < 2 * n).

(** the lists inside the loadouts of an attribute *)
Definition slots (l : list (list product)) : Z := lenZ l + total (fun x => lenZ x) l.
Definition loadout_slots (a : attribute) : Z :=
  match a with
  | ALoadoutOnline l => slots l
  | ALoadoutsOnline l => slots (lso_blue l) + slots (lso_orange l)
  | _ => 0
  end.

Inductive frames_room : list frame -> Z -> Prop :=
| room_none : frames_room [] 0
| room_frame : forall f fs n u d x,
    room (lenZ (f_new_actors f)) n -> room (lenZ (f_updated_actors f)) u -> room (lenZ (f_deleted_actors f)) d ->
    frames_room fs x ->
    frames_room (f :: fs) (n + u + d + total (fun v => loadout_slots (u_attribute v)) (f_updated_actors f) + x).
