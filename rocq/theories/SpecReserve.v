(** * What a replay contains: the elements of its lists (specification for C94) *)

From Coq Require Import ZArith List.
From Verif Require Import Base Header Body Parser.
Open Scope Z_scope.

Section Rows.
Context (f : header_prop -> Z).
(** the sum over the entries of a dictionary *)
Fixpoint rows_in (ps : list (str * header_prop)) : Z :=
  match ps with [] => 0 | (_, p) :: t => f p + rows_in t end.
(** the sum over the rows of an array *)
Fixpoint rows_all (rs : list (list (str * header_prop))) : Z :=
  match rs with [] => 0 | r :: t => rows_in r + rows_all t end.
End Rows.

(** rows of arrays in a property, at every depth *)
Fixpoint rows (p : header_prop) : Z :=
  match p with
  | HArray rs => lenZ rs + rows_all rows rs
  | HStruct _ fields => rows_in rows fields
  | _ => 0
  end.

(** cached properties of all classes *)
Fixpoint cached (l : list class_net_cache) : Z :=
  match l with [] => 0 | c :: t => lenZ (nc_properties c) + cached t end.

(** elements of all lists of a replay, apart from the frames *)
Definition elements (r : replay) : Z :=
  rows_in rows (r_properties r) + lenZ (r_levels r) + lenZ (r_keyframes r) + lenZ (r_debug_info r) + lenZ (r_tick_marks r) +
  lenZ (r_packages r) + lenZ (r_objects r) + lenZ (r_names r) + lenZ (r_class_indices r) +
  lenZ (r_net_cache r) + cached (r_net_cache r).
