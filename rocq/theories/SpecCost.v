(** * What the frames of a replay contain (specification for C100) *)

From Coq Require Import ZArith List.
From Verif Require Import Base NetTypes.
Open Scope Z_scope.

(** a frame and its records *)
Definition frame_size (f : frame) : Z := 1 + lenZ (f_new_actors f) + lenZ (f_deleted_actors f) + lenZ (f_updated_actors f).
Fixpoint frames_size (fs : list frame) : Z := match fs with [] => 0 | f :: t => frame_size f + frames_size t end.
