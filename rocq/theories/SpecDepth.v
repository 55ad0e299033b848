(** * Specification: the depth of header properties *)

From Coq Require Import ZArith List.
From Verif Require Import Base Header Parser.

(** [levels n ps]: arrays or structs are nested [n] deep in the properties *)
Inductive levels : nat -> props -> Prop :=
| levels_0 ps : levels 0 ps
| levels_struct n key name fields ps : In (key, HStruct name fields) ps -> levels n fields -> levels (S n) ps
| levels_array n key rows row ps : In (key, HArray rows) ps -> In row rows -> levels n row -> levels (S n) ps.
