(** * Specification: the size of the attribute tables

    Entries held by the tables the parser builds before it reads any frame: one
    table for each object that can be spawned. *)

From Coq Require Import ZArith List Bool.
From Verif Require Import Base NetTypes SegArray Errors Body SpecSize.
Open Scope Z_scope.

Definition filled (s : seg_array object_attribute) : Z :=
  total (maybe (fun _ => 1)) (sg_array s) + Z.of_nat (length (sg_map s)).
Definition tables_size (v : list (option cache_info)) : Z :=
  total (maybe (fun ci => filled (ci_attributes ci))) v.

(** properties listed in the net cache *)
Definition properties_listed (caches : list class_net_cache) : Z :=
  total (fun c => Z.of_nat (length (nc_properties c))) caches.
