(** * Specification: net caches with the same meaning *)

From Coq Require Import ZArith List.
From Verif Require Import Base Errors NetTypes Body SpecBasic SpecNet.
Import ListNotations.
Open Scope Z_scope.

(** every stream id of every object that can be spawned stands for the same *)
Definition same_meaning (objects : list str) (caches caches' : list class_net_cache) : Prop :=
  forall id name, spawnable objects id name ->
    forall s p, resolves objects caches name s p <-> resolves objects caches' name s p.
