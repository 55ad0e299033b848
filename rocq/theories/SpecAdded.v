(** * What a later version of the library may add to its tables, for property C95 *)

From Coq Require Import ZArith List.
From Verif Require Import Base NetTypes Errors Data SpecBasic Added.
Import ListNotations.
Open Scope Z_scope.

(** the tables of the library with entries added at the end: classes, spawn entries and
    attributes *)
Definition added (classes : list (str * str)) (spawns : list (str * spawn_trajectory))
    (attributes : list (str * attribute_tag)) : tables :=
  mkTables (PARENT_CLASSES ++ classes) (SPAWN_STATS ++ spawns) (ATTRIBUTES ++ attributes).

(** only attributes *)
Definition with_attributes (attributes : list (str * attribute_tag)) : tables := added [] [] attributes.

(** the added classes are not among the classes of the objects of a replay, nor above them *)
Definition new_classes (classes : list (str * str)) (objects : list str) : Prop :=
  forall object name c, In object objects -> name = object \/ ancestor object name -> class_of name c ->
    ~ In c (map fst classes).

(** the added spawn entries are for none of the objects *)
Definition new_spawns (spawns : list (str * spawn_trajectory)) (objects : list str) : Prop :=
  forall name, In name (map fst spawns) -> ~ In name objects.

(** none of the added attributes is in the replay *)
Definition new_attributes (attributes : list (str * attribute_tag)) (objects : list str) : Prop :=
  forall name, In name (map fst attributes) -> ~ In name objects.

(** an attribute of the replay is in the added entries and in none of the library *)
Definition newly_known (attributes : list (str * attribute_tag)) (objects : list str) : Prop :=
  exists name, In name objects /\ In name (map fst attributes) /\ ~ In name (map fst ATTRIBUTES).

(** two errors about frames that differ in nothing but what is known about attributes *)
Definition same_failure (e e' : network_error) : Prop :=
  match e, e' with
  | NFrameError x c, NFrameError x' c' =>
      x' = x /\ fc_objects c' = fc_objects c /\ fc_frames c' = fc_frames c /\
      fc_new_actors c' = fc_new_actors c /\ fc_updated_actors c' = fc_updated_actors c
  | _, _ => e' = e
  end.

(** as [same_failure], for any error *)
Definition same_error (e e' : parse_error) : Prop :=
  match e, e' with
  | ENetworkError x, ENetworkError x' => same_failure x x'
  | _, _ => e' = e
  end.
