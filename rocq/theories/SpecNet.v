(** * Specification: what spawns how, which attribute a stream id stands for

    Written without the model's tables: the functions below look things up in
    the object list and the net cache directly. *)

From Coq Require Import ZArith List Bool.
From Verif Require Import Base NetTypes Header Body Data SpecBasic.
Open Scope Z_scope.

(** the first element of [l] that stands in the relation [R] to something *)
Definition first_with {A C} (R : A -> C -> Prop) (l : list A) (r : C) : Prop :=
  exists b x a, l = b ++ x :: a /\ R x r /\ forall y z, In y b -> ~ R y z.
Definition none_with {A C} (R : A -> C -> Prop) (l : list A) : Prop :=
  forall y z, In y l -> ~ R y z.

(** ** Spawning *)

(** a name and all its ancestors, nearest first *)
Inductive path : str -> list str -> Prop :=
| path_top x : (forall p, ~ parent x p) -> path x [x]
| path_up x p l : parent x p -> path p l -> path x (x :: l).

(** classes of this replay for which the spawn table has an entry *)
Definition spawn_entry (objects : list str) (n : str) (t : spawn_trajectory) : Prop :=
  In n objects /\ In (n, t) SPAWN_STATS.

Definition spawns_as (objects : list str) (name : str) (t : spawn_trajectory) : Prop :=
  exists l, path name l /\
    (first_with (spawn_entry objects) l t \/
     none_with (spawn_entry objects) l /\ t = SpNone).

(** ** Attributes *)

(** the ids of the classes in the hierarchy of a name, nearest first *)
Definition class_ids (objects : list str) (name : str) (ids : list Z) : Prop :=
  exists l, lineage name l /\ ids_of objects l ids.

(** all properties that the net cache lists for the class [id] *)
Definition listed (caches : list class_net_cache) (id : Z) : list cache_prop :=
  flat_map nc_properties (filter (fun c => nc_object_ind c =? id) caches).

(** the last property with stream id [s] listed for the class [id] *)
Definition mention (caches : list class_net_cache) (s : Z) (id : Z) (p : cache_prop) : Prop :=
  exists b a, listed caches id = b ++ p :: a /\ cp_stream_id p = s /\
    forall q, In q a -> cp_stream_id q <> s.

(** what the stream id [s] stands for in the class [name] *)
Definition resolves (objects : list str) (caches : list class_net_cache) (name : str) (s : Z)
  (p : cache_prop) : Prop :=
  exists ids, class_ids objects name ids /\ first_with (mention caches s) ids p.

(** the exclusive bound of the stream ids of a class *)
Definition stream_bound (objects : list str) (caches : list class_net_cache) (name : str)
  (m : Z) : Prop :=
  (forall s p, ~ resolves objects caches name s p) /\ m = 3 \/
  exists s p, resolves objects caches name s p /\
    (forall s' p', resolves objects caches name s' p' -> s' <= s) /\
    m = Z.min (s + 1) (2 ^ 31 - 1).

(** how the values of a property are encoded *)
Definition kind_of (name : str) (t : attribute_tag) : Prop :=
  In (name, t) ATTRIBUTES \/ ~ In name (map fst ATTRIBUTES) /\ t = TNotImplemented.

(** [objects[i]] *)
Definition object_at (objects : list str) (i : Z) (name : str) : Prop :=
  0 <= i /\ nth_error objects (Z.to_nat i) = Some name.

(** objects that can be spawned: the first occurrence of a name whose class has
    a parent *)
Definition spawnable (objects : list str) (obj : Z) (name : str) : Prop :=
  first_index objects name obj /\ exists p, parent name p.
