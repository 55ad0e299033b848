(** * Object names and class hierarchy: model of /repo/src/network/object_index.rs *)

From Coq Require Import ZArith List Bool Permutation.
From Verif Require Import Base NetTypes NetModels Data.
Open Scope Z_scope.

(** The order in which a Rust hash map with integer-like keys is iterated.  It
    is not specified; every theorem quantifies over all of them. Iterations:
    network/mod.rs:127-137, 151, 208; network/frame_decoder.rs:389-393. *)
Definition hash_order : Type := forall V : Type, amap V -> list (Z * V).
(** Iteration visits every entry exactly once. Iterations: network/mod.rs:127-137,
    151, 208; network/frame_decoder.rs:389-393. *)
Definition hash_order_ok (ho : hash_order) : Prop :=
  forall V (m : amap V), Permutation (ho V m) m.

(** object_index.rs:10-12 *)
Definition object_index : Type := list (str * Z).

(** [entry(name).or_insert(val)], object_index.rs:20 *)
Definition or_insert (name : str) (val : Z) (m : object_index) : object_index :=
  match str_assoc name m with
  | Some _ => m
  | None => (name, val) :: m
  end.

(** object_index.rs:18-21: the loop over [objects.iter().enumerate()] *)
Fixpoint index_from (i : Z) (objects : list str) (m : object_index) : object_index :=
  match objects with
  | [] => m
  | name :: t => index_from (i + 1) t (or_insert name (as_i32 i) m)
  end.

(** object_index.rs:15-24 *)
Definition object_index_new (objects : list str) : object_index := index_from 0 objects [].

(** object_index.rs:27-29 *)
Definition by_name (ix : object_index) (name : str) : option Z := str_assoc name ix.

(** object_index.rs:32-34 and 42-54.  The iterator is run to its end: the model
    returns the list of all ids it yields; the consumers in network/mod.rs stop
    early, which is the same because the iterator has no side effects.  The
    [loop] of [next] and the iteration are one recursion on [fuel]; [None] means
    the fuel ran out. *)
Fixpoint hierarchy_fuel (fuel : nat) (ix : object_index) (name : str) : option (list Z) :=
  match fuel with
  | O => None
  | S fuel' =>
      match str_assoc (normalize_object name) PARENT_CLASSES with
      | None => Some []
      | Some parent =>
          match hierarchy_fuel fuel' ix parent with
          | None => None
          | Some ids =>
              Some (match by_name ix name with
                    | Some id => id :: ids
                    | None => ids
                    end)
          end
      end
  end.

(** The hierarchy of a name; the fuel exceeds the number of classes.
    network/object_index.rs:32-34. *)
Definition hierarchy (ix : object_index) (name : str) : option (list Z) :=
  hierarchy_fuel (S (S (length PARENT_CLASSES))) ix name.
