(** * Specification: equal numbers *)

From Coq Require Import ZArith List.
From Verif Require Import Base F32 SpecFacts.
Open Scope Z_scope.

Definition plus_infinity : f32 := 0x7F800000.

(** equal as real numbers (so zero and negative zero are), or the same infinity *)
Definition same_value (x y : f32) : Prop :=
  (exists v, f32_scaled x = Some v /\ f32_scaled y = Some v) \/ (x = y /\ (x = plus_infinity \/ x = minus_infinity)).

(** a number or infinite *)
Definition numeric (x : f32) : Prop := f32_scaled x <> None \/ x = plus_infinity \/ x = minus_infinity.
