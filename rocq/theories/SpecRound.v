(** * Specification: correctly rounded binary32 results *)

From Coq Require Import ZArith.
From Verif Require Import Base F32 SpecFacts.
Open Scope Z_scope.

(** [x] is a finite binary32 number nearest to the quotient [num / den]; if
    there are two such numbers, it is the one whose last bit is zero.
    ([f32_scaled] is the value times [2 ^ 149].) *)
Definition nearest (x : f32) (num den : Z) : Prop :=
  exists v, f32_scaled x = Some v /\
  forall y w, 0 <= y < 2 ^ 32 -> f32_scaled y = Some w ->
    Z.abs (v * den - num * 2 ^ 149) <= Z.abs (w * den - num * 2 ^ 149) /\
    (Z.abs (v * den - num * 2 ^ 149) = Z.abs (w * den - num * 2 ^ 149) -> w <> v -> Z.even x = true).
