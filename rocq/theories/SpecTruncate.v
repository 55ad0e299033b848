(** * Specification: running out of data *)

From Coq Require Import ZArith.
From Verif Require Import Base Errors.

(** The innermost error is that the file ended. *)
Fixpoint runs_out (e : parse_error) : Prop :=
  match e with
  | EInsufficientData _ _ => True
  | EParseError _ _ e' => runs_out e'
  | ECorruptReplay _ e' => runs_out e'
  | _ => False
  end.
