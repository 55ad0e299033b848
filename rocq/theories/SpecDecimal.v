(** * Specification: decimal notation *)

From Coq Require Import ZArith List.
From Verif Require Import Base.
Open Scope Z_scope.

(** the number that digits stand for, most significant first *)
Fixpoint digits_number (ds : list Z) : Z :=
  match ds with
  | [] => 0
  | d :: t => d * 10 ^ Z.of_nat (length t) + digits_number t
  end.

Definition are_digits (ds : list Z) : Prop := Forall (fun d => 0 <= d <= 9) ds.
(** one digit, or more of which the first is not zero *)
Definition no_leading_zero (ds : list Z) : Prop :=
  match ds with
  | [] => False
  | [_] => True
  | d :: _ => d <> 0
  end.

(** ASCII *)
Definition ascii_digits (ds : list Z) (s : str) : Prop :=
  Forall2 (fun d b => Z.of_N (Byte.to_N b) = 48 + d) ds s.

(** the decimal notation of an integer: a minus sign if it is negative, no plus
    sign, no leading zeros *)
Definition decimal (x : Z) (s : str) : Prop :=
  exists ds t, are_digits ds /\ no_leading_zero ds /\ ascii_digits ds t /\ digits_number ds = Z.abs x /\
    s = if x <? 0 then "-"%byte :: t else t.
