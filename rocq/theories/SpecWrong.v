(** * Specification: messages that differ in a number of bits

    Independent of the model. *)

From Coq Require Import NArith List Bool.
From Coq Require Import Init.Byte.
From Verif Require Import SpecCrc.
Import ListNotations.
Open Scope N_scope.

(** the places, counted from [i], at which two lists of bits differ *)
Fixpoint differing (i : N) (a b : list bool) : list N :=
  match a, b with
  | x :: a', y :: b' => if Bool.eqb x y then differing (N.succ i) a' b' else i :: differing (N.succ i) a' b'
  | _, _ => []
  end.

(** as long, and different in exactly [n] bits, the last of them [span] bits behind the first *)
Definition wrong_bits (n : nat) (span : N) (d1 d2 : list byte) : Prop :=
  length d2 = length d1 /\
  let ps := differing 0 (data_bits d1) (data_bits d2) in
  length ps = n /\ last ps 0 = hd 0 ps + span.

(** a number of wrong bits, and the least span at which so many can go unnoticed *)
Definition least_spans : list (nat * N) :=
  [(4%nat, 3006); (5%nat, 300); (6%nat, 203); (7%nat, 123); (8%nat, 89); (9%nat, 66); (10%nat, 53); (11%nat, 44); (12%nat, 42)].
