(** * Model: [f32] in formatted text

    The formatting code of [core] is modelled by its result. *)

From Coq Require Import ZArith List Bool.
From Verif Require Import Base F32 Text Json JsonText.
Open Scope Z_scope.

(** Not a number, infinite, or finite with a sign in front of [t].
    errors.rs:183-190, 203-208, 372-373; examples/demo.rs:133. *)
Definition float_form (x : f32) (t : str) : str :=
  let a := x mod 2 ^ 31 in
  if 255 * 2 ^ 23 <? a then lit "NaN"
  else (if x <? 2 ^ 31 then [] else lit "-") ++ if a =? 255 * 2 ^ 23 then lit "inf" else t.

(** [d * 10 ^ k] without an exponent. errors.rs:186. *)
Definition plain_decimal (d k : Z) : str :=
  let ds := int_text d in
  let kk := lenZ ds + k in
  if 0 <=? k then ds ++ repeat x30 (Z.to_nat k)
  else if 0 <? kk then firstn (Z.to_nat kk) ds ++ lit "." ++ skipn (Z.to_nat kk) ds
  else lit "0." ++ repeat x30 (Z.to_nat (- kk)) ++ ds.

(** [{}]: the shortest digits that are read back. errors.rs:183-190, 203-208, 372-373. *)
Definition display_f32 (x : f32) : str :=
  let a := x mod 2 ^ 31 in
  float_form x (if a =? 0 then lit "0" else let (d, k) := f32_decimal true a in plain_decimal d k).

(** The nearest multiple of 1/100, of two the even one. examples/demo.rs:133. *)
Definition hundredths (m : Z) : Z :=
  let q := 100 * m / 2 ^ 149 in
  let r := (100 * m) mod 2 ^ 149 in
  if (2 ^ 148 <? r) || ((r =? 2 ^ 148) && Z.odd q) then q + 1 else q.

(** [{:.2}]. examples/demo.rs:133. *)
Definition fixed2_f32 (x : f32) : str :=
  let n := hundredths (magnitude (x mod 2 ^ 31)) in
  float_form x (int_text (n / 100) ++ lit "." ++ int_text (n / 10 mod 10) ++ int_text (n mod 10)).
