(** * Binary32 floating point

    An [f32] is its 32-bit pattern.  Arithmetic is the standard library's
    executable specification of IEEE-754 ([Coq.Floats.SpecFloat]) at precision
    24, exponent bound 128, rounding to nearest even - what Rust's [f32]
    operators do. *)

From Coq Require Import ZArith Bool Floats.SpecFloat.
From Verif Require Import Base.
Open Scope Z_scope.

(** The type [f32] by its bits: header.rs:127; network/models.rs:7-9. *)
Definition f32 : Type := Z.

(** binary32 has 24 significant bits (used by network/models.rs:16-18). *)
Definition prec32 : Z := 24.
(** and exponents below 128 (used by network/models.rs:16-18). *)
Definition emax32 : Z := 128.

(** [f32::from_bits]. header.rs:127. *)
Definition sf_of_bits (b : Z) : spec_float :=
  let s := Z.testbit b 31 in
  let e := (b / 2 ^ 23) mod 2 ^ 8 in
  let m := b mod 2 ^ 23 in
  if e =? 255 then (if m =? 0 then S754_infinity s else S754_nan)
  else if e =? 0 then
    match m with
    | Zpos p => S754_finite s p (-149)
    | _ => S754_zero s
    end
  else
    match m + 2 ^ 23 with
    | Zpos p => S754_finite s p (e - 150)
    | _ => S754_nan (* unreachable: m >= 0 *)
    end.

(** [f32::to_bits]; a computed NaN is given the canonical quiet pattern (the
    sign and payload of computed NaNs are unspecified in Rust).
    network/models.rs:16-18. *)
Definition bits_of_sf (f : spec_float) : Z :=
  let sgn (s : bool) := if s then 2 ^ 31 else 0 in
  match f with
  | S754_zero s => sgn s
  | S754_infinity s => sgn s + 255 * 2 ^ 23
  | S754_nan => 255 * 2 ^ 23 + 2 ^ 22
  | S754_finite s m e =>
      if Zpos m <? 2 ^ 23 then sgn s + Zpos m
      else sgn s + (e + 150) * 2 ^ 23 + (Zpos m - 2 ^ 23)
  end.

(** [x as f32] for an integer (round to nearest even). network/models.rs:16, 121. *)
Definition sf_of_Z (x : Z) : spec_float :=
  binary_normalize prec32 emax32 x 0 false.

(** [/], network/models.rs:16-18, 100. *)
Definition sf_div := SFdiv prec32 emax32.
(** [*], network/models.rs:101-102, 121. *)
Definition sf_mul := SFmul prec32 emax32.
(** [-], network/models.rs:101. *)
Definition sf_sub := SFsub prec32 emax32.
(** [f32::sqrt], network/models.rs:146. *)
Definition sf_sqrt := SFsqrt prec32 emax32.

(** [f32::mul_add]: x * y + z with one rounding. network/models.rs:146. *)
Definition sf_fma (x y z : spec_float) : spec_float :=
  match x, y with
  | S754_nan, _ | _, S754_nan => S754_nan
  | S754_infinity _, S754_zero _ | S754_zero _, S754_infinity _ => S754_nan
  | S754_infinity sx, S754_infinity sy
  | S754_infinity sx, S754_finite sy _ _
  | S754_finite sx _ _, S754_infinity sy =>
      match z with
      | S754_nan => S754_nan
      | S754_infinity sz => if Bool.eqb (xorb sx sy) sz then z else S754_nan
      | _ => S754_infinity (xorb sx sy)
      end
  | S754_zero sx, S754_zero sy
  | S754_zero sx, S754_finite sy _ _
  | S754_finite sx _ _, S754_zero sy =>
      match z with
      | S754_zero sz => if Bool.eqb (xorb sx sy) sz then z else S754_zero false
      | _ => z
      end
  | S754_finite sx mx ex, S754_finite sy my ey =>
      let s := xorb sx sy in
      let m := (mx * my)%positive in
      let e := ex + ey in
      match z with
      | S754_nan => S754_nan
      | S754_infinity _ => z
      | S754_zero _ => binary_normalize prec32 emax32 (cond_Zopp s (Zpos m)) e s
      | S754_finite sz mz ez =>
          let e0 := Z.min e ez in
          let m1 := cond_Zopp s (Zpos m) * 2 ^ (e - e0) in
          let m2 := cond_Zopp sz (Zpos mz) * 2 ^ (ez - e0) in
          binary_normalize prec32 emax32 (m1 + m2) e0 false
      end
  end.

(** Comparison operators; every comparison with NaN is false.
    network/frame_decoder.rs:190, 198. *)
Definition f32_lt (a b : f32) : bool :=
  match SFcompare (sf_of_bits a) (sf_of_bits b) with Some Lt => true | _ => false end.
(** [==], network/frame_decoder.rs:202. *)
Definition f32_eq (a b : f32) : bool :=
  match SFcompare (sf_of_bits a) (sf_of_bits b) with Some Eq => true | _ => false end.
(** [>], network/frame_decoder.rs:190, 198. *)
Definition f32_gt (a b : f32) : bool := f32_lt b a.

(** [0.0_f32]. network/frame_decoder.rs:190; network/models.rs:130. *)
Definition f32_zero : f32 := 0.
(** [1e-10_f32]: the binary32 number nearest to 10^-10. network/frame_decoder.rs:190,
    198. *)
Definition f32_1em10 : f32 := 0x2EDBE6FF.
(** [std::f32::consts::FRAC_1_SQRT_2] = 0.707106781... network/models.rs:102. *)
Definition f32_frac_1_sqrt_2 : f32 := 0x3F3504F3.

(** [f32::is_finite]. Tested by serde_json when it writes an [f32], e.g.
    network/models.rs:5-9. *)
Definition f32_is_finite (a : f32) : bool :=
  match sf_of_bits a with
  | S754_zero _ | S754_finite _ _ _ => true
  | _ => false
  end.
