(** * Specification: CRC-32 with the parameters Unreal uses, one bit at a time

    Independent of the model: a shift register over bits, most significant bit
    first. *)

From Coq Require Import NArith List.
From Coq Require Import Init.Byte Strings.Byte.
Import ListNotations.
Open Scope N_scope.

Definition crc_poly : N := 0x04c11db7.
Definition crc_init : N := 0x10340dfe.
Definition crc_xorout : N := 0xffffffff.

(** The eight bits of a byte, most significant first. *)
Definition byte_bits (b : byte) : list bool :=
  map (N.testbit (Byte.to_N b)) [7; 6; 5; 4; 3; 2; 1; 0].

Definition data_bits (data : list byte) : list bool := flat_map byte_bits data.

(** Shift one message bit into the 32-bit register. *)
Definition shift_in (r : N) (b : bool) : N :=
  let r' := (2 * r) mod 2 ^ 32 in
  if xorb (N.testbit r 31) b then N.lxor r' crc_poly else r'.

Definition crc_register (bits : list bool) (r : N) : N := fold_left shift_in bits r.

Definition crc32_unreal (data : list byte) : N :=
  N.lxor (crc_register (data_bits data) crc_init) crc_xorout.

(** Two messages that differ in exactly two bits, less than [2^32 - 1] bits apart. *)
Definition two_flips (d1 d2 : list byte) : Prop :=
  exists a x b y c, data_bits d1 = a ++ x :: b ++ y :: c /\
    data_bits d2 = a ++ negb x :: b ++ negb y :: c /\ N.of_nat (length b) < 2 ^ 32 - 2.

(** Two messages that differ in exactly three bits, [span] bits from the first to the last. *)
Definition three_flips (span : N) (d1 d2 : list byte) : Prop :=
  exists a x b y c z d, data_bits d1 = a ++ x :: b ++ y :: c ++ z :: d /\
    data_bits d2 = a ++ negb x :: b ++ negb y :: c ++ negb z :: d /\
    N.of_nat (length b) + N.of_nat (length c) + 2 = span.
