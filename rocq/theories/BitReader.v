(** * Bit reader

    Models /repo/src/bits.rs and the part of the [bitter] crate's
    [LittleEndianReader] that boxcars uses.  The source of [bitter] is not part
    of /repo.  Its documented behaviour is modelled; what the documentation
    leaves open - how many bytes are buffered at which moment - is a parameter
    [bitter], constrained by the contract [bitter_ok]. *)

From Coq Require Import ZArith List Bool Lia.
From Verif Require Import Base.
Open Scope Z_scope.

(** The eight bits of a byte, least significant first. Bit order of
    [LittleEndianReader], network/frame_decoder.rs:355. *)
Definition byte_bits (b : byte) : list bool :=
  let '(b0, (b1, (b2, (b3, (b4, (b5, (b6, b7))))))) := Byte.to_bits b in
  [b0; b1; b2; b3; b4; b5; b6; b7].

(** all bits of the data in reading order, network/frame_decoder.rs:355 *)
Definition bytes_bits (l : list byte) : list bool := flat_map byte_bits l.

(** Value of a bit string, least significant bit first. Result of [peek] and
    [read_bits], bits.rs:20, 38. *)
Fixpoint bits_Z (l : list bool) : Z :=
  match l with
  | [] => 0
  | b :: t => (if b then 1 else 0) + 2 * bits_Z t
  end.

(** inverse of [byte_bits], for [read_bytes], network/attributes.rs:1531 *)
Definition byte_of_bits (l : list bool) : byte :=
  match l with
  | [b0; b1; b2; b3; b4; b5; b6; b7] =>
      Byte.of_bits (b0, (b1, (b2, (b3, (b4, (b5, (b6, b7)))))))
  | _ => x00
  end.

(** State of [LittleEndianReader]: the lookahead buffer, the bytes not yet
    buffered; and the caller's scratch buffer [buf] (frame_decoder.rs:359),
    which travels with the reader. *)
Record rs := mkRs { lk : list bool; rest : list byte; buf : list byte }.

(** The bits that remain to be read. Specification of the reader created at
    network/frame_decoder.rs:355. *)
Definition flat (r : rs) : list bool := lk r ++ bytes_bits (rest r).

(** Buffering policy: how [refill_lookahead] and a [read_bits(n)] move bytes from
    the input to the lookahead buffer. Calls: network/models.rs:40, 60;
    network/frame_decoder.rs:210. *)
Record bitter := mkBitter {
  bt_refill : list bool -> list byte -> list bool * list byte;
  bt_fetch : nat -> list bool -> list byte -> list bool * list byte }.

(** The contract (bitter's documentation): buffering never changes the bits to
    be read; at most 63 bits are buffered; after a refill at least
    [MAX_READ_BITS] = 56 bits are buffered unless the input is exhausted. Relied on at
    network/models.rs:39-53, 61, 126, 138, 188. *)
Record bitter_ok (B : bitter) : Prop := mkBitterOk {
  refill_flat : forall l r l' r', bt_refill B l r = (l', r') ->
    l' ++ bytes_bits r' = l ++ bytes_bits r;
  refill_le : forall l r l' r', bt_refill B l r = (l', r') ->
    (length l <= 63)%nat -> (length l' <= 63)%nat;
  refill_ge : forall l r l' r', bt_refill B l r = (l', r') ->
    (length l <= 63)%nat -> (56 <= length l')%nat \/ r' = [];
  fetch_flat : forall n l r l' r', bt_fetch B n l r = (l', r') ->
    l' ++ bytes_bits r' = l ++ bytes_bits r;
  fetch_le : forall n l r l' r', bt_fetch B n l r = (l', r') ->
    (length l <= 63)%nat -> (length l' <= 63)%nat }.

(** Split off the first [n] elements, or [None] if there are fewer. For bits.rs:20-21. *)
Fixpoint take_list {A} (n : nat) (l : list A) : option (list A * list A) :=
  match n, l with
  | O, _ => Some ([], l)
  | S n', x :: t =>
      match take_list n' t with Some (h, r) => Some (x :: h, r) | None => None end
  | S _, [] => None
  end.

(** Split the first [n] bits off the stream, unpacking bytes when the lookahead
    is exhausted. For bits.rs:52. *)
Fixpoint take_bits (n : nat) (l : list bool) (r : list byte)
  : option (list bool * (list bool * list byte)) :=
  match n with
  | O => Some ([], (l, r))
  | S n' =>
      match l with
      | b :: l' =>
          match take_bits n' l' r with
          | Some (h, q) => Some (b :: h, q)
          | None => None
          end
      | [] =>
          match r with
          | [] => None
          | y :: r' =>
              match byte_bits y with
              | b :: l' =>
                  match take_bits n' l' r' with
                  | Some (h, q) => Some (b :: h, q)
                  | None => None
                  end
              | [] => None
              end
          end
      end
  end.

(** Split off [n] bytes, not necessarily byte aligned. For network/attributes.rs:1531. *)
Fixpoint take_bytes (n : nat) (l : list bool) (r : list byte)
  : option (list byte * (list bool * list byte)) :=
  match n with
  | O => Some ([], (l, r))
  | S n' =>
      match take_bits 8 l r with
      | Some (h, (l', r')) =>
          match take_bytes n' l' r' with
          | Some (t, q) => Some (byte_of_bits h :: t, q)
          | None => None
          end
      | None => None
      end
  end.

(** A function on the reader returning [Option<A>] ([E] = unit) or
    [Result<A, E>]. e.g. bits.rs:11. *)
Definition rd (E A : Type) : Type := comp rs E A.

(** bits.rs:4-6; the argument is a [u64] *)
Definition bit_width (x : Z) : Z := if x <=? 0 then 0 else Z.log2 x + 1.

Section Reader.
Context (B : bitter).

(** [LittleEndianReader::new]. network/frame_decoder.rs:355. *)
Definition reader_new (data scratch : list byte) : rs := mkRs [] data scratch.

(** [BitReader::refill_lookahead]. network/models.rs:40, 60;
    network/frame_decoder.rs:210. *)
Definition refill {E} : rd E unit := fun r =>
  let '(l, t) := bt_refill B (lk r) (rest r) in (Ok tt, mkRs l t (buf r)).

(** [BitReader::lookahead_bits]. network/models.rs:61; network/frame_decoder.rs:211. *)
Definition lookahead_bits {E} : rd E Z := fun r => (Ok (lenZ (lk r)), r).

(** [BitReader::read_bits(n)], n <= 64.  After a failure the position is not
    specified by bitter; the model leaves it unchanged, which is not observable
    because every caller in /repo gives up. bits.rs:52; network/attributes.rs:626. *)
Definition read_bits (n : nat) : rd unit Z := fun r =>
  let '(l, t) := bt_fetch B n (lk r) (rest r) in
  match take_bits n l t with
  | Some (h, (l', t')) => (Ok (bits_Z h), mkRs l' t' (buf r))
  | None => (Err tt, mkRs l t (buf r))
  end.

(** [BitReader::read_bit] and the fixed-width readers. network/attributes.rs:633. *)
Definition read_bit : rd unit bool := fmap (fun x => negb (x =? 0)) (read_bits 1).
(** network/attributes.rs:617 *)
Definition read_u8 : rd unit Z := read_bits 8.
(** network/models.rs:201 *)
Definition read_i8 : rd unit Z := fmap as_i8 (read_bits 8).
(** network/attributes.rs:906 *)
Definition read_u32 : rd unit Z := read_bits 32.
(** network/attributes.rs:1061 *)
Definition read_i32 : rd unit Z := fmap as_i32 (read_bits 32).
(** network/attributes.rs:1161 *)
Definition read_u64 : rd unit Z := read_bits 64.
(** network/attributes.rs:1070 *)
Definition read_i64 : rd unit Z := fmap as_i64 (read_bits 64).
(** the bit pattern of the [f32]. network/attributes.rs:707. *)
Definition read_f32 : rd unit Z := read_bits 32.

(** [BitReader::peek] followed by [BitReader::consume] (bits.rs:19-23); bitter
    asserts that the bits are in the lookahead and are at most 56. *)
Definition peek_and_consume {E} (n : nat) : rd E Z := fun r =>
  if (56 <? n)%nat then (Panic PanicLookahead, r)
  else
    match take_list n (lk r) with
    | Some (h, l') => (Ok (bits_Z h), mkRs l' (rest r) (buf r))
    | None => (Panic PanicLookahead, r)
    end.

(** [BitReader::has_bits_remaining(n)]. network/models.rs:69. *)
Definition has_bits_remaining {E} (n : nat) : rd E bool := fun r =>
  (Ok (match take_bits n (lk r) (rest r) with Some _ => true | None => false end), r).

(** [BitReader::is_empty]. network/frame_decoder.rs:361. *)
Definition is_empty (r : rs) : bool :=
  match lk r, rest r with [], [] => true | _, _ => false end.

(** [BitReader::unbuffered_bytes_remaining() >= n]. network/models.rs:39. *)
Definition unbuffered_at_least {E} (n : nat) : rd E bool := fun r =>
  (Ok (match take_list n (rest r) with Some _ => true | None => false end), r).

(** [bits.read_bytes(&mut buf[..n])]: panics when the slice is out of range;
    fails when fewer than [n] bytes remain; otherwise fills the slice.
    network/attributes.rs:1531. *)
Definition read_bytes (n : nat) : rd unit unit := fun r =>
  match take_list n (buf r) with
  | None => (Panic PanicIndex, r)
  | Some (_, tail) =>
      let '(l, t) := bt_fetch B n (lk r) (rest r) in
      match take_bytes n l t with
      | Some (h, (l', t')) => (Ok tt, mkRs l' t' (h ++ tail))
      | None => (Err tt, mkRs l t (buf r))
      end
  end.

(** [&buf[..n]]. network/attributes.rs:1533, 1543. *)
Definition buf_slice {E} (n : nat) : rd E (list byte) := fun r =>
  match take_list n (buf r) with
  | Some (h, _) => (Ok h, r)
  | None => (Panic PanicIndex, r)
  end.

(** [buf.len()]. network/attributes.rs:1531. *)
Definition buf_len {E} : rd E Z := fun r => (Ok (lenZ (buf r)), r).

(** bits.rs:26-32 *)
Definition if_get {A} (f : rd unit A) : rd unit (option A) :=
  let* b := read_bit in
  if b then fmap Some f else ret None.

(** the [debug_assert!] of bits.rs:36 and 51 *)
Definition assert_width {E} (n : nat) (max : Z) : rd E unit :=
  if Z.max (bit_width max) 1 =? Z.of_nat n + 1 then ret tt else panics PanicAssert.

(** bits.rs:35-47 *)
Definition peek_bits_max_computed {E} (n : nat) (max : Z) : rd E Z :=
  let* _ := assert_width n max in
  let* data := peek_and_consume n in
  let up := data + 2 ^ Z.of_nat n in
  if max <=? up then ret data
  else
    let* b := peek_and_consume 1 in
    if negb (b =? 0) then ret up else ret data.

(** bits.rs:50-61 *)
Definition read_bits_max_computed (n : nat) (max : Z) : rd unit Z :=
  let* _ := assert_width n max in
  let* data := read_bits n in
  let up := data + 2 ^ Z.of_nat n in
  if max <=? up then ret data
  else fmap (fun x : bool => if x then up else data) read_bit.

End Reader.

(** ** A concrete buffering policy

    A 64-bit buffer holding at most 63 bits, refilled by whole bytes; it
    satisfies the contract and is the one used to run the model. *)

(** take whole bytes into the lookahead; stands for bitter, network/models.rs:40 *)
Fixpoint move_bytes (n : nat) (r : list byte) : list bool * list byte :=
  match n, r with
  | S n', b :: t => let '(l, t') := move_bytes n' t in (byte_bits b ++ l, t')
  | _, _ => ([], r)
  end.

(** refill to at most 63 bits; stands for bitter, network/models.rs:40 *)
Definition std_refill (l : list bool) (r : list byte) : list bool * list byte :=
  let '(m, r') := move_bytes ((63 - length l) / 8) r in (l ++ m, r').

(** the policy; stands for bitter, network/models.rs:40 *)
Definition std_bitter : bitter := mkBitter std_refill (fun _ => std_refill).
