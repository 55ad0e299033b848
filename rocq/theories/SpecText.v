(** * Specification of text: UTF-8, Windows-1252, UTF-16

    Relations between code points and bytes, written from the standards; they
    share nothing with the decoders of the model. *)

From Coq Require Import ZArith List.
From Coq Require Import Init.Byte Strings.Byte.
Import ListNotations.
Open Scope Z_scope.

(** A byte by its value. *)
Definition is (b : byte) (x : Z) : Prop := Z.of_N (Byte.to_N b) = x.

Definition surrogate (c : Z) : Prop := 0xD800 <= c <= 0xDFFF.
(** Unicode scalar values *)
Definition scalar (c : Z) : Prop := 0 <= c <= 0x10FFFF /\ ~ surrogate c.

(** ** UTF-8 (Unicode, table 3-6: bit patterns; shortest form; scalar values only) *)

Inductive utf8_one : Z -> list byte -> Prop :=
| utf8_1 a x : is a x -> 0 <= x < 0x80 -> utf8_one x [a]
| utf8_2 a b x y : is a (0xC0 + x) -> is b (0x80 + y) -> 0 <= x < 32 -> 0 <= y < 64 ->
    0x80 <= 64 * x + y -> utf8_one (64 * x + y) [a; b]
| utf8_3 a b c x y z : is a (0xE0 + x) -> is b (0x80 + y) -> is c (0x80 + z) ->
    0 <= x < 16 -> 0 <= y < 64 -> 0 <= z < 64 ->
    0x800 <= 4096 * x + 64 * y + z -> ~ surrogate (4096 * x + 64 * y + z) ->
    utf8_one (4096 * x + 64 * y + z) [a; b; c]
| utf8_4 a b c d x y z t : is a (0xF0 + x) -> is b (0x80 + y) -> is c (0x80 + z) -> is d (0x80 + t) ->
    0 <= x < 8 -> 0 <= y < 64 -> 0 <= z < 64 -> 0 <= t < 64 ->
    0x10000 <= 262144 * x + 4096 * y + 64 * z + t <= 0x10FFFF ->
    utf8_one (262144 * x + 4096 * y + 64 * z + t) [a; b; c; d].

(** [utf8 cs s]: [s] is the UTF-8 form of the code points [cs]. *)
Inductive utf8 : list Z -> list byte -> Prop :=
| utf8_nil : utf8 [] []
| utf8_cons c cs s t : utf8_one c s -> utf8 cs t -> utf8 (c :: cs) (s ++ t).

Definition valid_utf8 (s : list byte) : Prop := exists cs, utf8 cs s.

(** ** Windows-1252 (the rows 80 and 90 of the code page; undefined bytes are
    the C1 controls, as the WHATWG standard has it) *)

Definition windows1252_high (x : Z) : option Z :=
  match x with
  | 0x80 => Some 0x20AC | 0x82 => Some 0x201A | 0x83 => Some 0x0192 | 0x84 => Some 0x201E
  | 0x85 => Some 0x2026 | 0x86 => Some 0x2020 | 0x87 => Some 0x2021 | 0x88 => Some 0x02C6
  | 0x89 => Some 0x2030 | 0x8A => Some 0x0160 | 0x8B => Some 0x2039 | 0x8C => Some 0x0152
  | 0x8E => Some 0x017D | 0x91 => Some 0x2018 | 0x92 => Some 0x2019 | 0x93 => Some 0x201C
  | 0x94 => Some 0x201D | 0x95 => Some 0x2022 | 0x96 => Some 0x2013 | 0x97 => Some 0x2014
  | 0x98 => Some 0x02DC | 0x99 => Some 0x2122 | 0x9A => Some 0x0161 | 0x9B => Some 0x203A
  | 0x9C => Some 0x0153 | 0x9E => Some 0x017E | 0x9F => Some 0x0178
  | _ => None
  end.
Definition windows1252_one (b : byte) (c : Z) : Prop :=
  exists x, is b x /\ c = match windows1252_high x with Some c => c | None => x end.

(** [s] is the UTF-8 form of the text whose Windows-1252 bytes are [l]. *)
Definition windows1252 (l s : list byte) : Prop :=
  exists cs, Forall2 windows1252_one l cs /\ utf8 cs s.

(** ** UTF-16, little endian; an unpaired surrogate reads as U+FFFD *)

Definition unit_of (a b : byte) (u : Z) : Prop :=
  exists x y, is a x /\ is b y /\ u = x + 256 * y.
Definition lead (u : Z) : Prop := 0xD800 <= u <= 0xDBFF.
Definition trail (u : Z) : Prop := 0xDC00 <= u <= 0xDFFF.

(** [units l us]: the bytes [l] are the code units [us]. *)
Inductive units : list byte -> list Z -> Prop :=
| units_nil : units [] []
| units_cons a b u l us : unit_of a b u -> units l us -> units (a :: b :: l) (u :: us).

Definition starts_with_trail (us : list Z) : Prop :=
  match us with u :: _ => trail u | [] => False end.

Inductive utf16_chars_of : list Z -> list Z -> Prop :=
| u16_nil : utf16_chars_of [] []
| u16_bmp u us cs : ~ surrogate u -> utf16_chars_of us cs -> utf16_chars_of (u :: us) (u :: cs)
| u16_pair u v us cs : lead u -> trail v -> utf16_chars_of us cs ->
    utf16_chars_of (u :: v :: us) (0x10000 + 1024 * (u - 0xD800) + (v - 0xDC00) :: cs)
| u16_lone u us cs : surrogate u -> ~ (lead u /\ starts_with_trail us) ->
    utf16_chars_of us cs -> utf16_chars_of (u :: us) (0xFFFD :: cs).

(** [s] is the UTF-8 form of the text whose UTF-16LE bytes are [l]. *)
Definition utf16 (l s : list byte) : Prop :=
  exists us cs, units l us /\ utf16_chars_of us cs /\ utf8 cs s.

(** The code units of scalar values. *)
Definition utf16_units_of (c : Z) : list Z :=
  if c <? 0x10000 then [c]
  else [0xD800 + (c - 0x10000) / 1024; 0xDC00 + (c - 0x10000) mod 1024].
