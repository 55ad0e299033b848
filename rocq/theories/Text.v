(** * Text decoding: UTF-8 validation, Windows-1252, UTF-16LE

    Models /repo/src/parsing_utils.rs and the library functions it calls:
    [std::str::from_utf8] and [encoding_rs]'s [WINDOWS_1252] and [UTF_16LE]
    decoders without BOM handling (WHATWG Encoding standard). *)

From Coq Require Import ZArith List Bool.
From Verif Require Import Base.
Open Scope Z_scope.

(** range patterns of [core::str::validations], reached from parsing_utils.rs:11. *)
Definition in_range (lo hi x : Z) : bool := (lo <=? x) && (x <=? hi).

(** Payload of [std::str::Utf8Error]: [valid_up_to] and [error_len]. errors.rs:14. *)
Definition utf8_error : Type := (Z * option Z)%type.

(** continuation byte; [core::str], reached from parsing_utils.rs:11. *)
Definition is_cont (b : byte) : bool := in_range 0x80 0xBF (byteZ b).
(** second byte of a three byte sequence, by first byte. [core::str], reached from
    parsing_utils.rs:11. *)
Definition ok3 (b0 b1 : Z) : bool :=
  if b0 =? 0xE0 then in_range 0xA0 0xBF b1
  else if b0 =? 0xED then in_range 0x80 0x9F b1
  else in_range 0x80 0xBF b1.
(** second byte of a four byte sequence, by first byte. [core::str], reached from
    parsing_utils.rs:11. *)
Definition ok4 (b0 b1 : Z) : bool :=
  if b0 =? 0xF0 then in_range 0x90 0xBF b1
  else if b0 =? 0xF4 then in_range 0x80 0x8F b1
  else in_range 0x80 0xBF b1.

(** [core::str::validations::run_utf8_validation] (called by
    parsing_utils.rs:11).  [None] = valid. *)
Fixpoint utf8_validate (off : Z) (l : str) : option utf8_error :=
  match l with
  | [] => None
  | b0 :: t0 =>
      let x0 := byteZ b0 in
      if x0 <? 0x80 then utf8_validate (off + 1) t0
      else if in_range 0xC2 0xDF x0 then
        match t0 with
        | [] => Some (off, None)
        | b1 :: t1 =>
            if is_cont b1 then utf8_validate (off + 2) t1 else Some (off, Some 1)
        end
      else if in_range 0xE0 0xEF x0 then
        match t0 with
        | [] => Some (off, None)
        | b1 :: t1 =>
            if ok3 x0 (byteZ b1) then
              match t1 with
              | [] => Some (off, None)
              | b2 :: t2 =>
                  if is_cont b2 then utf8_validate (off + 3) t2 else Some (off, Some 2)
              end
            else Some (off, Some 1)
        end
      else if in_range 0xF0 0xF4 x0 then
        match t0 with
        | [] => Some (off, None)
        | b1 :: t1 =>
            if ok4 x0 (byteZ b1) then
              match t1 with
              | [] => Some (off, None)
              | b2 :: t2 =>
                  if is_cont b2 then
                    match t2 with
                    | [] => Some (off, None)
                    | b3 :: t3 =>
                        if is_cont b3 then utf8_validate (off + 4) t3
                        else Some (off, Some 3)
                    end
                  else Some (off, Some 2)
              end
            else Some (off, Some 1)
        end
      else Some (off, Some 1)
  end.

(** A byte from its value modulo 256. Used by the encoder of strings,
    parsing_utils.rs:17, 23. *)
Definition byte_of_Z (x : Z) : byte :=
  match Byte.of_N (Z.to_N (x mod 256)) with
  | Some b => b
  | None => x00
  end.

(** UTF-8 encoding of one code point ([String::push]). Inside encoding_rs for
    parsing_utils.rs:16, 22. *)
Definition utf8_char (c : Z) : str :=
  if c <? 0x80 then [byte_of_Z c]
  else if c <? 0x800 then [byte_of_Z (0xC0 + c / 64); byte_of_Z (0x80 + c mod 64)]
  else if c <? 0x10000 then
    [byte_of_Z (0xE0 + c / 4096); byte_of_Z (0x80 + (c / 64) mod 64);
     byte_of_Z (0x80 + c mod 64)]
  else
    [byte_of_Z (0xF0 + c / 262144); byte_of_Z (0x80 + (c / 4096) mod 64);
     byte_of_Z (0x80 + (c / 64) mod 64); byte_of_Z (0x80 + c mod 64)].

(** the resulting [String], parsing_utils.rs:17, 23. *)
Definition utf8_encode (cs : list Z) : str := flat_map utf8_char cs.

(** WHATWG index windows-1252: code points of bytes 0x80..0x9F. encoding_rs, reached
    from parsing_utils.rs:22. *)
Definition cp1252_high : list Z :=
  [0x20AC; 0x0081; 0x201A; 0x0192; 0x201E; 0x2026; 0x2020; 0x2021;
   0x02C6; 0x2030; 0x0160; 0x2039; 0x0152; 0x008D; 0x017D; 0x008F;
   0x0090; 0x2018; 0x2019; 0x201C; 0x201D; 0x2022; 0x2013; 0x2014;
   0x02DC; 0x2122; 0x0161; 0x203A; 0x0153; 0x009D; 0x017E; 0x0178].

(** one byte of Windows-1252; encoding_rs, reached from parsing_utils.rs:22. *)
Definition cp1252_char (b : byte) : Z :=
  let x := byteZ b in
  if in_range 0x80 0x9F x then
    match getZ (x - 0x80) cp1252_high with Some c => c | None => x end
  else x.

(** [WINDOWS_1252.decode_without_bom_handling] (parsing_utils.rs:22,
    attributes.rs:1657). *)
Definition decode_cp1252 (l : list byte) : str := utf8_encode (map cp1252_char l).

(** 16-bit little-endian code units, and whether a single byte is left over.
    encoding_rs, reached from parsing_utils.rs:16. *)
Fixpoint utf16_units (l : list byte) : list Z * bool :=
  match l with
  | [] => ([], false)
  | [_] => ([], true)
  | a :: b :: t =>
      let '(us, odd) := utf16_units t in
      (byteZ a + 256 * byteZ b :: us, odd)
  end.

(** encoding_rs, reached from parsing_utils.rs:16. *)
Definition is_lead (u : Z) : bool := in_range 0xD800 0xDBFF u.
(** encoding_rs, reached from parsing_utils.rs:16. *)
Definition is_trail (u : Z) : bool := in_range 0xDC00 0xDFFF u.
(** U+FFFD; encoding_rs, reached from parsing_utils.rs:16. *)
Definition replacement : Z := 0xFFFD.

(** Code points of a unit sequence with unpaired surrogates replaced; [odd]
    tells whether a stray byte follows the units (replaced as well, but merged
    with a lead surrogate pending at the end, as WHATWG prescribes). encoding_rs,
    reached from parsing_utils.rs:16. *)
Fixpoint utf16_chars (us : list Z) (odd : bool) : list Z :=
  match us with
  | [] => if odd then [replacement] else []
  | u :: t =>
      if is_lead u then
        match t with
        | [] => [replacement]
        | v :: t' =>
            if is_trail v
            then 0x10000 + (u - 0xD800) * 1024 + (v - 0xDC00) :: utf16_chars t' odd
            else replacement :: utf16_chars t odd
        end
      else if is_trail u then replacement :: utf16_chars t odd
      else u :: utf16_chars t odd
  end.

(** [UTF_16LE.decode_without_bom_handling] (parsing_utils.rs:16). *)
Definition decode_utf16_data (l : list byte) : str :=
  let '(us, odd) := utf16_units l in utf8_encode (utf16_chars us odd).

(** [&input[..input.len().saturating_sub(n)]]. parsing_utils.rs:10, 15, 21. *)
Definition drop_last (n : nat) (l : list byte) : list byte :=
  firstn (length l - n) l.

(** parsing_utils.rs:9-12 *)
Definition decode_str (input : list byte) : utf8_error + str :=
  let data := drop_last 1 input in
  match utf8_validate 0 data with
  | None => inr data
  | Some e => inl e
  end.

(** parsing_utils.rs:14-18; never fails *)
Definition decode_utf16 (input : list byte) : str :=
  decode_utf16_data (drop_last 2 input).

(** parsing_utils.rs:20-24; never fails *)
Definition decode_windows1252 (input : list byte) : str :=
  decode_cp1252 (drop_last 1 input).
