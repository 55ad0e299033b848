(** * Byte-level parser: model of /repo/src/core_parser.rs *)

From Coq Require Import ZArith List Bool.
From Verif Require Import Base Text F32 Errors.
Open Scope Z_scope.

(** core_parser.rs:5-10 *)
Record core := mkCore { c_data : list byte; c_col : Z }.

(** A method of [CoreParser] returning [Result<A, ParseError>]. e.g.
    core_parser.rs:42. *)
Definition parser (A : Type) : Type := comp core parse_error A.

(** core_parser.rs:13-15 *)
Definition core_new (data : list byte) : core := mkCore data 0.

(** core_parser.rs:22-27 *)
Definition view_data (size : Z) : parser (list byte) := fun s =>
  match split_at size (c_data s) with
  | Some (h, _) => (Ok h, s)
  | None => (Err (EInsufficientData (as_i32 size) (as_i32 (lenZ (c_data s)))), s)
  end.

(** core_parser.rs:42-53: [self.col += size as i32] panics on overflow *)
Definition take_data (size : Z) : parser (list byte) := fun s =>
  match split_at size (c_data s) with
  | Some (h, t) =>
      let col := c_col s + as_i32 size in
      if fits_i32 col then (Ok h, mkCore t col) else (Panic PanicOverflow, s)
  | None => (Err (EInsufficientData (as_i32 size) (as_i32 (lenZ (c_data s)))), s)
  end.

(** core_parser.rs:29-40 and 56-67: [take_bytes::<N>] and [take::<N>], the same
    code with a constant size *)
Definition take (n : Z) : parser (list byte) := take_data n.

(** [self.take::<4>().map(i32::from_le_bytes)]. core_parser.rs:101, 111, 119;
    parser.rs:524, 533. *)
Definition raw_i32 : parser Z := fmap (fun l => as_i32 (le_Z l)) (take 4).
(** [.take::<4>().map(f32::from_le_bytes)]: the bit pattern. parser.rs:532. *)
Definition raw_f32 : parser f32 := fmap le_Z (take 4).

(** [.map_err(|e| ParseError::ParseError(section, self.bytes_read(), Box::new(e)))].
    core_parser.rs:72, 78; parser.rs:465. *)
Definition in_section {A} (section : string) (m : parser A) : parser A :=
  map_err (fun s e => EParseError section (c_col s) e) m.

(** core_parser.rs:69-73 *)
Definition take_i32 (section : string) : parser Z := in_section section raw_i32.
(** core_parser.rs:75-79 *)
Definition take_u32 (section : string) : parser Z := in_section section (fmap le_Z (take 4)).

(** core_parser.rs:91-94: the loop of [repeat] *)
Fixpoint repeat_n {A} (n : nat) (f : parser A) : parser (list A) :=
  match n with
  | O => ret []
  | S n' => let* x := f in let* xs := repeat_n n' f in ret (x :: xs)
  end.

(** core_parser.rs:82-95 *)
Definition repeat_of {A} (size : Z) (f : parser A) : parser (list A) :=
  if 25000 <? size then fail (EListTooLarge size)
  else repeat_n (Z.to_nat size) f.

(** core_parser.rs:97-103 *)
Definition list_of {A} (f : parser A) : parser (list A) :=
  let* size := raw_i32 in repeat_of (as_usize size) f.

(** core_parser.rs:110-113 *)
Definition parse_str : parser str :=
  let* size := raw_i32 in
  let* data := take_data (as_usize size) in
  match decode_str data with
  | inr s => ret s
  | inl e => fail (EUtf8Error e)
  end.

(** core_parser.rs:116-134; [characters * -2] cannot overflow after the range
    check, the product is in [2, 20000] *)
Definition parse_text : parser str :=
  let* characters := raw_i32 in
  if negb ((-10000 <=? characters) && (characters <=? 10000)) then
    fail (ETextTooLarge characters)
  else if characters <? 0 then
    let* data := take_data (as_usize (characters * -2)) in ret (decode_utf16 data)
  else
    let* data := take_data (as_usize characters) in ret (decode_windows1252 data).

(** core_parser.rs:105-107 *)
Definition text_list : parser (list str) := list_of parse_text.
