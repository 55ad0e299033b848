(** * JSON texts: model of what serde_json writes, and of /repo/examples/json.rs

    [serde_json::to_writer] (lib.rs:39, tests/integration_tests.rs:30) and
    [serde_json::to_writer_pretty] (examples/json.rs:24) turn the values of Json.v
    into bytes.  The code of serde_json is not part of /repo; what is described
    here was checked against the hashes in /repo/tests/snapshots by
    /verif/tools/check_snapshots.py.  The text of an [f32] is a parameter of the
    printer; [f32_text] is the one that serde_json uses. *)

From Coq Require Import ZArith List Bool.
From Verif Require Import Base F32 Text Errors ObjectIndex BitReader Parser Json JsonNet JsonReplay Display.
Open Scope Z_scope.

(** ** Whole numbers and texts *)

(** An integer of any size, e.g. models.rs:20 as written by examples/json.rs:24. *)
Definition int_text (x : Z) : str :=
  let n := S (Z.to_nat (Z.log2 (Z.abs x))) in
  if x <? 0 then "-"%byte :: dec_digits n (- x) [] else dec_digits n x [].

(** One of the digits 0-9, a-f; for [escape], examples/json.rs:24. *)
Definition hex_digit (x : Z) : byte := byte_of_Z (if x <? 10 then 48 + x else 87 + x).

(** How a byte of a text is written: quotation mark, backslash and control
    characters are escaped, all else is copied. examples/json.rs:24 for e.g. models.rs:25. *)
Definition escape (b : byte) : str :=
  let x := byteZ b in
  if x =? 34 then [x5c; x22]
  else if x =? 92 then [x5c; x5c]
  else if x =? 8 then [x5c; x62]
  else if x =? 12 then [x5c; x66]
  else if x =? 10 then [x5c; x6e]
  else if x =? 13 then [x5c; x72]
  else if x =? 9 then [x5c; x74]
  else if x <? 32 then [x5c; x75; x30; x30; hex_digit (x / 16); hex_digit (x mod 16)]
  else [b].

(** A text between quotation marks. examples/json.rs:24 for e.g. models.rs:25. *)
Definition quote (s : str) : str := x22 :: flat_map escape s ++ [x22].

(** ** Values *)

(** [to_writer] (lib.rs:39) or [to_writer_pretty] (examples/json.rs:24) *)
Inductive layout := Compact | Pretty.

(** A new line and two spaces for every level, in the pretty layout.
    examples/json.rs:24. *)
Definition new_line (l : layout) (depth : nat) : str :=
  match l with
  | Compact => []
  | Pretty => x0a :: concat (repeat (lit "  ") depth)
  end.
(** Between a key and its value. examples/json.rs:24, lib.rs:39. *)
Definition colon (l : layout) : str := match l with Compact => lit ":" | Pretty => lit ": " end.

(** Elements of an array or entries of an object between brackets. There are no
    line breaks in an empty one. examples/json.rs:24, lib.rs:39. *)
Definition bracket (l : layout) (depth : nat) (o c : str) (parts : list str) : str :=
  match parts with
  | [] => o ++ c
  | p :: ps =>
      o ++ new_line l (S depth) ++ p ++ flat_map (fun q => lit "," ++ new_line l (S depth) ++ q) ps ++ new_line l depth ++ c
  end.

Section Printer.
Context (show : f32 -> str).

(** A value at a depth of nesting. examples/json.rs:24, lib.rs:39. *)
Fixpoint json_text (l : layout) (depth : nat) (j : json) : str :=
  match j with
  | JNull => lit "null"
  | JBool b => if b then lit "true" else lit "false"
  | JInt x => int_text x
  | JF32 x => show x
  | JStr s => quote s
  | JArr a => bracket l depth (lit "[") (lit "]") (map (json_text l (S depth)) a)
  | JObj o => bracket l depth (lit "{") (lit "}")
      (map (fun kv => match kv with (k, v) => quote k ++ colon l ++ json_text l (S depth) v end) o)
  end.
End Printer.

(** ** Binary32 numbers

    The shortest decimal number that lies nearer to the [f32] than to any other;
    of several equally short ones the nearest.  If two are equally near, serde_json
    writes the even one and [Display] (FloatDisplay.v) the larger one. *)

(** The value of a non-negative [f32] in units of [2 ^ -149]; infinity counts as
    [2 ^ 128]. For network/models.rs:7-9 as written by examples/json.rs:24. *)
Definition magnitude (a : Z) : Z :=
  if a / 2 ^ 23 =? 0 then a mod 2 ^ 23 else (2 ^ 23 + a mod 2 ^ 23) * 2 ^ (a / 2 ^ 23 - 1).

(** [10 ^ p <= x * 2 ^ -149]; examples/json.rs:24 *)
Definition has_power (x p : Z) : bool := 10 ^ Z.max p 0 * 2 ^ 149 <=? x * 10 ^ Z.max (- p) 0.
(** The largest such [p], estimated by means of log10(2) = 0.30103 and corrected.
    examples/json.rs:24. *)
Definition leading_power (x : Z) : Z :=
  let p := (Z.log2 x - 149) * 30103 / 100000 in
  if has_power x (p + 1) then p + 1 else p.

(** The largest [d] with [d * 10 ^ k <= x * 2 ^ -149]. examples/json.rs:24. *)
Definition truncated (x k : Z) : Z := x * 10 ^ Z.max (- k) 0 / (10 ^ Z.max k 0 * 2 ^ 149).

(** [d * 10 ^ k] lies between the middles of [a] and its neighbours; a middle
    belongs to the number whose last bit is zero. examples/json.rs:24. *)
Definition reads_as (a d k : Z) : bool :=
  let v := 2 * d * 10 ^ Z.max k 0 * 2 ^ 149 in
  let lo := (magnitude (a - 1) + magnitude a) * 10 ^ Z.max (- k) 0 in
  let hi := (magnitude a + magnitude (a + 1)) * 10 ^ Z.max (- k) 0 in
  if Z.even a then (lo <=? v) && (v <=? hi) else (lo <? v) && (v <? hi).

(** [d + 1] is nearer than [d]; if both are equally near, the even one counts as
    nearer, or the larger one if [up]. examples/json.rs:24. *)
Definition rounds_up (up : bool) (x d k : Z) : bool :=
  let v := (2 * d + 1) * 10 ^ Z.max k 0 * 2 ^ 149 in
  let w := 2 * x * 10 ^ Z.max (- k) 0 in
  (v <? w) || ((v =? w) && (up || Z.odd d)).

(** Try [n] digits, then one more. examples/json.rs:24. *)
Fixpoint shortest (up : bool) (fuel : nat) (a p n : Z) : Z * Z :=
  let k := p + 1 - n in
  let d := truncated (magnitude a) k in
  match fuel with
  | O => (d, k)
  | S f =>
      if reads_as a d k then
        if reads_as a (d + 1) k && rounds_up up (magnitude a) d k then (d + 1, k) else (d, k)
      else if reads_as a (d + 1) k then (d + 1, k)
      else shortest up f a p (n + 1)
  end.

(** Zeros at the end belong to the exponent. examples/json.rs:24. *)
Fixpoint strip_zeros (fuel : nat) (d k : Z) : Z * Z :=
  match fuel with
  | O => (d, k)
  | S f => if d mod 10 =? 0 then strip_zeros f (d / 10) (k + 1) else (d, k)
  end.

(** Digits and exponent of a positive number; nine digits always suffice.
    examples/json.rs:24. *)
Definition f32_decimal (up : bool) (a : Z) : Z * Z :=
  let (d, k) := shortest up 9 a (leading_power (magnitude a)) 1 in strip_zeros 9 d k.

(** A sign and an exponent. examples/json.rs:24. *)
Definition exponent_part (e : Z) : str :=
  lit "e" ++ (if 0 <? e then lit "+" else []) ++ int_text e.

(** [d * 10 ^ k] with a point, or with an exponent if it is large or small.
    examples/json.rs:24. *)
Definition layout_decimal (d k : Z) : str :=
  let ds := int_text d in
  let kk := lenZ ds + k in
  let at_ (i : Z) := firstn (Z.to_nat i) ds ++ lit "." ++ skipn (Z.to_nat i) ds in
  if (0 <=? k) && (kk <=? 13) then ds ++ repeat x30 (Z.to_nat k) ++ lit ".0"
  else if (0 <? kk) && (kk <=? 13) then at_ kk
  else if (-6 <? kk) && (kk <=? 0) then lit "0." ++ repeat x30 (Z.to_nat (- kk)) ++ ds
  else if lenZ ds =? 1 then ds ++ exponent_part (kk - 1)
  else at_ 1 ++ exponent_part (kk - 1).

(** The text of a finite [f32]. examples/json.rs:24. *)
Definition f32_text (x : f32) : str :=
  let a := x mod 2 ^ 31 in
  (if x <? 2 ^ 31 then [] else lit "-") ++
  if a =? 0 then lit "0.0" else let (d, k) := f32_decimal false a in layout_decimal d k.

(** ** json.rs *)

(** What a process leaves behind. examples/json.rs:4-25 *)
Record printed := mkPrinted { out_text : str; err_text : str; exit_code : Z }.

Section Program.
Context (B : bitter) (ho : hash_order) (show : f32 -> str) (show_error : parse_error -> str).

(** examples/json.rs:4-25; a panic ends the process with the code 101 *)
Definition json_main (data : list byte) : printed :=
  match builder_parse B ho (must_parse_network_data (always_check_crc (builder_new data))) with
  | Ok r => mkPrinted (json_text show Pretty 0 (ser_replay r)) [] 0
  | Err e => mkPrinted [] (lit "An error occurred: " ++ show_error e ++ [x0a]) 1
  | Panic _ => mkPrinted [] [] 101
  end.
End Program.
