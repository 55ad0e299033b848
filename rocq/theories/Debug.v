(** * Model: [{:?}]

    The error texts of errors.rs show values with [Debug].  What
    [#[derive(Debug)]] does for the types of /repo/src/network is in DebugNet.v;
    the formatting code of [core] is modelled by its result, on one line (there is
    no [{:#?}] in /repo). *)

From Coq Require Import ZArith List Bool.
From Verif Require Import Base F32 Text Json JsonText FloatDisplay.
Open Scope Z_scope.

(** What is shown: numbers, truth values, texts, the name of a variant without
    fields, a name with values, a name with named values, and the values of a [Vec]
    or an array. errors.rs:146-147, 169. *)
Inductive dbg :=
| DInt (x : Z)
| DBool (b : bool)
| DF32 (x : f32)
| DStr (s : str)
| DName (n : str)
| DTuple (n : str) (l : list dbg)
| DStruct (n : str) (l : list (str * dbg))
| DList (l : list dbg).

(** ** Numbers *)

(** [d * 10 ^ k] with at least one digit behind the point. errors.rs:169, for e.g.
    network/attributes.rs:80. *)
Definition point_decimal (d k : Z) : str := plain_decimal d k ++ if 0 <=? k then lit ".0" else [].
(** [d * 10 ^ k] with one digit before the point, and an exponent. errors.rs:169. *)
Definition exp_decimal (d k : Z) : str :=
  match int_text d with
  | [] => []
  | b :: t => b :: (match t with [] => [] | _ => lit "." ++ t end) ++ lit "e" ++ int_text (k + lenZ t)
  end.
(** The shortest digits that are read back; with an exponent from [1e16] on and
    below [1e-4]. errors.rs:169, for e.g. network/attributes.rs:80. *)
Definition debug_f32 (x : f32) : str :=
  let a := x mod 2 ^ 31 in
  float_form x
    (if a =? 0 then lit "0.0"
     else let (d, k) := f32_decimal true a in
       if (a <? 0x38d1b717) || (0x5a0e1bca <=? a) then exp_decimal d k else point_decimal d k).

(** ** Texts *)

(** Hexadecimal digits without leading zeros. errors.rs:169, for e.g. network/attributes.rs:106. *)
Fixpoint hex_digits (fuel : nat) (x : Z) (acc : str) : str :=
  match fuel with
  | O => acc
  | S n => if x <? 16 then hex_digit x :: acc else hex_digits n (x / 16) (hex_digit (x mod 16) :: acc)
  end.

Section Shown.
(** which characters that are not ASCII are shown as they are: the tables of [core]
    for printable characters and for those that attach to the one before *)
Context (shown : Z -> bool).

(** [char::escape_debug] inside a text: [c] has the UTF-8 form [bs]. errors.rs:169. *)
Definition debug_char (c : Z) (bs : str) : str :=
  if c =? 0 then [x5c; x30]
  else if c =? 9 then [x5c; x74]
  else if c =? 10 then [x5c; x6e]
  else if c =? 13 then [x5c; x72]
  else if c =? 34 then [x5c; x22]
  else if c =? 92 then [x5c; x5c]
  else if if c <? 128 then (32 <=? c) && (c <? 127) else shown c then bs
  else lit "\u{" ++ hex_digits 6 c [] ++ lit "}".

(** The characters of a text; bytes that are not UTF-8 do not occur in a [String].
    errors.rs:169, for e.g. network/attributes.rs:106. *)
Fixpoint debug_chars (s : str) : str :=
  match s with
  | [] => []
  | b0 :: t0 =>
      let x0 := byteZ b0 in
      if x0 <? 0x80 then debug_char x0 [b0] ++ debug_chars t0
      else match t0 with
      | [] => []
      | b1 :: t1 =>
          let x1 := 64 * (x0 mod 32) + byteZ b1 mod 64 in
          if x0 <? 0xE0 then debug_char x1 [b0; b1] ++ debug_chars t1
          else match t1 with
          | [] => []
          | b2 :: t2 =>
              let x2 := 64 * (64 * (x0 mod 16) + byteZ b1 mod 64) + byteZ b2 mod 64 in
              if x0 <? 0xF0 then debug_char x2 [b0; b1; b2] ++ debug_chars t2
              else match t2 with
              | [] => []
              | b3 :: t3 =>
                  let x3 := 64 * (64 * (64 * (x0 mod 8) + byteZ b1 mod 64) + byteZ b2 mod 64) + byteZ b3 mod 64 in
                  debug_char x3 [b0; b1; b2; b3] ++ debug_chars t3
              end
          end
      end
  end.

(** [Debug for str]. errors.rs:169, for e.g. network/attributes.rs:106. *)
Definition debug_str (s : str) : str := x22 :: debug_chars s ++ [x22].

(** ** Values *)

(** Between the parts of a value. errors.rs:169. *)
Fixpoint commas (l : list str) : str :=
  match l with
  | [] => []
  | [x] => x
  | x :: t => x ++ lit ", " ++ commas t
  end.

(** [Formatter::debug_tuple], [debug_struct] and [debug_list], which the derived
    code calls. errors.rs:146-147, 169. *)
Fixpoint debug_text (d : dbg) : str :=
  match d with
  | DInt x => int_text x
  | DBool b => if b then lit "true" else lit "false"
  | DF32 x => debug_f32 x
  | DStr s => debug_str s
  | DName n => n
  | DTuple n l => n ++ lit "(" ++ commas (map debug_text l) ++ lit ")"
  | DStruct n l => n ++ lit " { " ++ commas (map (fun kv => match kv with (k, v) => k ++ lit ": " ++ debug_text v end) l) ++ lit " }"
  | DList l => lit "[" ++ commas (map debug_text l) ++ lit "]"
  end.
End Shown.
