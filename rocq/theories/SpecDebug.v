(** * Specification: values in the notation of Rust

    Which texts stand for a value, following the notation of literals and of
    constructors in the Rust reference.  How characters are escaped and how floats
    are written is free where Rust leaves it free; the spaces are those of [{:?}]. *)

From Coq Require Import ZArith List Bool.
From Verif Require Import Base F32 Debug SpecBasic SpecText SpecDecimal SpecFacts SpecJson SpecJsonText SpecFloatDisplay.
Open Scope Z_scope.

Definition code (b : byte) : Z := Z.of_N (Byte.to_N b).

(** ** Names *)

Definition capital (b : byte) : Prop := 65 <= code b <= 90.
(** letters, digits and the underscore *)
Definition name_byte (b : byte) : Prop := 48 <= code b <= 57 \/ capital b \/ code b = 95 \/ 97 <= code b <= 122.
(** of a field *)
Definition field_name (n : str) : Prop := n <> [] /\ Forall name_byte n.
(** of a type or a variant *)
Definition type_name (n : str) : Prop := Forall name_byte n /\ n <> lit "NaN" /\ exists b t, n = b :: t /\ capital b.

(** ** Texts *)

Definition hex_number (ds : list Z) (h : str) : Prop := Forall2 (fun d b => hex_value b d) ds h.
(** most significant digit first *)
Fixpoint hex_sum (ds : list Z) : Z := match ds with [] => 0 | d :: t => d * 16 ^ Z.of_nat (length t) + hex_sum t end.

(** neither a control character nor one that must be escaped *)
Definition plain_char (c : Z) : Prop := 32 <= c /\ c <> 34 /\ c <> 92 /\ c <> 127.

(** a character of a text *)
Inductive char_literal : Z -> str -> Prop :=
| cl_plain c t : plain_char c -> utf8_one c t -> char_literal c t
| cl_short b c : In (b, c) [(x30, 0); (x74, 9); (x6e, 10); (x72, 13); (x22, 34); (x27, 39); (x5c, 92)] -> char_literal c [x5c; b]
| cl_unicode ds h : ds <> [] -> hex_number ds h -> scalar (hex_sum ds) ->
    char_literal (hex_sum ds) ([x5c; x75; x7b] ++ h ++ [x7d]).
Inductive chars_literal : list Z -> str -> Prop :=
| cls_nil : chars_literal [] []
| cls_cons c cs t u : char_literal c t -> chars_literal cs u -> chars_literal (c :: cs) (t ++ u).
Definition str_literal (s : str) (t : str) : Prop := exists cs u, utf8 cs s /\ chars_literal cs u /\ t = x22 :: u ++ [x22].

(** ** Numbers *)

(** [float_text]: a decimal number that a reader takes for [x], with a point or an exponent *)
Definition float_literal (x : f32) (t : str) : Prop := finite x /\ float_text x t \/ ~ finite x /\ special_text x t.

(** ** Values *)

Inductive literal : dbg -> str -> Prop :=
| li_int x t : decimal x t -> literal (DInt x) t
| li_true : literal (DBool true) (lit "true")
| li_false : literal (DBool false) (lit "false")
| li_f32 x t : is_u32 x -> float_literal x t -> literal (DF32 x) t
| li_str s t : str_literal s t -> literal (DStr s) t
| li_name n : type_name n -> literal (DName n) n
| li_tuple n l t : type_name n -> literals l t -> l <> [] -> literal (DTuple n l) (n ++ lit "(" ++ t ++ lit ")")
| li_pair a b t : literals [a; b] t -> literal (DTuple [] [a; b]) (lit "(" ++ t ++ lit ")")
| li_struct n l t : type_name n -> fields l t -> l <> [] -> literal (DStruct n l) (n ++ lit " { " ++ t ++ lit " }")
| li_list l t : literals l t -> literal (DList l) (lit "[" ++ t ++ lit "]")
(** separated by commas *)
with literals : list dbg -> str -> Prop :=
| ls_none : literals [] []
| ls_one d t : literal d t -> literals [d] t
| ls_more d t l u : literal d t -> literals l u -> l <> [] -> literals (d :: l) (t ++ lit ", " ++ u)
with fields : list (str * dbg) -> str -> Prop :=
| fs_none : fields [] []
| fs_one k d t : field_name k -> literal d t -> fields [(k, d)] (k ++ lit ": " ++ t)
| fs_more k d t l u : field_name k -> literal d t -> fields l u -> l <> [] -> fields ((k, d) :: l) ((k ++ lit ": " ++ t) ++ lit ", " ++ u).

(** ** Lines *)

(** neither an ASCII control character nor part of one: no line breaks, no escape sequences for terminals *)
Definition visible (t : str) : Prop := Forall (fun b => 32 <= code b /\ code b <> 127) t.
