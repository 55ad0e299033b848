(** * Specification: JSON texts (RFC 8259)

    Which texts stand for a JSON value.  White space, the notation of
    characters and of numbers are free where the RFC leaves them free. *)

From Coq Require Import ZArith List Bool.
From Verif Require Import Base F32 Json SpecBasic SpecText SpecDecimal SpecFacts SpecJson.
Open Scope Z_scope.

(** space, tab, line feed, carriage return *)
Definition spaces (w : str) : Prop := Forall (fun b => In (Z.of_N (Byte.to_N b)) [32; 9; 10; 13]) w.

(** ** Numbers *)

(** [c * 10 ^ e]: whole number, digits after the point, exponent *)
Inductive fraction_text : list Z -> str -> Prop :=
| ft_none : fraction_text [] []
| ft_some ds s : ds <> [] -> are_digits ds -> ascii_digits ds s -> fraction_text ds ("."%byte :: s).

Inductive exponent_text : option Z -> str -> Prop :=
| et_none : exponent_text None []
| et_some m sg f ds s : In m ["e"%byte; "E"%byte] -> In (sg, f) [([], 1); (["+"%byte], 1); (["-"%byte], -1)] ->
    ds <> [] -> are_digits ds -> ascii_digits ds s -> exponent_text (Some (f * digits_number ds)) (m :: sg ++ s).

Definition exponent (e : option Z) : Z := match e with Some x => x | None => 0 end.
(** written without point and exponent *)
Definition whole (fs : list Z) (e : option Z) : bool := match fs, e with [], None => true | _, _ => false end.

(** [number neg c e w t]: [t] stands for [c * 10 ^ e], negative if [neg]; [w]: it is a whole number *)
Inductive number : bool -> Z -> Z -> bool -> str -> Prop :=
| number_intro neg ds d fs f e x : are_digits ds -> no_leading_zero ds -> ascii_digits ds d ->
    fraction_text fs f -> exponent_text e x ->
    number neg (digits_number (ds ++ fs)) (exponent e - lenZ fs) (whole fs e)
      ((if neg then ["-"%byte] else []) ++ d ++ f ++ x).

(** ** Binary32 numbers as decimal numbers

    [c * 10 ^ e] and [v * 2 ^ -149] are compared after multiplication with
    [2 ^ 149 * 10 ^ (- e)] if [e] is negative, [2 ^ 149] otherwise. *)

Definition distance (c e v : Z) : Z := Z.abs (c * 10 ^ Z.max e 0 * 2 ^ 149 - v * 10 ^ Z.max (- e) 0).
(** below the middle between the largest finite number and [2 ^ 128] *)
Definition not_too_large (c e : Z) : Prop := c * 10 ^ Z.max e 0 * 2 ^ 149 < (2 ^ 277 - 2 ^ 252) * 10 ^ Z.max (- e) 0.

(** The non-negative binary32 number [a] is the nearest to [c * 10 ^ e]; of two
    that are equally near it is the one whose last bit is zero. *)
Definition nearest (c e : Z) (a : f32) : Prop :=
  0 <= a < 2 ^ 31 /\ not_too_large c e /\
  exists v, f32_scaled a = Some v /\
    forall y w, 0 <= y < 2 ^ 31 -> f32_scaled y = Some w -> y <> a ->
      distance c e v < distance c e w \/ distance c e v = distance c e w /\ Z.even a = true.

(** [t] is a number, not written as a whole number, that a reader takes for [x] *)
Definition float_text (x : f32) (t : str) : Prop :=
  exists neg c e a, number neg c e false t /\ nearest c e a /\ x = if neg : bool then 2 ^ 31 + a else a.

(** ** Texts *)

Definition hex_value (b : byte) (x : Z) : Prop :=
  let c := Z.of_N (Byte.to_N b) in
  48 <= c <= 57 /\ x = c - 48 \/ 97 <= c <= 102 /\ x = c - 87 \/ 65 <= c <= 70 /\ x = c - 55.
(** backslash, u, four digits *)
Definition unit_text (u : Z) (t : str) : Prop :=
  exists a b c d w x y z, t = [x5c; x75; a; b; c; d] /\ hex_value a w /\ hex_value b x /\ hex_value c y /\ hex_value d z /\
    u = 4096 * w + 256 * x + 16 * y + z.

(** [char_text t s]: the notation [t] stands for [s] *)
Inductive char_text : str -> str -> Prop :=
| ct_plain b : 32 <= Z.of_N (Byte.to_N b) -> Z.of_N (Byte.to_N b) <> 34 -> Z.of_N (Byte.to_N b) <> 92 -> char_text [b] [b]
| ct_short b c : In (b, c) [(x22, 34); (x5c, 92); (x2f, 47); (x62, 8); (x66, 12); (x6e, 10); (x72, 13); (x74, 9)] ->
    forall d, Z.of_N (Byte.to_N d) = c -> char_text [x5c; b] [d]
| ct_unit u t s : unit_text u t -> ~ 0xD800 <= u <= 0xDFFF -> utf8_one u s -> char_text t s
| ct_pair u v t t' s : unit_text u t -> unit_text v t' -> 0xD800 <= u <= 0xDBFF -> 0xDC00 <= v <= 0xDFFF ->
    utf8_one (0x10000 + (u - 0xD800) * 0x400 + (v - 0xDC00)) s -> char_text (t ++ t') s.
Inductive chars_text : str -> str -> Prop :=
| cs_nil : chars_text [] []
| cs_cons t s t' s' : char_text t s -> chars_text t' s' -> chars_text (t ++ t') (s ++ s').
Definition string_text (s : str) (t : str) : Prop := exists u, chars_text u s /\ t = x22 :: u ++ [x22].

(** ** Values *)

Inductive value_text : json -> str -> Prop :=
| vt_null : value_text JNull (lit "null")
| vt_true : value_text (JBool true) (lit "true")
| vt_false : value_text (JBool false) (lit "false")
| vt_int neg c e t : number neg c e true t -> value_text (JInt (if neg then - c else c)) t
| vt_f32 x t : float_text x t -> value_text (JF32 x) t
| vt_str s t : string_text s t -> value_text (JStr s) t
| vt_arr0 w : spaces w -> value_text (JArr []) ("["%byte :: w ++ ["]"%byte])
| vt_arr l t : items_text l t -> value_text (JArr l) ("["%byte :: t ++ ["]"%byte])
| vt_obj0 w : spaces w -> value_text (JObj []) ("{"%byte :: w ++ ["}"%byte])
| vt_obj l t : members_text l t -> value_text (JObj l) ("{"%byte :: t ++ ["}"%byte])
with items_text : list json -> str -> Prop :=
| it_last j t w w' : spaces w -> spaces w' -> value_text j t -> items_text [j] (w ++ t ++ w')
| it_more j t w w' l u : spaces w -> spaces w' -> value_text j t -> items_text l u ->
    items_text (j :: l) (w ++ t ++ w' ++ ","%byte :: u)
with members_text : list (str * json) -> str -> Prop :=
| mt_last k j m : member_text k j m -> members_text [(k, j)] m
| mt_more k j m l u : member_text k j m -> members_text l u -> members_text ((k, j) :: l) (m ++ ","%byte :: u)
with member_text : str -> json -> str -> Prop :=
| mb k j q t w1 w2 w3 w4 : spaces w1 -> spaces w2 -> spaces w3 -> spaces w4 -> string_text k q -> value_text j t ->
    member_text k j (w1 ++ q ++ w2 ++ ":"%byte :: w3 ++ t ++ w4).

(** a whole text; white space around the value is allowed *)
Definition json_document (j : json) (t : str) : Prop :=
  exists w u w', spaces w /\ spaces w' /\ value_text j u /\ t = w ++ u ++ w'.

(** ** The text of a binary32 number *)

(** [c * 10 ^ e = d * 10 ^ k] *)
Definition same_decimal (c e d k : Z) : Prop := c * 10 ^ Z.max (e - k) 0 = d * 10 ^ Z.max (k - e) 0.
(** [d] has at most as many digits as [c] *)
Definition no_longer (d c : Z) : Prop := forall j, 0 <= j -> c < 10 ^ j -> d < 10 ^ j.
(** [d * 10 ^ k] lies at least as near to [v] as [c * 10 ^ e] *)
Definition no_farther (v d k c e : Z) : Prop :=
  distance d k v * 10 ^ Z.max (- e) 0 <= distance c e v * 10 ^ Z.max (- k) 0.

(** [d * 10 ^ k] is read as [a]; no decimal number with fewer digits is; and of
    those with as many digits none lies nearer *)
Definition shortest_decimal (a : f32) (d k : Z) : Prop :=
  nearest d k a /\ 0 <= d < 10 ^ 9 /\
  forall c e, 0 <= c -> nearest c e a -> no_longer d c /\
    (no_longer c d -> forall v, f32_scaled a = Some v -> no_farther v d k c e).

(** another number that is not longer, is read as [a] and lies as near *)
Definition tied (a : f32) (d k c e : Z) : Prop :=
  0 <= c /\ nearest c e a /\ no_longer c d /\ ~ same_decimal c e d k /\ exists v, f32_scaled a = Some v /\ no_farther v c e d k.
(** only numbers with an odd last digit are tied *)
Definition ties_to_even (a : f32) (d k : Z) : Prop := forall c e, tied a d k c e -> Z.odd c = true.
(** only lesser numbers are tied *)
Definition ties_up (a : f32) (d k : Z) : Prop :=
  forall c e, tied a d k c e -> c * 10 ^ Z.max (e - k) 0 < d * 10 ^ Z.max (k - e) 0.

(** [show] writes every finite number as a text that is read as it *)
Definition shows (show : f32 -> str) : Prop := forall x, is_u32 x -> finite x -> float_text x (show x).

(** ** Readers that know only binary64 numbers *)

(** [m * 2 ^ q] is a non-negative binary64 number *)
Definition binary64 (m q : Z) : Prop := 0 <= m < 2 ^ 53 /\ -1074 <= q <= 971 /\ (-1074 < q -> 2 ^ 52 <= m).
(** between [c * 10 ^ e] and [m * 2 ^ q], in units of [2 ^ -1074], and of [10 ^ e] if [e] is negative *)
Definition distance64 (c e m q : Z) : Z := Z.abs (c * 10 ^ Z.max e 0 * 2 ^ 1074 - m * 2 ^ (q + 1074) * 10 ^ Z.max (- e) 0).
Definition nearest64 (c e m q : Z) : Prop :=
  binary64 m q /\ forall n p, binary64 n p -> (n, p) <> (m, q) ->
    distance64 c e m q < distance64 c e n p \/ distance64 c e m q = distance64 c e n p /\ Z.even m = true.

(** the number is taken for the nearest binary64 number, and that for the nearest binary32 number *)
Definition float_text64 (x : f32) (t : str) : Prop :=
  exists neg c e m q a, number neg c e false t /\ nearest64 c e m q /\
    nearest (m * 2 ^ Z.max q 0 * 5 ^ Z.max (- q) 0) (Z.min q 0) a /\ x = if neg : bool then 2 ^ 31 + a else a.
