(** * Specification: which JSON values describe a value of a type *)

From Coq Require Import ZArith List.
From Verif Require Import Base F32 Json SpecBasic SpecDecimal.
Open Scope Z_scope.

(** types as a reader sees them; [SStruct] and [SEnum] list the fields and the variants *)
Inductive schema :=
| SBool
| SInt (lo hi : Z)
| SFloat
| SText
| SDecimal (signed : bool) (lo hi : Z)   (** a whole number written as a text *)
| SOption (s : schema)
| SList (s : schema)
| STuple (l : list schema)
| SStruct (fields : list (str * schema))
| SEnum (units : list str) (variants : list (str * schema)).

(** digits, leading zeros allowed, behind an optional sign *)
Definition numeral (signed : bool) (x : Z) (s : str) : Prop :=
  exists ds t, are_digits ds /\ ds <> [] /\ ascii_digits ds t /\
    ((digits_number ds = x /\ (s = t \/ s = "+"%byte :: t)) \/
     (digits_number ds = - x /\ signed = true /\ s = "-"%byte :: t)).

(** the key occurs once, with this value *)
Definition once (k : str) (j : json) (entries : list (str * json)) : Prop :=
  exists a b, entries = a ++ (k, j) :: b /\ ~ In k (map fst a) /\ ~ In k (map fst b).

Inductive accepts : schema -> json -> Prop :=
| ac_bool b : accepts SBool (JBool b)
| ac_int lo hi x : lo <= x <= hi -> accepts (SInt lo hi) (JInt x)
| ac_float x : accepts SFloat (JF32 x)
| ac_whole x : accepts SFloat (JInt x)
| ac_text s : accepts SText (JStr s)
| ac_decimal signed lo hi x s : numeral signed x s -> lo <= x <= hi -> accepts (SDecimal signed lo hi) (JStr s)
| ac_none s : accepts (SOption s) JNull
| ac_some s j : accepts s j -> accepts (SOption s) j
| ac_list s l : Forall (accepts s) l -> accepts (SList s) (JArr l)
| ac_tuple ss l : Forall2 accepts ss l -> accepts (STuple ss) (JArr l)
(** an object: other keys are ignored, optional fields may be missing *)
| ac_object fields entries :
    Forall (fun f => (exists j, once (fst f) j entries /\ accepts (snd f) j) \/
                     (~ In (fst f) (map fst entries) /\ exists s, snd f = SOption s)) fields ->
    accepts (SStruct fields) (JObj entries)
(** or all fields in their order *)
| ac_sequence fields l : Forall2 (fun f j => accepts (snd f) j) fields l -> accepts (SStruct fields) (JArr l)
| ac_unit units variants k : In k units -> accepts (SEnum units variants) (JStr k)
| ac_unit_null units variants k : In k units -> accepts (SEnum units variants) (JObj [(k, JNull)])
| ac_variant units variants k s j : In (k, s) variants -> accepts s j -> accepts (SEnum units variants) (JObj [(k, j)]).

(** the same value with the entries of objects in another order *)
Inductive reordered : json -> json -> Prop :=
| re_same j : reordered j j
| re_list l m : Forall2 reordered l m -> reordered (JArr l) (JArr m)
| re_object e f g : Permutation.Permutation e f -> Forall2 (fun a b => fst a = fst b /\ reordered (snd a) (snd b)) f g ->
    reordered (JObj e) (JObj g).
