(** * Specification: 32-bit numbers in formatted text *)

From Coq Require Import ZArith List Bool.
From Verif Require Import Base F32 SpecBasic SpecFacts SpecJson SpecJsonText.
Open Scope Z_scope.

(** [t] stands for [c * 10 ^ e], negative if [neg], and has no exponent *)
Definition plain (neg : bool) (c e : Z) (t : str) : Prop :=
  (exists w, number neg c e w t) /\ ~ In "e"%byte t /\ ~ In "E"%byte t.

(** [c * 10 ^ e] has no needless digits behind the point *)
Definition trimmed (c e : Z) : Prop := e <= 0 /\ (e < 0 -> c mod 10 <> 0).

(** between [v * 2 ^ -149] and [n / 100], in units of [2 ^ -149 / 100] *)
Definition hundredth_distance (n v : Z) : Z := Z.abs (n * 2 ^ 149 - 100 * v).
(** [n / 100] is the multiple of 1/100 nearest to [a]; of two that are equally near it is the even one *)
Definition nearest_hundredth (a : f32) (n : Z) : Prop :=
  exists v, f32_scaled a = Some v /\ forall m, m <> n ->
    hundredth_distance n v < hundredth_distance m v \/ hundredth_distance n v = hundredth_distance m v /\ Z.even n = true.

(** how numbers that are not finite are written *)
Definition special_text (x : f32) (t : str) : Prop :=
  x = 0x7f800000 /\ t = lit "inf" \/ x = 0xff800000 /\ t = lit "-inf" \/
  x <> 0x7f800000 /\ x <> 0xff800000 /\ t = lit "NaN".
