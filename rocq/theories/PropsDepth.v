(** * Properties: the depth of header properties (C68) *)

From Coq Require Import ZArith List Bool Lia.
From Verif Require Import Base F32 NetTypes Errors Core Header Body BitReader ObjectIndex Network Parser
  SpecFile SpecReplay SpecWrite SpecDepth BitLemmas DepthProofs Samples.
Open Scope Z_scope.

(** ** C68 *)

Theorem C68_depth : forall B ho c n data r k, lenZ data < 2 ^ 31 -> parse_with B ho c n data = Ok r ->
  levels k (r_properties r) -> 43 * Z.of_nat k + 77 <= lenZ data.
Proof. exact depth_bound. Qed.
Print Assumptions C68_depth.

(** The bound is reached at every depth. *)
Theorem C68_reached : forall B ho k c, 43 * Z.of_nat k + 77 < 2 ^ 31 ->
  exists data r, lenZ data = 43 * Z.of_nat k + 77 /\
    parse_with B ho c NetNever data = Ok r /\ levels k (r_properties r).
Proof. exact depth_reached. Qed.
Print Assumptions C68_reached.

(** an array with a struct behind an integer: two levels; the shortest file with two levels
    has 163 bytes *)
Definition two_levels : bytes :=
  write_file (mkHeader 868 12 None (lit "TAGame") [(lit "a", HInt 5); (lit "b", HArray [[]; [(lit "c", HStruct (lit "s") [])]])])
             (mkBody [] [] [] [] [] [] [] [] [] []).
Example C68_ex : exists r, parse_with std_bitter key_order CrcAlways NetNever two_levels = Ok r /\
  levels 2 (r_properties r) /\ lenZ two_levels = 220.
Proof.
  eexists. split; [vm_compute; reflexivity|]. split; [|reflexivity]. cbn [r_properties].
  eapply levels_array; [right; left; reflexivity|right; left; reflexivity|].
  eapply levels_struct; [left; reflexivity|constructor].
Qed.
