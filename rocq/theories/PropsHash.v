(** * Properties: unique ids in hash tables (C107) *)

From Coq Require Import ZArith List Bool String.
From Verif Require Import Base Text NetTypes Errors Header Body BitReader ObjectIndex Network Parser Wire SpecText SpecNan SpecFile SpecReplay SpecWrite SpecHash
  BitLemmas EqNet EqLogic EqNetProofs HashId HashProofs EraSharp Samples.
Import ListNotations.
Open Scope Z_scope.

(** ** C107 *)

(** What a hasher receives of two different unique ids differs, and neither is the beginning of the other. *)
Theorem C107_apart : forall T u v s t, target_ok T -> rust_unique_id T u -> rust_unique_id T v ->
  fed_unique_id T u ++ s = fed_unique_id T v ++ t -> u = v /\ s = t.
Proof. intros T u v s t HT. exact (code_unique_id T HT u v s t). Qed.
Print Assumptions C107_apart.

(** So it does of two lists of as many ids, e.g. of pairs. *)
Theorem C107_lists : forall T l m s t, target_ok T -> Forall (rust_unique_id T) l -> Forall (rust_unique_id T) m -> List.length l = List.length m ->
  flat_map (fed_unique_id T) l ++ s = flat_map (fed_unique_id T) m ++ t -> l = m /\ s = t.
Proof. intros T l m s t HT. exact (code_ids T HT l m s t). Qed.
Print Assumptions C107_lists.

(** [==] and what is hashed agree, as a hash table needs it. *)
Theorem C107_equal : forall T u v, target_ok T -> rust_unique_id T u -> rust_unique_id T v ->
  (eq_unique_id u v = true <-> fed_unique_id T u = fed_unique_id T v).
Proof.
  intros T u v HT Hu Hv. rewrite (exact_iff _ eqs_unique_id). split; [congruence|]. intros E.
  apply (code_unique_id T HT u v [] [] Hu Hv). now rewrite E.
Qed.
Print Assumptions C107_equal.

(** All unique ids in all replays that are read are such ids. *)
Theorem C107_read : forall T B ho c n data r fs, target_ok T -> bitter_ok B -> hash_order_ok ho -> lenZ data < 2 ^ 31 ->
  parse_with B ho c n data = Ok r -> r_network_frames r = Some fs -> Forall (rust_unique_id T) (flat_map frame_ids fs).
Proof. exact parsed_ids. Qed.
Print Assumptions C107_read.

(** Two ids of a file. *)
Definition i_bits : Wire.bits :=
  w_start true ++ [true] ++ enc_bounded 1023 0 ++ [true; false; true] ++ enc_bounded 6 3 ++
  enc_bits 8 1 ++ enc_bits 64 76561198000000001 ++ enc_bits 8 0 ++ [true] ++ enc_bounded 6 3 ++
  enc_bits 8 4 ++ enc_bits 64 76561198000000001 ++ enc_bits 8 0.
Example C107_ex : exists r fs, parse_with std_bitter key_order CrcAlways NetAlways (write_file (w_header 20 (Some 2) ordinary) (w_body i_bits)) = Ok r /\
  r_network_frames r = Some fs /\
  flat_map frame_ids fs = [mkUniqueId 1 (RSteam 76561198000000001) 0; mkUniqueId 4 (RXbox 76561198000000001) 0].
Proof.
  eexists _, _. split; [apply w_parse; [reflexivity|reflexivity|vm_compute; reflexivity]|]. split; reflexivity.
Qed.

(** The same letters, divided in another way over two names. *)
Definition i_name (s : string) : unique_id := mkUniqueId 11 (REpic (lit s)) 0.
Definition x86_64 := mkTarget true 8.
Definition old_mips := mkTarget false 4.
Example C107_ex_names : Forall target_ok [x86_64; old_mips] /\
  (forall T, target_ok T -> rust_unique_id T (i_name "ab") /\ rust_unique_id T (i_name "a")) /\
  fed_unique_id x86_64 (i_name "a") = [x0b; x07; x00; x00; x00; x00; x00; x00; x00; x61; xff; x00] /\
  fed_unique_id old_mips (i_name "a") = [x0b; x00; x00; x00; x07; x61; xff; x00] /\
  fed_unique_id x86_64 (i_name "a") ++ fed_unique_id x86_64 (i_name "bc") <>
    fed_unique_id x86_64 (i_name "ab") ++ fed_unique_id x86_64 (i_name "c").
Proof.
  assert (V : forall T s, plain (lit s) = true -> rust_unique_id T (i_name s)).
  { intros T s H. split; [split; reflexivity || discriminate|]. split; [|split; reflexivity || discriminate].
    split; [exact I|]. split; [|exact I]. constructor; [|constructor]. exists (map byteZ (lit s)). apply plain_utf8.
    apply andb_prop in H. apply H. }
  split; [constructor; [|constructor; [|constructor]]; unfold target_ok; cbn; auto|]. split; [intros T _; split; now apply V|].
  split; [reflexivity|]. split; [reflexivity|]. intros E.
  apply C107_apart in E; [|unfold target_ok; cbn; auto|now apply V..]. destruct E as [E _]. discriminate E.
Qed.
