(** * Properties: on what of the header the network data depend *)

From Coq Require Import ZArith List Bool String.
From Verif Require Import Base Text NetTypes Errors Core Header Body BitReader ObjectIndex Network Parser
  BitLemmas SpecBasic SpecFile SpecReplay SpecWrite RunProofs SpecEra EraProofs EraSharp Samples.
Import ListNotations.
Open Scope Z_scope.

(** ** C99 *)

Theorem C99_header : forall B ho h h' b b', agree_all h h' -> same_network b b' ->
  network_parse_frames B ho h b = network_parse_frames B ho h' b'.
Proof. exact same_network_frames. Qed.
Print Assumptions C99_header.

(** in files *)
Theorem C99_files : forall B ho data data' h h' b b' rest rest' n, lenZ data < 2 ^ 31 -> lenZ data' < 2 ^ 31 ->
  f_file data (h, b) rest -> f_file data' (h', b') rest' ->
  agree_all (sec_value h) (sec_value h') -> same_network (sec_value b) (sec_value b') ->
  match parse_with B ho CrcNever n data, parse_with B ho CrcNever n data' with
  | Ok r, Ok r' => r_network_frames r = r_network_frames r'
  | Err e, Err e' => e = e'
  | Panic p, Panic p' => p = p'
  | _, _ => False
  end.
Proof. exact same_files. Qed.
Print Assumptions C99_files.

(** none of the twelve aspects can be left out *)
Theorem C99_all_count : forall a, In a aspects -> exists h h', agree_but a h h' /\ told_apart h h'.
Proof. exact all_count. Qed.
Print Assumptions C99_all_count.

(** Versions 868.20.2 and 868.22.6, one without the number of channels and with the
    kind of match given differently, and the file with either. *)
Example C99_ex : exists h h' b r r' fs, agree_all h h' /\ h_minor h = 20 /\ h_minor h' = 22 /\
  map fst (h_properties h') = [lit "MapName"; lit "NumFrames"; lit "MatchType"] /\
  map fst (h_properties h) = [lit "NumFrames"; lit "MaxChannels"; lit "MatchType"; lit "BuildVersion"] /\
  parse_with std_bitter key_order CrcAlways NetAlways (write_file h b) = Ok r /\
  parse_with std_bitter key_order CrcAlways NetAlways (write_file h' b) = Ok r' /\
  r_network_frames r = Some fs /\ r_network_frames r' = Some fs /\ length (flat_map f_updated_actors fs) = 1%nat.
Proof.
  exists (w_header 20 (Some 2) ordinary),
    (w_header 22 (Some 6) [(lit "MapName", HName (lit "Park_P")); (lit "NumFrames", HInt 1); (lit "MatchType", HStr (lit "Lan"))]),
    (w_body (w_start true ++ w_attr 1 [])).
  eexists _, _, _. split.
  { unfold agree_all. intros x Hx. cbn in Hx. repeat (destruct Hx as [<-|Hx]; [try agree_one; idtac|]); try now destruct Hx.
    intros _ N. exfalso. apply N. apply reached_geb. reflexivity. }
  split; [reflexivity|]. split; [reflexivity|]. split; [reflexivity|]. split; [reflexivity|].
  split; [apply w_parse; vm_compute; reflexivity|].
  split; [apply w_parse; vm_compute; reflexivity|].
  split; [reflexivity|]. split; reflexivity.
Qed.
