(** * Properties: fewer frames asked for, more network data *)

From Coq Require Import ZArith List Bool String.
From Verif Require Import Base NetTypes Errors Core Header Body BitReader ObjectIndex Network Parser
  SpecFile SpecFrames SpecReplay SpecTail BitLemmas RunProofs TailProofs Samples.
Open Scope Z_scope.

(** ** C61 *)

Theorem C61_prefix : forall B, bitter_ok B -> forall ho, hash_order_ok ho ->
  forall data data' h b rest h' b' rest' n k fs, lenZ data < 2 ^ 31 -> lenZ data' < 2 ^ 31 ->
  f_file data (h, b) rest -> f_file data' (h', b') rest' ->
  same_settings (sec_value h) (sec_value h') -> continued (sec_value b) (sec_value b') [] ->
  frame_count (sec_value h) n -> frame_count (sec_value h') k -> 0 <= k <= n ->
  parse_with B ho CrcNever NetAlways data = Ok (replay_of h b (Some fs)) ->
  parse_with B ho CrcNever NetAlways data' = Ok (replay_of h' b' (Some (firstn (Z.to_nat k) fs))).
Proof. exact fewer_frames. Qed.
Print Assumptions C61_prefix.

(** the sample has two frames; one is asked for *)
Example C61_ex : exists h b rest h' b' rest' fs r,
  f_file sample (h, b) rest /\ f_file one_sample (h', b') rest' /\
  same_settings (sec_value h) (sec_value h') /\ continued (sec_value b) (sec_value b') [] /\
  frame_count (sec_value h) 2 /\ frame_count (sec_value h') 1 /\
  parse_with std_bitter key_order CrcNever NetAlways sample = Ok (replay_of h b (Some fs)) /\ List.length fs = 2%nat /\
  parse_with std_bitter key_order CrcNever NetAlways one_sample = Ok r /\ r_network_frames r = Some (firstn 1 fs).
Proof.
  destruct (run_pair sample one_sample [] 2 1) as (h & b & rest & h' & b' & rest' & E & E' & F & F' & S & C & N & N').
  { reflexivity. }
  { vm_compute. repeat split. }
  pose (fs := frames_in (parse_with std_bitter key_order CrcNever NetAlways sample)).
  exists h, b, rest, h', b', rest', fs, (replay_of h' b' (Some (firstn 1 fs))).
  assert (P : match run_file sample, run_file one_sample with
    | Some (h, b, _), Some (h', b', _) =>
        parse_with std_bitter key_order CrcNever NetAlways sample = Ok (replay_of h b (Some fs)) /\
        parse_with std_bitter key_order CrcNever NetAlways one_sample = Ok (replay_of h' b' (Some (firstn 1 fs)))
    | _, _ => False end) by (vm_compute; split; reflexivity).
  rewrite E, E' in P. destruct P as [P P']. assert (L : List.length fs = 2%nat) by (vm_compute; reflexivity).
  clearbody fs. auto 20.
Qed.

(** ** C62 *)

Theorem C62_more_data : forall B, bitter_ok B -> forall ho, hash_order_ok ho ->
  forall data data' h b rest h' b' rest' extra fs, lenZ data < 2 ^ 31 -> lenZ data' < 2 ^ 31 ->
  f_file data (h, b) rest -> f_file data' (h', b') rest' ->
  same_settings (sec_value h) (sec_value h') -> continued (sec_value b) (sec_value b') extra ->
  frame_count (sec_value h) (Z.of_nat (List.length fs)) -> frame_count (sec_value h') (Z.of_nat (List.length fs)) ->
  (forall f, In f fs -> frame_whole f) ->
  parse_with B ho CrcNever NetAlways data = Ok (replay_of h b (Some fs)) ->
  parse_with B ho CrcNever NetAlways data' = Ok (replay_of h' b' (Some fs)).
Proof. exact more_data. Qed.
Print Assumptions C62_more_data.

(** the sample with two more bytes of network data *)
Example C62_ex : exists h b rest h' b' rest' fs r,
  f_file sample (h, b) rest /\ f_file more_sample (h', b') rest' /\
  same_settings (sec_value h) (sec_value h') /\ continued (sec_value b) (sec_value b') [xff; x2a] /\
  frame_count (sec_value h) 2 /\ frame_count (sec_value h') 2 /\ List.length fs = 2%nat /\
  (forall f, In f fs -> frame_whole f) /\
  parse_with std_bitter key_order CrcNever NetAlways sample = Ok (replay_of h b (Some fs)) /\
  parse_with std_bitter key_order CrcNever NetAlways more_sample = Ok r /\ r_network_frames r = Some fs.
Proof.
  destruct (run_pair sample more_sample [xff; x2a] 2 2) as (h & b & rest & h' & b' & rest' & E & E' & F & F' & S & C & N & N').
  { reflexivity. }
  { vm_compute. repeat split. }
  pose (fs := frames_in (parse_with std_bitter key_order CrcNever NetAlways sample)).
  exists h, b, rest, h', b', rest', fs, (replay_of h' b' (Some fs)).
  assert (P : match run_file sample, run_file more_sample with
    | Some (h, b, _), Some (h', b', _) =>
        parse_with std_bitter key_order CrcNever NetAlways sample = Ok (replay_of h b (Some fs)) /\
        parse_with std_bitter key_order CrcNever NetAlways more_sample = Ok (replay_of h' b' (Some fs))
    | _, _ => False end) by (vm_compute; split; reflexivity).
  rewrite E, E' in P. destruct P as [P P']. assert (L : List.length fs = 2%nat) by (vm_compute; reflexivity).
  assert (W : forall f, In f fs -> frame_whole f).
  { unfold fs. clear. vm_compute. intros f [<-|[<-|[]]] u Hu; cbn in Hu; [destruct Hu as [<-|[]]|destruct Hu]. exact I. }
  clearbody fs. auto 20.
Qed.

(** A body whose velocities do not fit has none (C19); more data can turn padding
    into velocities. *)
Theorem C62_any_frame_refuted : exists data data' h b rest h' b' rest' extra r r' fs fs',
  f_file data (h, b) rest /\ f_file data' (h', b') rest' /\
  same_settings (sec_value h) (sec_value h') /\ continued (sec_value b) (sec_value b') extra /\
  frame_count (sec_value h) (Z.of_nat (List.length fs)) /\ frame_count (sec_value h') (Z.of_nat (List.length fs)) /\
  parse_with std_bitter key_order CrcAlways NetAlways data = Ok r /\ r_network_frames r = Some fs /\
  parse_with std_bitter key_order CrcAlways NetAlways data' = Ok r' /\ r_network_frames r' = Some fs' /\
  List.length fs' = List.length fs /\ fs <> fs'.
Proof. exact more_data_refuted. Qed.
Print Assumptions C62_any_frame_refuted.
