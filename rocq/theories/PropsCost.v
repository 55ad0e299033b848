(** * Properties: the number of operations (C100) *)

From Coq Require Import ZArith List Bool.
From Verif Require Import Base NetTypes Errors Header Body BitReader ObjectIndex Network Parser BitLemmas
  SpecReplay SpecCost Cost CostNet CostFile CostNetProofs CostFileProofs CostFileLower Samples.
Open Scope Z_scope.

(** ** C100 *)

(** Counting changes nothing else. *)
Theorem C100_same : forall B ho c n data, fst (parse_counted B ho c n data) = parse_with B ho c n data.
Proof. exact same_result. Qed.
Print Assumptions C100_same.

(** Accepted or not, a file takes a number of operations proportional to its length, *)
Theorem C100_linear : forall B ho c n data, bitter_ok B -> snd (parse_counted B ho c n data) <= 38 * lenZ data + 1100.
Proof. exact counted_bound. Qed.
Print Assumptions C100_linear.

(** its frames one proportional to the length of the network data alone, whatever the
    header and the tables, *)
Theorem C100_frames : forall B ho h b, bitter_ok B ->
  fst (network_parse_frames_c B ho h b) = network_parse_frames B ho h b /\
  snd (network_parse_frames_c B ho h b) <= 32 * lenZ (b_network_data b) + 1100.
Proof. intros B ho h b HB. split; [apply er_network|now apply f_network]. Qed.
Print Assumptions C100_frames.

(** and at least one for each frame and each record in it. *)
Theorem C100_least : forall B ho c n data r fs, parse_with B ho c n data = Ok r -> r_network_frames r = Some fs ->
  frames_size fs <= snd (parse_counted B ho c n data).
Proof. exact counted_least. Qed.
Print Assumptions C100_least.

(** The sample. *)
Example C100_ex : exists r fs, parse_with std_bitter key_order CrcAlways NetAlways sample = Ok r /\
  r_network_frames r = Some fs /\ lenZ sample = 935 /\ frames_size fs = 5 /\
  snd (parse_counted std_bitter key_order CrcNever NetNever sample) = 1116 /\
  snd (parse_counted std_bitter key_order CrcAlways NetNever sample) = 2035 /\
  snd (parse_counted std_bitter key_order CrcAlways NetAlways sample) = 2094.
Proof.
  eexists _, _. split; [vm_compute; reflexivity|]. split; [reflexivity|]. split; [reflexivity|].
  split; [vm_compute; reflexivity|]. split; [vm_compute; reflexivity|]. split; vm_compute; reflexivity.
Qed.
