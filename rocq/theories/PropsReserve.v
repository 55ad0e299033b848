(** * Properties: memory reserved ahead (C94) *)

From Coq Require Import ZArith List Bool Lia.
From Verif Require Import Base F32 NetTypes Errors Core Header Body BitReader ObjectIndex Network Parser
  Reserve SpecReserve SpecFacts SpecFile SpecNet SpecReplay BitLemmas ReserveProofs ReserveExact Samples.
Open Scope Z_scope.

(** ** C94 *)

(** Counting changes nothing else. *)
Theorem C94_same : forall B ho c n data, fst (reserved B ho c n data) = parse_with B ho c n data.
Proof. exact reserved_same. Qed.
Print Assumptions C94_same.

(** Accepted files: exactly the elements of the replay, and the announced number of frames ... *)
Theorem C94_exact : forall B ho c n data r, lenZ data < 2 ^ 31 -> parse_with B ho c n data = Ok r ->
  let R := snd (reserved B ho c n data) in
  (n = NetNever -> R = elements r) /\
  (r_network_frames r <> None ->
     (forall k, replay_int r "NumFrames" k -> R = elements r + k) /\
     ((forall k, ~ replay_int r "NumFrames" k) -> R = elements r)).
Proof. exact reserved_exact. Qed.
Print Assumptions C94_exact.

(** ... which is no more than the bytes of the file. *)
Theorem C94_accepted : forall B ho c n data r, parse_with B ho c n data = Ok r -> snd (reserved B ho c n data) <= lenZ data.
Proof. exact reserved_accepted. Qed.
Print Assumptions C94_accepted.

(** Every file: at most 25000 elements for every 34 bytes ... *)
Theorem C94_reserved : forall B ho c n data, 34 * snd (reserved B ho c n data) <= 25000 * lenZ data.
Proof. exact reserved_bound. Qed.
Print Assumptions C94_reserved.

(** ... and files of arrays inside each other do reserve that, whatever the policies. *)
Theorem C94_reached : forall B ho k, 34 * Z.of_nat k + 20 < 2 ^ 31 -> exists data, lenZ data = 34 * Z.of_nat k + 20 /\
  forall c n, snd (reserved B ho c n data) = 25000 * Z.of_nat k /\ exists e, parse_with B ho c n data = Err e.
Proof.
  intros B ho k H. exists (arrays_file k). split; [exact (proj1 (reached B ho CrcAlways NetNever k H))|].
  intros c n. exact (proj2 (reached B ho c n k H)).
Qed.
Print Assumptions C94_reached.

(** The sample: 20 elements, and 2 frames are announced. *)
Example C94_ex : exists r, parse_with std_bitter key_order CrcAlways NetAlways sample = Ok r /\
  lenZ sample = 935 /\ elements r = 20 /\ r_network_frames r <> None /\ replay_int r "NumFrames" 2 /\
  snd (reserved std_bitter key_order CrcAlways NetAlways sample) = 22 /\
  snd (reserved std_bitter key_order CrcAlways NetNever sample) = 20.
Proof.
  eexists. split; [vm_compute; reflexivity|]. split; [reflexivity|]. split; [reflexivity|]. split; [discriminate|].
  split; [exists []; eexists; split; [vm_compute; reflexivity|intros []]|]. split; vm_compute; reflexivity.
Qed.

(** 2060 bytes reserve 1.5 million elements; 36 MB, as a row takes 24 bytes. *)
Example C94_ex_arrays : lenZ (arrays_file 60) = 2060 /\
  snd (reserved std_bitter key_order CrcAlways NetAlways (arrays_file 60)) = 1500000.
Proof. vm_compute. auto. Qed.
