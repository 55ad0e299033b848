(** * Properties: the size limit, comparison of replays, and redundant tables (C83-C85) *)

From Coq Require Import ZArith List Bool Lia.
From Verif Require Import Base F32 Text Errors NetTypes Header Body ObjectIndex BitReader Parser Json JsonNet JsonReplay JsonText EqNet EqReplay
  SpecBasic SpecNet SpecFile SpecReplay SpecFacts SpecJson SpecEq SpecBlank SpecEqReplay OverflowProofs EqReplayProofs CompareFacts Samples SamplesText SamplesLoose.
Open Scope Z_scope.

(** ** C83 *)

(** the bound of [C01_no_panic] is the best one *)
Theorem C83_any_size_refuted : exists data, lenZ data = 2 ^ 31 /\ forall B ho c n, parse_with B ho c n data = Panic PanicOverflow.
Proof. exact limit_sharp. Qed.
Print Assumptions C83_any_size_refuted.

(** every file that begins with these 24 bytes, if it is as long as their size says *)
Example C83_ex : forall B ho c n tail, lenZ tail = 2 ^ 31 - 24 -> parse_with B ho c n (long_start ++ tail) = Panic PanicOverflow.
Proof. exact long_panics. Qed.

(** ** C84 *)

Theorem C84_equal : forall B ho c n data r c' n' data' s, bitter_ok B -> hash_order_ok ho -> lenZ data < 2 ^ 31 -> lenZ data' < 2 ^ 31 ->
  parse_with B ho c n data = Ok r -> parse_with B ho c' n' data' = Ok s -> (eq_replay r s = true <-> equal_replay r s).
Proof. exact (fun B ho c n data r c' n' data' s HB Hho => parsed_equal B HB ho Hho c n data r c' n' data' s). Qed.
Print Assumptions C84_equal.

Theorem C84_itself : forall B ho c n data r, bitter_ok B -> hash_order_ok ho -> lenZ data < 2 ^ 31 ->
  parse_with B ho c n data = Ok r -> (eq_replay r r = true <-> Forall numeric (replay_floats r)).
Proof. exact (fun B ho c n data r HB Hho => parsed_self B HB ho Hho c n data r). Qed.
Print Assumptions C84_itself.

Theorem C84_symmetric : forall B ho c n data r c' n' data' s, bitter_ok B -> hash_order_ok ho -> lenZ data < 2 ^ 31 -> lenZ data' < 2 ^ 31 ->
  parse_with B ho c n data = Ok r -> parse_with B ho c' n' data' = Ok s -> eq_replay r s = eq_replay s r.
Proof. exact (fun B ho c n data r c' n' data' s HB Hho => parsed_sym B HB ho Hho c n data r c' n' data' s). Qed.
Print Assumptions C84_symmetric.

Theorem C84_transitive : forall B ho c n data r c' n' data' s c'' n'' data'' t, bitter_ok B -> hash_order_ok ho ->
  lenZ data < 2 ^ 31 -> lenZ data' < 2 ^ 31 -> lenZ data'' < 2 ^ 31 ->
  parse_with B ho c n data = Ok r -> parse_with B ho c' n' data' = Ok s -> parse_with B ho c'' n'' data'' = Ok t ->
  eq_replay r s = true -> eq_replay s t = true -> eq_replay r t = true.
Proof. exact (fun B ho c n data r c' n' data' s c'' n'' data'' t HB Hho => parsed_trans B HB ho Hho c n data r c' n' data' s c'' n'' data'' t). Qed.
Print Assumptions C84_transitive.

(** one file read twice: the replays are the same and not equal *)
Theorem C84_same_file_refuted : exists data r s,
  parse_with std_bitter key_order CrcAlways NetAlways data = Ok r /\ parse_with std_bitter key_order CrcAlways NetAlways data = Ok s /\
  r = s /\ eq_replay r s = false.
Proof. exact (match not_itself with ex_intro _ r (conj E H) => ex_intro _ cam_sample (ex_intro _ r (ex_intro _ r (conj E (conj E (conj eq_refl H))))) end). Qed.
Print Assumptions C84_same_file_refuted.

(** equal replays with different JSON texts *)
Theorem C84_same_text_refuted : exists data data' r s,
  parse_with std_bitter key_order CrcNever NetAlways data = Ok r /\ parse_with std_bitter key_order CrcNever NetAlways data' = Ok s /\
  eq_replay r s = true /\ json_text f32_text Compact 0 (ser_replay r) <> json_text f32_text Compact 0 (ser_replay s).
Proof. exact (ex_intro _ zero_sample (ex_intro _ minus_sample two_zeros)). Qed.
Print Assumptions C84_same_text_refuted.

(** two files with two zeros, and one whose last number is not one *)
Example C84_ex : (exists r s t,
  parse_with std_bitter key_order CrcNever NetAlways zero_sample = Ok r /\ parse_with std_bitter key_order CrcNever NetAlways minus_sample = Ok s /\
  parse_with std_bitter key_order CrcNever NetAlways tiny_sample = Ok t /\ eq_replay r s = true /\ eq_replay r t = false /\ eq_replay t t = true) /\
  same_value 0 0x80000000 /\ ~ numeric 0x7FC00000 /\ (exists r, parse_with std_bitter key_order CrcAlways NetAlways cam_sample = Ok r /\
    In 0x7FC00000 (replay_floats r)).
Proof.
  split; [|split; [|split]].
  - destruct two_zeros as (r & s & E & F & H & _).
    destruct (two_results (parse_with std_bitter key_order CrcNever NetAlways zero_sample) (parse_with std_bitter key_order CrcNever NetAlways tiny_sample)
      (fun r t => negb (eq_replay r t) && eq_replay t t)) as (r' & t & E' & G & K); [vm_compute; reflexivity|].
    rewrite E in E'. injection E' as <-. apply andb_true_iff in K as [K1 K2]. apply negb_true_iff in K1. exists r, s, t. auto 8.
  - left. exists 0. split; reflexivity.
  - intros [H|[H|H]]; [apply H; reflexivity|discriminate|discriminate].
  - assert (H : match parse_with std_bitter key_order CrcAlways NetAlways cam_sample with Ok r => existsb (Z.eqb 0x7FC00000) (replay_floats r) = true | _ => False end)
      by (vm_compute; reflexivity).
    destruct (parse_with std_bitter key_order CrcAlways NetAlways cam_sample) as [r| |]; try contradiction. exists r. split; [reflexivity|].
    apply existsb_exists in H as (x & I & X). apply Z.eqb_eq in X. now subst x.
Qed.

(** ** C85 *)

Theorem C85_streams : forall B ho c n data r fs, bitter_ok B -> hash_order_ok ho -> lenZ data < 2 ^ 31 -> parse_with B ho c n data = Ok r ->
  r_network_frames r = Some fs -> forall k p, In k (r_net_cache r) -> In p (nc_properties k) ->
  0 <= cp_object_ind p < lenZ (r_objects r).
Proof. exact streams_named. Qed.
Print Assumptions C85_streams.

(** a key frame of a frame that does not exist *)
Theorem C85_key_frames_refuted : exists data r fs k, parse_with std_bitter key_order CrcAlways NetAlways data = Ok r /\
  r_network_frames r = Some fs /\ In k (r_keyframes r) /\ lenZ fs <= kf_frame k.
Proof. exact key_frames_free. Qed.
Print Assumptions C85_key_frames_refuted.

(** a class that is not at its index *)
Theorem C85_class_index_refuted : exists data r fs x, parse_with std_bitter key_order CrcAlways NetAlways data = Ok r /\
  r_network_frames r = Some fs /\ In x (r_class_indices r) /\ ~ object_at (r_objects r) (cx_index x) (cx_class x).
Proof. exact class_indices_free. Qed.
Print Assumptions C85_class_index_refuted.

(** the second frame is before the first, at a positive distance from it *)
Theorem C85_delta_refuted : exists data r f g t u d, parse_with std_bitter key_order CrcAlways NetAlways data = Ok r /\
  r_network_frames r = Some [f; g] /\ f32_scaled (f_time f) = Some t /\ f32_scaled (f_time g) = Some u /\ f32_scaled (f_delta g) = Some d /\
  u < t /\ 0 < d.
Proof. exact deltas_free. Qed.
Print Assumptions C85_delta_refuted.

(** a cache of no object, with a parent that does not exist *)
Theorem C85_parent_refuted : exists data r fs k, parse_with std_bitter key_order CrcAlways NetAlways data = Ok r /\
  r_network_frames r = Some fs /\ In k (r_net_cache r) /\ lenZ (r_objects r) <= nc_object_ind k /\
  nc_parent_id k <> 0 /\ forall l, In l (r_net_cache r) -> nc_cache_id l <> nc_parent_id k.
Proof. exact parents_free. Qed.
Print Assumptions C85_parent_refuted.

(** the file behind the four refutations *)
Example C85_ex : exists r f g, parse_with std_bitter key_order CrcAlways NetAlways loose_sample = Ok r /\
  r_network_frames r = Some [f; g] /\ f_time f = 0x40000000 /\ f_time g = 0x3f800000 /\ f_delta g = 0x3e800000 /\
  lenZ (r_objects r) = 4 /\
  r_keyframes r = [mkKeyFrame 0x3f000000 7 2] /\ r_class_indices r = [mkClassIndex (lit "Nope") 9] /\
  r_net_cache r = [mkNetCache 9 77 1 [mkCacheProp 3 2]].
Proof. exact loose. Qed.
