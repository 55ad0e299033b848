(** * Property theorems: serde (C40, C41, C42, C52, C53) *)

From Coq Require Import ZArith List Bool Lia.
From Verif Require Import Base F32 NetTypes Errors Header Body BitReader ObjectIndex Parser Json JsonNet JsonReplay
  ReaderLogic BitLemmas SpecBasic SpecFacts SpecReplay SpecDecimal SpecJson CacheProofs JsonLogic JsonProofs TypedProofs JsonFacts SpecAlike AlikeProofs Samples.
Open Scope Z_scope.

(** ** C40 *)

Theorem C40_signed : forall x, is_i64 x -> exists s, ser_i64s x = JStr s /\ decimal x s /\ de_i64s (JStr s) = Some x.
Proof. exact signed_text. Qed.
Print Assumptions C40_signed.

Theorem C40_unsigned : forall x, is_u64 x -> exists s, ser_u64s x = JStr s /\ decimal x s /\ de_u64s (JStr s) = Some x.
Proof. exact unsigned_text. Qed.
Print Assumptions C40_unsigned.

(** a header property: the text determines the number *)
Theorem C40_header_qword : forall x, is_u64 x -> exists s, ser_header_prop (HQWord x) = JStr s /\ decimal x s /\
  forall y, decimal y s -> y = x.
Proof. exact qword_text. Qed.
Print Assumptions C40_header_qword.

(** a number that does not fit is rejected, not truncated *)
Theorem C40_too_large : forall x s, decimal x s ->
  (~ is_i64 x -> de_i64s (JStr s) = None) /\ (~ is_u64 x -> de_u64s (JStr s) = None).
Proof. exact too_large. Qed.
Print Assumptions C40_too_large.

Example C40_ex : is_i64 (- 2 ^ 63) /\ ser_i64s (- 2 ^ 63) = JStr (lit "-9223372036854775808") /\
  de_i64s (JStr (lit "-9223372036854775808")) = Some (- 2 ^ 63) /\
  is_u64 (2 ^ 64 - 1) /\ ser_u64s (2 ^ 64 - 1) = JStr (lit "18446744073709551615") /\
  decimal (2 ^ 64) (lit "18446744073709551616") /\ de_u64s (JStr (lit "18446744073709551616")) = None.
Proof.
  split; [split; reflexivity || discriminate|]. split; [vm_compute; reflexivity|]. split; [vm_compute; reflexivity|].
  split; [split; reflexivity || discriminate|]. split; [vm_compute; reflexivity|]. split; [|vm_compute; reflexivity].
  replace (lit "18446744073709551616") with (display_Z (2 ^ 64)) by (vm_compute; reflexivity). apply display_decimal. reflexivity.
Qed.

(** ** C41 *)

Theorem C41_round_trip : forall f, typed_frame f ->
  (de_frame (ser_frame f) = Some f <-> Forall finite (floats_frame f)).
Proof. exact rt_frame. Qed.
Print Assumptions C41_round_trip.

(** decoded frames, one by one and together *)
Theorem C41_decoded : forall B ho c n data r fs, bitter_ok B -> hash_order_ok ho -> lenZ data < 2 ^ 31 ->
  parse_with B ho c n data = Ok r -> r_network_frames r = Some fs ->
  Forall typed_frame fs /\
  (de_vec de_frame (ser_vec ser_frame fs) = Some fs <-> Forall finite (flat_map floats_frame fs)).
Proof. exact decoded_frames. Qed.
Print Assumptions C41_decoded.

(** the frames of the sample meet the hypotheses *)
Example C41_ex : exists r f g,
  parse_with std_bitter key_order CrcAlways NetAlways sample = Ok r /\ r_network_frames r = Some [f; g] /\
  typed_frame f /\ length (f_new_actors f) = 1%nat /\ length (f_updated_actors f) = 1%nat /\
  Forall finite (floats_frame f) /\ de_frame (ser_frame f) = Some f.
Proof.
  eexists _, _, _. split; [vm_compute; reflexivity|]. split; [reflexivity|].
  split; [cbn; repeat constructor; cbv; intuition discriminate|]. split; [reflexivity|]. split; [reflexivity|].
  split; [repeat constructor; vm_compute; discriminate|vm_compute; reflexivity].
Qed.
(** and not those of another *)
Example C41_ex2 : exists r fs, parse_with std_bitter key_order CrcAlways NetAlways odd_sample = Ok r /\
  r_network_frames r = Some fs /\ ~ Forall finite (flat_map floats_frame fs).
Proof.
  eexists _, _. split; [vm_compute; reflexivity|]. split; [reflexivity|].
  intros H. apply Forall_inv in H. apply H. vm_compute. reflexivity.
Qed.

(** ** C42 *)

(** the decoded frames cannot be read back *)
Theorem C42_round_trip_refuted : exists data r fs,
  parse_with std_bitter key_order CrcAlways NetAlways data = Ok r /\ r_network_frames r = Some fs /\
  de_vec de_frame (ser_vec ser_frame fs) = None.
Proof. exact unreadable. Qed.
Print Assumptions C42_round_trip_refuted.

(** the decoded frames are read back as other frames *)
Theorem C42_no_silent_change_refuted : exists data r fs fs',
  parse_with std_bitter key_order CrcAlways NetAlways data = Ok r /\ r_network_frames r = Some fs /\
  de_vec de_frame (ser_vec ser_frame fs) = Some fs' /\ fs' <> fs.
Proof. exact changed. Qed.
Print Assumptions C42_no_silent_change_refuted.

Example C42_ex : exists r f, parse_with std_bitter key_order CrcAlways NetAlways cam_sample = Ok r /\
  r_network_frames r = Some [f] /\
  (exists c, map u_attribute (f_updated_actors f) = [ACamSettings c] /\ cs_transition c = Some 0x7FC00000 /\
     exists f' c', de_frame (ser_frame f) = Some f' /\ map u_attribute (f_updated_actors f') = [ACamSettings c'] /\
       cs_transition c' = None).
Proof.
  eexists _, _. split; [vm_compute; reflexivity|]. split; [reflexivity|].
  eexists. split; [reflexivity|]. split; [reflexivity|].
  eexists _, _. split; [vm_compute; reflexivity|]. split; reflexivity.
Qed.

(** ** C52 *)

(** Two parsed replays are written as the same JSON exactly if they look alike. *)
Theorem C52_json_determines : forall B ho c n data r c' n' data' s, bitter_ok B -> hash_order_ok ho ->
  lenZ data < 2 ^ 31 -> lenZ data' < 2 ^ 31 ->
  parse_with B ho c n data = Ok r -> parse_with B ho c' n' data' = Ok s -> finite_frames r -> finite_frames s ->
  (ser_replay r = ser_replay s <-> alike_replay r s).
Proof. exact (fun B ho c n data r c' n' data' s HB Hho => json_same B HB ho Hho c n data r c' n' data' s). Qed.
Print Assumptions C52_json_determines.

(** the sample meets the hypotheses, has frames and properties, and does not look
    like the same replay without its frames *)
Example C52_ex : exists r s,
  parse_with std_bitter key_order CrcAlways NetAlways sample = Ok r /\ finite_frames r /\
  parse_with std_bitter key_order CrcAlways NetNever sample = Ok s /\ finite_frames s /\
  length (r_properties r) = 7%nat /\ (exists fs, r_network_frames r = Some fs /\ length fs = 2%nat) /\ ~ alike_replay r s.
Proof.
  eexists _, _. split; [vm_compute; reflexivity|].
  split; [unfold finite_frames; cbn; repeat constructor; vm_compute; discriminate|].
  split; [vm_compute; reflexivity|]. split; [exact Logic.I|]. split; [reflexivity|].
  split; [eexists; split; reflexivity|]. intros (_ & _ & _ & H & _). discriminate.
Qed.

(** ** C53 *)

(** different replays, the same JSON *)
Theorem C53_distinct_json_refuted : exists data data', lenZ data < 2 ^ 31 /\ lenZ data' < 2 ^ 31 /\ exists r s,
  parse_with std_bitter key_order CrcNever NetNever data = Ok r /\
  parse_with std_bitter key_order CrcNever NetNever data' = Ok s /\
  r_properties r = [(lit "K", HName (lit "V"))] /\ r_properties s = [(lit "K", HStr (lit "V"))] /\
  ser_replay r = ser_replay s.
Proof. exact same_json_twice. Qed.
Print Assumptions C53_distinct_json_refuted.
