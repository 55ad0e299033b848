(** * Proofs: comparison of sample replays, and tables that contradict each other *)

From Coq Require Import ZArith List Bool Lia.
From Verif Require Import Base F32 Text Errors NetTypes Header Body ObjectIndex BitReader Parser Json JsonNet JsonReplay JsonText EqNet EqReplay
  SpecBasic SpecNet SpecFrames SpecFile SpecReplay SpecFacts SpecJson SpecEq SpecBlank SpecEqReplay FrameFacts ParseProofs BitLemmas EqReplayProofs Samples SamplesText SamplesLoose.
Open Scope Z_scope.

(** four bytes of a file replaced *)
Definition patch (at_ : nat) (four data : list byte) : list byte := firstn at_ data ++ four ++ skipn (at_ + 4) data.
(** a file whose key frame is at the time zero, and one where it is at negative zero *)
Definition zero_sample : list byte := patch 173 [x00; x00; x00; x00] tiny_sample.
Definition minus_sample : list byte := patch 173 [x00; x00; x00; x80] tiny_sample.

Lemma not_itself : exists r, parse_with std_bitter key_order CrcAlways NetAlways cam_sample = Ok r /\ eq_replay r r = false.
Proof.
  assert (H : match parse_with std_bitter key_order CrcAlways NetAlways cam_sample with Ok r => eq_replay r r = false | _ => False end)
    by (vm_compute; reflexivity).
  destruct (parse_with std_bitter key_order CrcAlways NetAlways cam_sample) as [r| |]; try contradiction. eauto.
Qed.
Lemma two_results (p q : outcome parse_error replay) (f : replay -> replay -> bool) :
  match p, q with Ok r, Ok s => f r s | _, _ => false end = true -> exists r s, p = Ok r /\ q = Ok s /\ f r s = true.
Proof. destruct p as [r| |], q as [s| |]; try discriminate. eauto. Qed.
Definition other_text (r s : replay) : bool :=
  eq_replay r s && negb (str_eqb (json_text f32_text Compact 0 (ser_replay r)) (json_text f32_text Compact 0 (ser_replay s))).
Lemma two_zeros : exists r s, parse_with std_bitter key_order CrcNever NetAlways zero_sample = Ok r /\
  parse_with std_bitter key_order CrcNever NetAlways minus_sample = Ok s /\ eq_replay r s = true /\
  json_text f32_text Compact 0 (ser_replay r) <> json_text f32_text Compact 0 (ser_replay s).
Proof.
  destruct (two_results (parse_with std_bitter key_order CrcNever NetAlways zero_sample) (parse_with std_bitter key_order CrcNever NetAlways minus_sample) other_text)
    as (r & s & E & F & H); [vm_compute; reflexivity|].
  apply andb_true_iff in H as [H K]. exists r, s. split; [exact E|]. split; [exact F|]. split; [exact H|].
  intros X. rewrite X, BasicProofs.str_eqb_refl in K. discriminate.
Qed.

(** ** What is checked *)

Lemma streams_named B ho c n data r fs : bitter_ok B -> hash_order_ok ho -> lenZ data < 2 ^ 31 -> parse_with B ho c n data = Ok r ->
  r_network_frames r = Some fs -> forall k p, In k (r_net_cache r) -> In p (nc_properties k) ->
  0 <= cp_object_ind p < lenZ (r_objects r).
Proof.
  intros HB Hho L E Ef k p Hk Hp. destruct (parse_frames_inv B HB ho Hho _ _ _ _ _ L E Ef) as (h & b & rest & xs & _ & Er & (R & _) & _).
  subst r. cbn [r_net_cache r_objects replay_of] in *. destruct (R p) as (name & H0 & H1); [apply in_flat_map; eauto|].
  split; [exact H0|]. assert (Z.to_nat (cp_object_ind p) < length (b_objects (sec_value b)))%nat by (apply nth_error_Some; congruence).
  unfold lenZ. lia.
Qed.

(** ** What is not checked *)

Lemma loose : exists r f g, parse_with std_bitter key_order CrcAlways NetAlways loose_sample = Ok r /\
  r_network_frames r = Some [f; g] /\ f_time f = 0x40000000 /\ f_time g = 0x3f800000 /\ f_delta g = 0x3e800000 /\
  lenZ (r_objects r) = 4 /\
  r_keyframes r = [mkKeyFrame 0x3f000000 7 2] /\ r_class_indices r = [mkClassIndex (lit "Nope") 9] /\
  r_net_cache r = [mkNetCache 9 77 1 [mkCacheProp 3 2]].
Proof.
  assert (H : match parse_with std_bitter key_order CrcAlways NetAlways loose_sample with
    | Ok r => match r_network_frames r with
      | Some [f; g] => f_time f = 0x40000000 /\ f_time g = 0x3f800000 /\ f_delta g = 0x3e800000 /\
          lenZ (r_objects r) = 4 /\
          r_keyframes r = [mkKeyFrame 0x3f000000 7 2] /\ r_class_indices r = [mkClassIndex (lit "Nope") 9] /\
          r_net_cache r = [mkNetCache 9 77 1 [mkCacheProp 3 2]]
      | _ => False end
    | _ => False end) by (vm_compute; repeat split; reflexivity).
  destruct (parse_with std_bitter key_order CrcAlways NetAlways loose_sample) as [r| |]; try contradiction.
  destruct (r_network_frames r) as [[|f [|g [|]]]|] eqn:Ef; try contradiction. exists r, f, g. auto.
Qed.

Lemma key_frames_free : exists data r fs k, parse_with std_bitter key_order CrcAlways NetAlways data = Ok r /\
  r_network_frames r = Some fs /\ In k (r_keyframes r) /\ lenZ fs <= kf_frame k.
Proof.
  destruct loose as (r & f & g & E & Ef & _ & _ & _ & _ & K & _ & _). exists loose_sample, r, [f; g], (mkKeyFrame 0x3f000000 7 2).
  split; [exact E|]. split; [exact Ef|]. rewrite K. split; [left; reflexivity|]. vm_compute. discriminate.
Qed.
Lemma class_indices_free : exists data r fs x, parse_with std_bitter key_order CrcAlways NetAlways data = Ok r /\
  r_network_frames r = Some fs /\ In x (r_class_indices r) /\ ~ object_at (r_objects r) (cx_index x) (cx_class x).
Proof.
  destruct loose as (r & f & g & E & Ef & _ & _ & _ & L & _ & C & _). exists loose_sample, r, [f; g], (mkClassIndex (lit "Nope") 9).
  split; [exact E|]. split; [exact Ef|]. rewrite C. split; [left; reflexivity|]. intros [_ H]. cbn [cx_index] in H.
  assert (Z.to_nat 9 < length (r_objects r))%nat by (apply nth_error_Some; congruence). unfold lenZ in L. lia.
Qed.
Lemma deltas_free : exists data r f g t u d, parse_with std_bitter key_order CrcAlways NetAlways data = Ok r /\
  r_network_frames r = Some [f; g] /\ f32_scaled (f_time f) = Some t /\ f32_scaled (f_time g) = Some u /\ f32_scaled (f_delta g) = Some d /\
  u < t /\ 0 < d.
Proof.
  destruct loose as (r & f & g & E & Ef & Tf & Tg & Dg & _). exists loose_sample, r, f, g, (2 ^ 150), (2 ^ 149), (2 ^ 147).
  rewrite Tf, Tg, Dg. split; [exact E|]. split; [exact Ef|]. vm_compute. auto 8.
Qed.
Lemma parents_free : exists data r fs k, parse_with std_bitter key_order CrcAlways NetAlways data = Ok r /\
  r_network_frames r = Some fs /\ In k (r_net_cache r) /\ lenZ (r_objects r) <= nc_object_ind k /\
  nc_parent_id k <> 0 /\ forall l, In l (r_net_cache r) -> nc_cache_id l <> nc_parent_id k.
Proof.
  destruct loose as (r & f & g & E & Ef & _ & _ & _ & L & _ & _ & N). exists loose_sample, r, [f; g], (mkNetCache 9 77 1 [mkCacheProp 3 2]).
  split; [exact E|]. split; [exact Ef|]. rewrite N, L. split; [left; reflexivity|]. split; [discriminate|]. split; [discriminate|].
  intros l [<-|[]]. discriminate.
Qed.
