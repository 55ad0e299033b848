(** * Facts about the errors of certain files *)

From Coq Require Import ZArith List Bool Lia.
From Verif Require Import Base F32 Text Errors NetTypes Header Body BitReader Parser Display FloatDisplay Debug DebugNet EqErrors
  SpecReplay SpecJson SpecEq SpecEqErrors BasicProofs CompareFacts Samples.
Open Scope Z_scope.

(** a file whose second frame cannot be decoded, with the time zero in its first
    frame, and with negative zero there *)
Definition zero_error : list byte := patch 580 [x00; x00; x00; x00] early_sample.
Definition minus_error : list byte := patch 580 [x00; x00; x00; x80] early_sample.
(** the message, where every printable character is shown as it is *)
Definition message (e : parse_error) : str := display_parse_error display_f32 (fun a => debug_text (fun _ => true) (dbg_attribute a)) e.

Lemma two_errors {A} (p q : outcome parse_error A) (f : parse_error -> parse_error -> bool) :
  match p, q with Err r, Err s => f r s | _, _ => false end = true -> exists r s, p = Err r /\ q = Err s /\ f r s = true.
Proof. destruct p as [|r|], q as [|s|]; try discriminate. eauto. Qed.

Lemma error_not_itself : exists e, parse_with std_bitter key_order CrcAlways NetAlways gone_sample = Err e /\ eq_parse_error e e = false.
Proof.
  destruct (two_errors (parse_with std_bitter key_order CrcAlways NetAlways gone_sample)
    (parse_with std_bitter key_order CrcAlways NetAlways gone_sample) (fun e f => negb (eq_parse_error e f))) as (e & f & E & F & H); [vm_compute; reflexivity|].
  assert (e = f) by congruence. subst f. exists e. split; [exact E|]. now apply negb_true_iff.
Qed.

Definition other_message (e f : parse_error) : bool := eq_parse_error e f && negb (str_eqb (message e) (message f)).
Lemma two_messages : exists e f, parse_with std_bitter key_order CrcNever NetAlways zero_error = Err e /\
  parse_with std_bitter key_order CrcNever NetAlways minus_error = Err f /\ eq_parse_error e f = true /\ message e <> message f.
Proof.
  destruct (two_errors (parse_with std_bitter key_order CrcNever NetAlways zero_error)
    (parse_with std_bitter key_order CrcNever NetAlways minus_error) other_message) as (e & f & E & F & H); [vm_compute; reflexivity|].
  apply andb_true_iff in H as [H K]. exists e, f. split; [exact E|]. split; [exact F|]. split; [exact H|].
  intros X. rewrite X, str_eqb_refl in K. discriminate.
Qed.

(** the same file with another name in its table of objects *)
Definition named_error : list byte := patch 812 [x62; x53; x68; x6f] early_sample.
Definition alike (e f : parse_error) : bool := negb (eq_parse_error e f) && str_eqb (message e) (message f).
Lemma one_message : exists e f, parse_with std_bitter key_order CrcNever NetAlways early_sample = Err e /\
  parse_with std_bitter key_order CrcNever NetAlways named_error = Err f /\ message e = message f /\ eq_parse_error e f = false.
Proof.
  destruct (two_errors (parse_with std_bitter key_order CrcNever NetAlways early_sample)
    (parse_with std_bitter key_order CrcNever NetAlways named_error) alike) as (e & f & E & F & H); [vm_compute; reflexivity|].
  apply andb_true_iff in H as [H K]. exists e, f. split; [exact E|]. split; [exact F|]. split; [|now apply negb_true_iff].
  now apply str_eqb_spec.
Qed.
