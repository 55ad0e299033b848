(** * Property theorems: comparison of errors (C90) *)

From Coq Require Import ZArith List Bool Lia.
From Verif Require Import Base F32 Text Errors NetTypes Header Body ObjectIndex BitReader Parser EqErrors
  SpecBasic SpecNet SpecReplay SpecFacts SpecJson SpecEq SpecEqErrors NetworkProofs EqErrorProofs EqErrorFacts Samples.
Open Scope Z_scope.

(** ** C90 *)

Theorem C90_equal : forall B ho c n data e c' n' data' f, bitter_ok B -> hash_order_ok ho -> lenZ data < 2 ^ 31 -> lenZ data' < 2 ^ 31 ->
  parse_with B ho c n data = Err e -> parse_with B ho c' n' data' = Err f -> (eq_parse_error e f = true <-> equal_error e f).
Proof. exact (fun B ho c n data e c' n' data' f HB Hho => parsed_equal B HB ho Hho c n data e c' n' data' f). Qed.
Print Assumptions C90_equal.

(** outside the network stream equal errors are the same *)
Theorem C90_same : forall B ho c n data e c' n' data' f, bitter_ok B -> hash_order_ok ho -> lenZ data < 2 ^ 31 -> lenZ data' < 2 ^ 31 ->
  parse_with B ho c n data = Err e -> parse_with B ho c' n' data' = Err f ->
  (forall x ctx, e <> ENetworkError (NFrameError x ctx)) -> (eq_parse_error e f = true <-> e = f).
Proof. exact (fun B ho c n data e c' n' data' f HB Hho => parsed_same B HB ho Hho c n data e c' n' data' f). Qed.
Print Assumptions C90_same.

Theorem C90_itself : forall B ho c n data e, bitter_ok B -> hash_order_ok ho -> lenZ data < 2 ^ 31 ->
  parse_with B ho c n data = Err e -> (eq_parse_error e e = true <-> Forall numeric (error_floats e)).
Proof. exact (fun B ho c n data e HB Hho => parsed_itself B HB ho Hho c n data e). Qed.
Print Assumptions C90_itself.

Theorem C90_symmetric : forall B ho c n data e c' n' data' f, bitter_ok B -> hash_order_ok ho -> lenZ data < 2 ^ 31 -> lenZ data' < 2 ^ 31 ->
  parse_with B ho c n data = Err e -> parse_with B ho c' n' data' = Err f -> eq_parse_error e f = eq_parse_error f e.
Proof. exact (fun B ho c n data e c' n' data' f HB Hho => parsed_sym B HB ho Hho c n data e c' n' data' f). Qed.
Print Assumptions C90_symmetric.

Theorem C90_transitive : forall B ho c n data e c' n' data' f c'' n'' data'' g, bitter_ok B -> hash_order_ok ho ->
  lenZ data < 2 ^ 31 -> lenZ data' < 2 ^ 31 -> lenZ data'' < 2 ^ 31 ->
  parse_with B ho c n data = Err e -> parse_with B ho c' n' data' = Err f -> parse_with B ho c'' n'' data'' = Err g ->
  eq_parse_error e f = true -> eq_parse_error f g = true -> eq_parse_error e g = true.
Proof. exact (fun B ho c n data e c' n' data' f c'' n'' data'' g HB Hho => parsed_trans B HB ho Hho c n data e c' n' data' f c'' n'' data'' g). Qed.
Print Assumptions C90_transitive.

(** one file read twice: the errors are the same and not equal *)
Theorem C90_same_file_refuted : exists data e f,
  parse_with std_bitter key_order CrcAlways NetAlways data = Err e /\ parse_with std_bitter key_order CrcAlways NetAlways data = Err f /\
  e = f /\ eq_parse_error e f = false.
Proof. exact (match error_not_itself with ex_intro _ e (conj E H) => ex_intro _ gone_sample (ex_intro _ e (ex_intro _ e (conj E (conj E (conj eq_refl H))))) end). Qed.
Print Assumptions C90_same_file_refuted.

(** equal errors with different messages *)
Theorem C90_same_message_refuted : exists data data' e f,
  parse_with std_bitter key_order CrcNever NetAlways data = Err e /\ parse_with std_bitter key_order CrcNever NetAlways data' = Err f /\
  eq_parse_error e f = true /\ message e <> message f.
Proof. exact (ex_intro _ zero_error (ex_intro _ minus_error two_messages)). Qed.
Print Assumptions C90_same_message_refuted.

(** errors with one message that are not equal *)
Theorem C90_message_decides_refuted : exists data data' e f,
  parse_with std_bitter key_order CrcNever NetAlways data = Err e /\ parse_with std_bitter key_order CrcNever NetAlways data' = Err f /\
  message e = message f /\ eq_parse_error e f = false.
Proof. exact (ex_intro _ early_sample (ex_intro _ named_error one_message)). Qed.
Print Assumptions C90_message_decides_refuted.

(** the error of a file with the time zero equals the one of a file with negative
    zero and itself, and not the one of a file whose time is one; all three report
    a time that is out of range *)
Example C90_ex : exists e f g,
  parse_with std_bitter key_order CrcNever NetAlways zero_error = Err e /\
  parse_with std_bitter key_order CrcNever NetAlways minus_error = Err f /\
  parse_with std_bitter key_order CrcAlways NetAlways early_sample = Err g /\
  error_floats e = [0xbf800000; 0; 0x3e800000] /\ error_floats f = [0xbf800000; 0x80000000; 0x3e800000] /\
  eq_parse_error e f = true /\ eq_parse_error e e = true /\ eq_parse_error e g = false /\ eq_parse_error g g = true.
Proof. do 3 eexists. split; [vm_compute; reflexivity|]. split; [vm_compute; reflexivity|]. split; [vm_compute; reflexivity|]. vm_compute. auto 6. Qed.

(** a file that ends in its header, read with two policies *)
Example C90_ex_header : exists e,
  parse_with std_bitter key_order CrcNever NetAlways (firstn 30 early_sample) = Err e /\
  parse_with std_bitter key_order CrcAlways NetNever (firstn 30 early_sample) = Err e /\
  (forall x ctx, e <> ENetworkError (NFrameError x ctx)) /\ eq_parse_error e e = true.
Proof. eexists. split; [vm_compute; reflexivity|]. split; [vm_compute; reflexivity|]. split; [discriminate|vm_compute; reflexivity]. Qed.
