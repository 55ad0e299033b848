(** * Property C88: the width of [usize] *)

From Coq Require Import ZArith List.
From Verif Require Import Base F32 NetTypes Errors BitReader ObjectIndex Parser Display SpecBasic SpecReplay SpecWidth
  Width Samples WidthProofs WidthText.
Import ListNotations.
Open Scope Z_scope.

(** ** C88: on a platform whose [usize] has between 32 and 64 bits the parser
    returns the same replays, and otherwise the same errors up to numbers that
    are kept as [usize] *)

Theorem C88_model : parse_with_w 64 = parse_with.
Proof. exact width_64. Qed.
Print Assumptions C88_model.

Theorem C88_portable : forall w B ho c n data, 32 <= w <= 64 -> hash_order_ok ho -> lenZ data < 2 ^ 31 ->
  parse_with_w w B ho c n data = narrow_result w (parse_with B ho c n data).
Proof. exact (fun w B ho c n data W Ho => width_same w W B ho Ho c n data). Qed.
Print Assumptions C88_portable.

Example C88_portable_ex : exists r fs,
  parse_with_w 32 std_bitter key_order CrcAlways NetAlways sample = Ok r /\ r_network_frames r = Some fs /\
  length fs = 2%nat /\ lenZ sample < 2 ^ 31.
Proof. do 2 eexists. split; [vm_compute; reflexivity|]. split; [reflexivity|]. split; [vm_compute; reflexivity|reflexivity]. Qed.

Theorem C88_replays : forall w B ho c n data r, 32 <= w <= 64 -> hash_order_ok ho -> lenZ data < 2 ^ 31 ->
  parse_with_w w B ho c n data = Ok r <-> parse_with B ho c n data = Ok r.
Proof. exact (fun w B ho c n data r W => replay_same w W B ho c n data r). Qed.
Print Assumptions C88_replays.

Theorem C88_messages : forall w show_f32 debug_attribute B ho c n data e, 32 <= w <= 64 -> hash_order_ok ho ->
  lenZ data < 2 ^ 31 -> parse_with B ho c n data = Err e ->
  match list_size e with Some k => k < 2 ^ w | None => True end ->
  exists e', parse_with_w w B ho c n data = Err e' /\
    display_parse_error_w w show_f32 debug_attribute e' = display_parse_error show_f32 debug_attribute e.
Proof. exact (fun w sf da B ho c n data e W => message_same w W sf da B ho c n data e). Qed.
Print Assumptions C88_messages.

(** an error in the network data, and the message about it at both widths *)
Example C88_messages_ex :
  match parse_with std_bitter key_order CrcAlways NetAlways bad_sample with
  | Err (ENetworkError (NFrameError (FMissingAttribute actor obj stream) ctx) as e) =>
      list_size e = None /\ (actor, obj, stream) = (3, 4, 2) /\ lenZ bad_sample < 2 ^ 31 /\
      match parse_with_w 32 std_bitter key_order CrcAlways NetAlways bad_sample with
      | Err e' => display_parse_error_w 32 (fun _ => []) (fun _ => []) e' =
                  display_parse_error (fun _ => []) (fun _ => []) e
      | _ => False
      end
  | _ => False
  end.
Proof. vm_compute. repeat split; reflexivity. Qed.

(** The message about a list of negative size shows the size as a [usize]. *)
Theorem C88_messages_refuted : exists data e e', forall show_f32 debug_attribute,
  parse_with std_bitter key_order CrcNever NetNever data = Err e /\
  parse_with_w 32 std_bitter key_order CrcNever NetNever data = Err e' /\
  display_parse_error show_f32 debug_attribute e =
    lit "Could not decode replay levels at offset (41): list of size 18446744073709551615 is too large" /\
  display_parse_error_w 32 show_f32 debug_attribute e' =
    lit "Could not decode replay levels at offset (41): list of size 4294967295 is too large".
Proof.
  exists negative_list, (EParseError "levels" 41 (EListTooLarge 18446744073709551615)),
    (EParseError "levels" 41 (EListTooLarge 4294967295)).
  intros sf da. repeat split; vm_compute; reflexivity.
Qed.
Print Assumptions C88_messages_refuted.
