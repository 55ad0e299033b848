(** * Property theorems: messages of errors outside the frames (C96) *)

From Coq Require Import ZArith List Lia.
From Verif Require Import Base F32 Text NetTypes Errors BitReader ObjectIndex Parser Json Display SpecBasic SpecJson SpecReplay SpecDisplay SpecMessage
  BitLemmas DisplayUnique MessageProofs MessageTyped Samples.
Import ListNotations.
Open Scope Z_scope.

(** ** C96 *)

Theorem C96_typed : forall B ho c n data e, bitter_ok B -> hash_order_ok ho -> lenZ data < 2 ^ 31 ->
  parse_with B ho c n data = Err e -> typed_error e.
Proof. exact (fun B ho c n data e HB Hho => files_typed B HB ho Hho c n data e). Qed.
Print Assumptions C96_typed.

Theorem C96_message : forall show_f32 debug_attribute e, outside e -> typed_error e ->
  reads (error_message e) (display_parse_error show_f32 debug_attribute e).
Proof. exact message. Qed.
Print Assumptions C96_message.

Theorem C96_unique : forall e t u, reads (error_message e) t -> reads (error_message e) u -> t = u.
Proof. exact (fun e => reads_fun (error_message e)). Qed.
Print Assumptions C96_unique.

(** of files: an empty one, one with a changed byte, one without its first ten bytes, and one that announces
    too many frames *)
Example C96_ex : let display data := match parse_with std_bitter key_order CrcAlways NetAlways data with
    | Err e => Some (display_parse_error display_Z (fun _ => []) e) | _ => None end in
  map display [[]; firstn 30 sample ++ [x00] ++ skipn 31 sample; skipn 10 sample; few_sample] =
  map (fun s => Some (lit s))
  ["Could not decode replay header size at offset (0): Insufficient data. Expected 4 bytes, but only 0 left";
   "Crc mismatch. Expected 2214411202 but received 2277015223";
   "Could not decode replay header data at offset (8): Insufficient data. Expected 1310720 bytes, but only 917 left";
   "Too many frames to decode: 3"]%string.
Proof. vm_compute. reflexivity. Qed.

(** the others *)
Definition others : list parse_error :=
  [EParseError "header properties" 120 (EUtf8Error (4, Some 2)); EUtf8Error (7, None); ETextTooLarge (-10001);
   EUnexpectedProperty (lit "MapProperty"); ECorruptReplay "body" (EListTooLarge 5); EListTooLarge (2 ^ 64 - 1);
   ENetworkError (NStreamTooLargeIndex 7 (-5)); ENetworkError (NNotEnoughDataFor "x"); ENetworkError (NObjectIdOutOfRange 9);
   ENetworkError (NMissingParentClass (lit "A.B") (lit "C")); ENetworkError (NParentHasNoAttributes 3 4)].
Example C96_ex2 : Forall (fun e => outside e /\ typed_error e) others /\
  map (display_parse_error display_Z (fun _ => [])) others = map lit
  ["Could not decode replay header properties at offset (120): Unable decode data as utf8: invalid utf-8 sequence of 2 bytes from index 4";
   "Unable decode data as utf8: incomplete utf-8 byte sequence from index 7";
   "Text of size -10001 is too large";
   "Did not expect a property of: MapProperty";
   "Failed to parse body and crc check failed. Replay is corrupt";
   "list of size 18446744073709551615 is too large";
   "Stream id of 7 references out of range object index: -5";
   "Not enough data to decode x";
   "Object Id of 9 exceeds range";
   "Replay contained object: A.B but not the parent class: C";
   "Parent id of 3 for object id of 4 was not recognized to have attributes"]%string.
Proof.
  split; [|vm_compute; reflexivity]. repeat constructor; try lia; cbv; intuition discriminate.
Qed.
