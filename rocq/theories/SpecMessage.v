(** * Specification: the messages of errors outside the frames

    As in SpecDisplay a message is a list of pieces; here for all errors but those
    about a frame. *)

From Coq Require Import ZArith List.
From Verif Require Import Base Text NetTypes Errors SpecBasic SpecFacts SpecJson SpecDisplay.
Open Scope Z_scope.

(** not about a frame *)
Fixpoint outside (e : parse_error) : Prop :=
  match e with
  | EParseError _ _ x => outside x
  | ECorruptReplay _ x => outside x
  | ENetworkError (NFrameError _ _) => False
  | _ => True
  end.

(** the numbers are within their Rust types *)
Fixpoint typed_error (e : parse_error) : Prop :=
  match e with
  | EParseError _ at_ x => is_i32 at_ /\ typed_error x
  | EUtf8Error (at_, n) => is_u64 at_ /\ match n with Some x => 1 <= x <= 3 | None => True end
  | ETextTooLarge n => is_i32 n
  | EInsufficientData want rest => is_i32 want /\ is_i32 rest
  | EUnexpectedProperty _ => True
  | ECrcMismatch want found => is_u32 want /\ is_u32 found
  | ECorruptReplay _ x => typed_error x
  | EListTooLarge n => is_u64 n
  | ENetworkError x =>
      match x with
      | NObjectIdOutOfRange o => is_i32 o
      | NStreamTooLargeIndex s o => is_i32 s /\ is_i32 o
      | NParentHasNoAttributes p o => is_i32 p /\ is_i32 o
      | NTooManyFrames n => is_i32 n
      | _ => True
      end
  end.

(** what is wrong with a text that is not UTF-8 *)
Definition utf8_message (x : utf8_error) : list piece :=
  match x with
  | (at_, Some n) => [W "invalid utf-8 sequence of "; I n; W " bytes from index "; I at_]
  | (at_, None) => [W "incomplete utf-8 byte sequence from index "; I at_]
  end.

Definition network_message (x : network_error) : list piece :=
  match x with
  | NNotEnoughDataFor what => [W "Not enough data to decode "; W what]
  | NObjectIdOutOfRange o => [W "Object Id of "; I o; W " exceeds range"]
  | NStreamTooLargeIndex s o => [W "Stream id of "; I s; W " references out of range object index: "; I o]
  | NMissingParentClass o p => [W "Replay contained object: "; T o; W " but not the parent class: "; T p]
  | NParentHasNoAttributes p o =>
      [W "Parent id of "; I p; W " for object id of "; I o; W " was not recognized to have attributes"]
  | NTooManyFrames n => [W "Too many frames to decode: "; I n]
  | NFrameError _ _ => []
  end.

Fixpoint error_message (e : parse_error) : list piece :=
  match e with
  | EParseError section at_ x =>
      [W "Could not decode replay "; W section; W " at offset ("; I at_; W "): "] ++ error_message x
  | EUtf8Error x => W "Unable decode data as utf8: " :: utf8_message x
  | ETextTooLarge n => [W "Text of size "; I n; W " is too large"]
  | EInsufficientData want rest =>
      [W "Insufficient data. Expected "; I want; W " bytes, but only "; I rest; W " left"]
  | EUnexpectedProperty p => [W "Did not expect a property of: "; T p]
  | ECrcMismatch want found => [W "Crc mismatch. Expected "; I want; W " but received "; I found]
  | ECorruptReplay section _ => [W "Failed to parse "; W section; W " and crc check failed. Replay is corrupt"]
  | EListTooLarge n => [W "list of size "; I n; W " is too large"]
  | ENetworkError x => network_message x
  end.
