(** * Error values: model of the enums of /repo/src/errors.rs

    [&'static str] is a Coq [string]; [FrameContext] keeps all its fields. *)

From Coq Require Import ZArith List.
From Verif Require Import Base Text F32 NetTypes SegArray.

(** network/mod.rs:20-25 *)
Record cache_info := mkCache {
  ci_max_prop_id : Z; ci_prop_id_bits : Z; ci_attributes : seg_array object_attribute }.

(** errors.rs:78-84 *)
Inductive attribute_error :=
| ANotEnoughDataFor (what : string)
| AUnrecognizedRemoteId (id : Z)
| AUnimplemented
| ATooBigString (size : Z).

(** errors.rs:107-115; the hash map [actors] is a sorted association list *)
Record frame_context := mkContext {
  fc_objects : list str;
  fc_object_attributes : list (option cache_info);
  fc_frames : list frame;
  fc_actors : list (Z * Z);
  fc_new_actors : list new_actor;
  fc_updated_actors : list updated_attribute }.

(** errors.rs:219-249 *)
Inductive frame_error :=
| FNotEnoughDataFor (what : string)
| FTimeOutOfRange (time : f32)
| FDeltaOutOfRange (delta : f32)
| FObjectIdOutOfRange (obj : Z)
| FMissingActor (actor : Z)
| FMissingCache (actor actor_object : Z)
| FMissingAttribute (actor actor_object attribute_stream : Z)
| FAttributeError (actor actor_object attribute_stream : Z) (error : attribute_error).

(** errors.rs:389-398 (variants that are never constructed are kept) *)
Inductive network_error :=
| NNotEnoughDataFor (what : string)
| NObjectIdOutOfRange (id : Z)
| NStreamTooLargeIndex (stream_id object_ind : Z)
| NMissingParentClass (obj parent : str)
| NParentHasNoAttributes (parent obj : Z)
| NFrameError (e : frame_error) (ctx : frame_context)
| NTooManyFrames (n : Z).

(** errors.rs:11-22 *)
Inductive parse_error :=
| EParseError (section : string) (offset : Z) (e : parse_error)
| EUtf8Error (e : utf8_error)
| ETextTooLarge (n : Z)
| EInsufficientData (expected left : Z)
| EUnexpectedProperty (kind : str)
| ECrcMismatch (expected actual : Z)
| ECorruptReplay (section : string) (e : parse_error)
| EListTooLarge (size : Z)
| ENetworkError (e : network_error).
