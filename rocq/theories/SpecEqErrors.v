(** * Specification: equal errors *)

From Coq Require Import ZArith List.
From Verif Require Import Base F32 NetTypes Errors SpecJson SpecEq SpecBlank.
Open Scope Z_scope.

(** the floats of an error: its own, and those of the frames and updates decoded
    before it *)
Definition context_floats (c : frame_context) : list f32 :=
  flat_map floats_frame (fc_frames c) ++ flat_map floats_updated_attribute (fc_updated_actors c).
Definition frame_error_floats (x : frame_error) : list f32 :=
  match x with FTimeOutOfRange t => [t] | FDeltaOutOfRange d => [d] | _ => [] end.
Fixpoint error_floats (e : parse_error) : list f32 :=
  match e with
  | EParseError _ _ x | ECorruptReplay _ x => error_floats x
  | ENetworkError (NFrameError x c) => frame_error_floats x ++ context_floats c
  | _ => []
  end.

(** the error with all floats replaced by one *)
Definition blank_context (c : frame_context) : frame_context :=
  mkContext (fc_objects c) (fc_object_attributes c) (map blank_frame (fc_frames c)) (fc_actors c)
    (fc_new_actors c) (map blank_updated_attribute (fc_updated_actors c)).
Definition blank_frame_error (x : frame_error) : frame_error :=
  match x with FTimeOutOfRange _ => FTimeOutOfRange 0 | FDeltaOutOfRange _ => FDeltaOutOfRange 0 | _ => x end.
Fixpoint blank_error (e : parse_error) : parse_error :=
  match e with
  | EParseError s n x => EParseError s n (blank_error x)
  | ECorruptReplay s x => ECorruptReplay s (blank_error x)
  | ENetworkError (NFrameError x c) => ENetworkError (NFrameError (blank_frame_error x) (blank_context c))
  | _ => e
  end.

(** the same but for the floats, which are numbers equal one by one *)
Definition equal_error (e f : parse_error) : Prop :=
  blank_error e = blank_error f /\ Forall2 same_value (error_floats e) (error_floats f).
