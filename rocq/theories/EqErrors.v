(** * Comparison of errors: the derived [PartialEq] of /repo/src/errors.rs, and that
    of the tables and maps in a [FrameContext] *)

From Coq Require Import ZArith List Bool String.
From Verif Require Import Base Text F32 NetTypes SegArray Errors EqNet.
Open Scope Z_scope.

(** [HashMap::eq] of the standard library: as many entries, and every key of the one
    has an equal value in the other. errors.rs:112, network/frame_decoder.rs:67 *)
Definition eq_map {A} (e : A -> A -> bool) (v w : amap A) : bool :=
  (lenZ v =? lenZ w) &&
  forallb (fun kv => match map_get (fst kv) w with Some x => e (snd kv) x | None => false end) v.
(** network/frame_decoder.rs:65-69, 86-90 *)
Definition eq_seg_array {A} (e : A -> A -> bool) (v w : seg_array A) : bool :=
  eq_vec (eq_opt e) (sg_array v) (sg_array w) && eq_map e (sg_map v) (sg_map w).
(** network/attributes.rs:10-57 *)
Scheme Boolean Equality for attribute_tag.
(** network/mod.rs:27-31 *)
Definition eq_object_attribute (v w : object_attribute) : bool :=
  attribute_tag_beq (oa_attribute v) (oa_attribute w) && Z.eqb (oa_object_id v) (oa_object_id w).
(** network/mod.rs:20-25 *)
Definition eq_cache_info (v w : cache_info) : bool :=
  Z.eqb (ci_max_prop_id v) (ci_max_prop_id w) && Z.eqb (ci_prop_id_bits v) (ci_prop_id_bits w) &&
  eq_seg_array eq_object_attribute (ci_attributes v) (ci_attributes w).
(** [Utf8Error] of the standard library: position and length. errors.rs:14 *)
Definition eq_utf8_error (v w : utf8_error) : bool :=
  Z.eqb (fst v) (fst w) && eq_opt Z.eqb (snd v) (snd w).
(** errors.rs:78-84 *)
Definition eq_attribute_error (v w : attribute_error) : bool :=
  match v, w with
  | ANotEnoughDataFor a, ANotEnoughDataFor b => String.eqb a b
  | AUnrecognizedRemoteId a, AUnrecognizedRemoteId b => Z.eqb a b
  | AUnimplemented, AUnimplemented => true
  | ATooBigString a, ATooBigString b => Z.eqb a b
  | _, _ => false
  end.
(** errors.rs:107-115 *)
Definition eq_frame_context (v w : frame_context) : bool :=
  eq_vec str_eqb (fc_objects v) (fc_objects w) &&
  eq_vec (eq_opt eq_cache_info) (fc_object_attributes v) (fc_object_attributes w) &&
  eq_vec eq_frame (fc_frames v) (fc_frames w) &&
  eq_map Z.eqb (fc_actors v) (fc_actors w) &&
  eq_vec eq_new_actor (fc_new_actors v) (fc_new_actors w) &&
  eq_vec eq_updated_attribute (fc_updated_actors v) (fc_updated_actors w).
(** errors.rs:219-249 *)
Definition eq_frame_error (v w : frame_error) : bool :=
  match v, w with
  | FNotEnoughDataFor a, FNotEnoughDataFor b => String.eqb a b
  | FTimeOutOfRange a, FTimeOutOfRange b => f32_eq a b
  | FDeltaOutOfRange a, FDeltaOutOfRange b => f32_eq a b
  | FObjectIdOutOfRange a, FObjectIdOutOfRange b => Z.eqb a b
  | FMissingActor a, FMissingActor b => Z.eqb a b
  | FMissingCache a a', FMissingCache b b' => Z.eqb a b && Z.eqb a' b'
  | FMissingAttribute a a' a'', FMissingAttribute b b' b'' => Z.eqb a b && Z.eqb a' b' && Z.eqb a'' b''
  | FAttributeError a a' a'' x, FAttributeError b b' b'' y =>
      Z.eqb a b && Z.eqb a' b' && Z.eqb a'' b'' && eq_attribute_error x y
  | _, _ => false
  end.
(** errors.rs:389-398 *)
Definition eq_network_error (v w : network_error) : bool :=
  match v, w with
  | NNotEnoughDataFor a, NNotEnoughDataFor b => String.eqb a b
  | NObjectIdOutOfRange a, NObjectIdOutOfRange b => Z.eqb a b
  | NStreamTooLargeIndex a a', NStreamTooLargeIndex b b' => Z.eqb a b && Z.eqb a' b'
  | NMissingParentClass a a', NMissingParentClass b b' => str_eqb a b && str_eqb a' b'
  | NParentHasNoAttributes a a', NParentHasNoAttributes b b' => Z.eqb a b && Z.eqb a' b'
  | NFrameError a c, NFrameError b d => eq_frame_error a b && eq_frame_context c d
  | NTooManyFrames a, NTooManyFrames b => Z.eqb a b
  | _, _ => false
  end.
(** errors.rs:11-22 *)
Fixpoint eq_parse_error (v w : parse_error) : bool :=
  match v, w with
  | EParseError a n x, EParseError b m y => String.eqb a b && Z.eqb n m && eq_parse_error x y
  | EUtf8Error a, EUtf8Error b => eq_utf8_error a b
  | ETextTooLarge a, ETextTooLarge b => Z.eqb a b
  | EInsufficientData a a', EInsufficientData b b' => Z.eqb a b && Z.eqb a' b'
  | EUnexpectedProperty a, EUnexpectedProperty b => str_eqb a b
  | ECrcMismatch a a', ECrcMismatch b b' => Z.eqb a b && Z.eqb a' b'
  | ECorruptReplay a x, ECorruptReplay b y => String.eqb a b && eq_parse_error x y
  | EListTooLarge a, EListTooLarge b => Z.eqb a b
  | ENetworkError x, ENetworkError y => eq_network_error x y
  | _, _ => false
  end.
