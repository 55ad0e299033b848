(** * Specification: what a platform with a narrower [usize] shows

    On a platform where [usize] has [w] bits, a number that was converted from a
    32-bit number to [usize] is the 64-bit one modulo [2 ^ w].  It remains in a
    result in two places only: the size in the error about a list that is too
    large, and the keys of the private tables of attributes that travel with a
    network error. *)

From Coq Require Import ZArith List.
From Verif Require Import Base NetTypes SegArray Errors Parser.
Open Scope Z_scope.

(** the keys beyond the array part *)
Definition narrow_attributes (w : Z) (s : seg_array object_attribute) : seg_array object_attribute :=
  mkSeg (sg_array s) (map (fun kv => (fst kv mod 2 ^ w, snd kv)) (sg_map s)).

Definition narrow_cache (w : Z) (c : cache_info) : cache_info :=
  mkCache (ci_max_prop_id c) (ci_prop_id_bits c) (narrow_attributes w (ci_attributes c)).

Definition narrow_context (w : Z) (x : frame_context) : frame_context :=
  mkContext (fc_objects x) (map (option_map (narrow_cache w)) (fc_object_attributes x))
    (fc_frames x) (fc_actors x) (fc_new_actors x) (fc_updated_actors x).

Definition narrow_network_error (w : Z) (e : network_error) : network_error :=
  match e with
  | NFrameError f x => NFrameError f (narrow_context w x)
  | e => e
  end.

Fixpoint narrow_error (w : Z) (e : parse_error) : parse_error :=
  match e with
  | EParseError section offset e => EParseError section offset (narrow_error w e)
  | ECorruptReplay section e => ECorruptReplay section (narrow_error w e)
  | EListTooLarge size => EListTooLarge (size mod 2 ^ w)
  | ENetworkError e => ENetworkError (narrow_network_error w e)
  | e => e
  end.

Definition narrow_result {A} (w : Z) (r : outcome parse_error A) : outcome parse_error A :=
  match r with
  | Ok a => Ok a
  | Err e => Err (narrow_error w e)
  | Panic p => Panic p
  end.

(** the size that a message about a list too large shows *)
Fixpoint list_size (e : parse_error) : option Z :=
  match e with
  | EParseError _ _ e => list_size e
  | EListTooLarge size => Some size
  | _ => None
  end.
