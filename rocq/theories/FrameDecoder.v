(** * Frame decoder: model of /repo/src/network/frame_decoder.rs:117-414 *)

From Coq Require Import ZArith List Bool.
From Verif Require Import Base F32 NetTypes SegArray Errors BitReader NetModels Attributes ObjectIndex.
Open Scope Z_scope.

(** frame_decoder.rs:117-128; of [body] the fields used are kept *)
Record frame_decoder := mkFrameDecoder {
  fd_frames_len : Z;
  fd_product_decoder : product_value_decoder;
  fd_max_channels : Z;
  fd_channel_bits : Z;
  fd_objects : list str;
  fd_network_data : list byte;
  fd_spawns : list spawn_trajectory;
  fd_object_ind_attributes : list (option cache_info);
  fd_version : version;
  fd_is_lan : bool;
  fd_is_rl_223 : bool }.

(** The mutable arguments of [decode_frame] (frame_decoder.rs:179-184): reader
    (with scratch buffer), actors, and the three vectors. *)
Record fstate := mkFState {
  fs_r : rs;
  fs_actors : seg_array (Z * cache_info);
  fs_new : list new_actor;
  fs_deleted : list Z;
  fs_updated : list updated_attribute }.

(** A function returning [Result<A, FrameError>]. e.g.
    network/frame_decoder.rs:176-185. *)
Definition fcomp (A : Type) : Type := comp fstate frame_error A.

(** the reader of the state, network/frame_decoder.rs:179 *)
Definition set_r (r : rs) (s : fstate) : fstate :=
  mkFState r (fs_actors s) (fs_new s) (fs_deleted s) (fs_updated s).

(** Run a function that only touches the reader. e.g.
    network/frame_decoder.rs:210-216. *)
Definition on_reader {E A} (m : rd E A) : comp fstate E A := fun s =>
  let '(o, r) := m (fs_r s) in (o, set_r r s).

(** [.ok_or(FrameError::NotEnoughDataFor(what))]. network/frame_decoder.rs:149, 155,
    188, 208. *)
Definition f_not_enough {A} (what : string) (m : rd unit A) : fcomp A :=
  on_reader (ok_or (FNotEnoughDataFor what) m).

(** [actors.insert(k, v)], [actors.delete(k)], [actors.get(k)].
    network/frame_decoder.rs:240, 306, 245-247. *)
Definition actors_insert (k : Z) (v : Z * cache_info) : fcomp unit := fun s =>
  (Ok tt, mkFState (fs_r s) (seg_insert k v (fs_actors s)) (fs_new s) (fs_deleted s) (fs_updated s)).
(** network/frame_decoder.rs:306 *)
Definition actors_delete (k : Z) : fcomp unit := fun s =>
  (Ok tt, mkFState (fs_r s) (seg_delete k (fs_actors s)) (fs_new s) (fs_deleted s) (fs_updated s)).
(** network/frame_decoder.rs:245-247 *)
Definition actors_get (k : Z) : fcomp (option (Z * cache_info)) := fun s =>
  (Ok (seg_get k (fs_actors s)), s).
(** [new_actors.push], [deleted_actors.push], [updated_actors.push].
    network/frame_decoder.rs:241, 305, 296. *)
Definition push_new (a : new_actor) : fcomp unit := fun s =>
  (Ok tt, mkFState (fs_r s) (fs_actors s) (fs_new s ++ [a]) (fs_deleted s) (fs_updated s)).
(** network/frame_decoder.rs:305 *)
Definition push_deleted (a : Z) : fcomp unit := fun s =>
  (Ok tt, mkFState (fs_r s) (fs_actors s) (fs_new s) (fs_deleted s ++ [a]) (fs_updated s)).
(** network/frame_decoder.rs:296 *)
Definition push_updated (a : updated_attribute) : fcomp unit := fun s =>
  (Ok tt, mkFState (fs_r s) (fs_actors s) (fs_new s) (fs_deleted s) (fs_updated s ++ [a])).

(** [Option::ok_or(e)?] on a value. network/frame_decoder.rs:163, 235, 247, 272. *)
Definition need {S E A} (e : E) (o : option A) : comp S E A :=
  match o with Some a => ret a | None => fail e end.

Section FrameDecoder.
Context (B : bitter) (ho : hash_order) (F : frame_decoder).

(** frame_decoder.rs:347-351 *)
Definition attr_decoder : attribute_decoder :=
  mkAttrDecoder (fd_version F) (fd_product_decoder F) (fd_is_rl_223 F).

(** frame_decoder.rs:144-145 *)
Definition do_parse_name : bool :=
  version_geb (fd_version F) (mkVersion 868 20 0)
  || (version_geb (fd_version F) (mkVersion 868 14 0) && negb (fd_is_lan F)).

(** frame_decoder.rs:137-173 *)
Definition parse_new_actor (actor_id : Z) : fcomp new_actor :=
  let* name_id :=
    (if do_parse_name then f_not_enough "New Actor" (fmap Some (read_i32 B)) else ret None) in
  let* _ := f_not_enough "New Actor" (read_bit B) in
  let* object_id := f_not_enough "New Actor" (read_i32 B) in
  let* spawn := need (FObjectIdOutOfRange object_id) (getZ (as_usize object_id) (fd_spawns F)) in
  let* traj := f_not_enough "New Actor" (trajectory_from_spawn B spawn (v_net (fd_version F))) in
  ret (mkNew actor_id name_id object_id traj).

(** frame_decoder.rs:279-292: the closure given to [map_err] *)
Definition attr_error (actor_id object_id stream_id : Z) (e : attribute_error) : frame_error :=
  match e with
  | AUnimplemented => FMissingAttribute actor_id object_id stream_id
  | e => FAttributeError actor_id object_id stream_id e
  end.

(** frame_decoder.rs:247-301: the loop over the updated attributes of an actor *)
Fixpoint attributes_loop (fuel : nat) (actor_id object_id : Z) (ci : cache_info) : fcomp unit :=
  match fuel with
  | O => panics PanicFuel
  | S fuel' =>
      let* more := f_not_enough "Is prop present" (read_bit B) in
      if more : bool then
        let* _ := on_reader (refill B) in
        let* la := on_reader lookahead_bits in
        if la <? ci_prop_id_bits ci + 1 then fail (FNotEnoughDataFor "Prop id")
        else
          let* stream_id_raw :=
            on_reader (peek_bits_max_computed (Z.to_nat (ci_prop_id_bits ci)) (ci_max_prop_id ci)) in
          let stream_id := as_i32 stream_id_raw in
          let* attr := need (FMissingAttribute actor_id object_id stream_id)
                            (seg_get stream_id (ci_attributes ci)) in
          let* attribute :=
            map_err (fun _ e => attr_error actor_id object_id stream_id e)
              (on_reader (decode_attribute B attr_decoder (oa_attribute attr))) in
          let* _ := push_updated (mkUpdated actor_id stream_id (oa_object_id attr) attribute) in
          attributes_loop fuel' actor_id object_id ci
      else ret tt
  end.

(** [.and_then(|x| x.as_ref())], frame_decoder.rs:229 *)
Definition cache_of (object_id : Z) : option cache_info :=
  match getZ (as_usize object_id) (fd_object_ind_attributes F) with
  | Some (Some ci) => Some ci
  | _ => None
  end.

(** frame_decoder.rs:203-307: the loop over the actors of a frame *)
Fixpoint actors_loop (afuel fuel : nat) : fcomp unit :=
  match fuel with
  | O => panics PanicFuel
  | S fuel' =>
      let* more := f_not_enough "Actor data" (read_bit B) in
      if more : bool then
        let* _ := on_reader (refill B) in
        let* la := on_reader lookahead_bits in
        if la <? fd_channel_bits F + 1 + 1 then fail (FNotEnoughDataFor "Actor Id")
        else
          let* actor_id_raw :=
            on_reader (peek_bits_max_computed (Z.to_nat (fd_channel_bits F)) (fd_max_channels F)) in
          let actor_id := as_i32 actor_id_raw in
          let* alive := on_reader (peek_and_consume 1) in
          let* _ :=
            (if alive =? 1 then
               let* is_new := f_not_enough "Is new actor" (read_bit B) in
               if is_new : bool then
                 let* actor := parse_new_actor actor_id in
                 let* ci := need (FMissingCache actor_id (n_object_id actor))
                                 (cache_of (n_object_id actor)) in
                 let* _ := actors_insert (n_actor_id actor) (n_object_id actor, ci) in
                 push_new actor
               else
                 let* found := actors_get actor_id in
                 let* oc := need (FMissingActor actor_id) found in
                 attributes_loop afuel actor_id (fst oc) (snd oc)
             else
               let* _ := push_deleted actor_id in
               actors_delete actor_id) in
          actors_loop afuel fuel'
      else ret tt
  end.

(** [time < 0.0 || (time > 0.0 && time < 1e-10)], frame_decoder.rs:190 and 198 *)
Definition out_of_range (t : f32) : bool :=
  f32_lt t f32_zero || (f32_gt t f32_zero && f32_lt t f32_1em10).

(** frame_decoder.rs:309-343: take the three vectors out of the state *)
Definition finish_frame (time delta : f32) : fcomp frame := fun s =>
  (Ok (mkFrame time delta (fs_new s) (fs_deleted s) (fs_updated s)),
   mkFState (fs_r s) (fs_actors s) [] [] []).

(** frame_decoder.rs:176-344; [None] is [DecodedFrame::EndFrame] (130-134) *)
Definition decode_frame (fuel : nat) : fcomp (option frame) :=
  let* time := f_not_enough "Time" (read_f32 B) in
  if out_of_range time then fail (FTimeOutOfRange time)
  else
    let* delta := f_not_enough "Delta" (read_f32 B) in
    if out_of_range delta then fail (FDeltaOutOfRange delta)
    else if f32_eq time f32_zero && f32_eq delta f32_zero then ret None
    else
      let* _ := actors_loop fuel fuel in
      fmap Some (finish_frame time delta).

(** [i as i32, x] for the occupied entries, frame_decoder.rs:381-389 *)
Fixpoint array_actors (i : Z) (l : list (option (Z * cache_info))) : list (Z * Z) :=
  match l with
  | [] => []
  | Some (o, _) :: t => (as_i32 i, o) :: array_actors (i + 1) t
  | None :: t => array_actors (i + 1) t
  end.

(** frame_decoder.rs:376-398 *)
Definition frame_context_of (frames : list frame) (s : fstate) : frame_context :=
  mkContext (fd_objects F) (fd_object_ind_attributes F) frames
    (map_extend []
       (array_actors 0 (sg_array (fs_actors s))
        ++ map (fun kv => (as_i32 (fst kv), fst (snd kv))) (ho _ (sg_map (fs_actors s)))))
    (fs_new s) (fs_updated s).

(** frame_decoder.rs:361-405: the loop; [n] is the number of frames that may
    still be pushed ([frames_len - frames.len()]) and [acc] the frames pushed so
    far, last first. *)
Fixpoint frames_loop (fuel n : nat) (acc : list frame) (s : fstate)
  : outcome network_error (list frame) :=
  match n with
  | O => Ok (rev acc)
  | S n' =>
      if is_empty (fs_r s) then Ok (rev acc)
      else
        match decode_frame fuel s with
        | (Ok None, _) => Ok (rev acc)
        | (Ok (Some f), s') => frames_loop fuel n' (f :: acc) s'
        | (Err e, s') => Err (NFrameError e (frame_context_of (rev acc) s'))
        | (Panic p, _) => Panic p
        end
  end.

(** Enough iterations for any loop over the bits of the network data. For the [while]
    loops of network/frame_decoder.rs:206, 250, 361. *)
Definition loop_fuel : nat := S (8 * length (fd_network_data F)).

(** frame_decoder.rs:346-414.  The final [read_u32] of the trailer (408-411) has
    no effect on the result and is omitted. *)
Definition decode_frames : outcome network_error (list frame) :=
  frames_loop loop_fuel (Z.to_nat (fd_frames_len F)) []
    (mkFState (reader_new (fd_network_data F) (repeat x00 1024)) (seg_new 200) [] [] []).

End FrameDecoder.
