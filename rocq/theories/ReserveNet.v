(** * Reserving memory ahead in the frame decoder

    The functions of FrameDecoder.v and those of Attributes.v with [Vec::with_capacity] once
    more, with a counter of the elements for which a vector has been reserved.  The frames
    themselves (frame_decoder.rs:353) are counted in Reserve.v, the 200 slots of the table of
    actors (frame_decoder.rs:21) are not counted. *)

From Coq Require Import ZArith List Bool.
From Verif Require Import Base F32 NetTypes SegArray Errors BitReader NetModels Attributes Header Body ObjectIndex FrameDecoder Network.
Import ListNotations.
Open Scope Z_scope.

(** code without [with_capacity], e.g. network/attributes.rs:1445-1455 *)
Definition kept {S E A} (m : comp S E A) : comp (S * Z) E A := fun s =>
  let (o, s') := m (fst s) in (o, (s', snd s)).
(** [Vec::with_capacity(n)], network/attributes.rs:1463, 1466 *)
Definition taken {S E} (n : Z) : comp (S * Z) E unit := fun s => (Ok tt, (fst s, snd s + n)).

(** network/attributes.rs:1467-1469 *)
Fixpoint n_repeat {S E A} (n : nat) (f : comp (S * Z) E A) : comp (S * Z) E (list A) :=
  match n with
  | O => ret []
  | S n' => let* x := f in let* xs := n_repeat n' f in ret (x :: xs)
  end.

Section Reserved.
Context (B : bitter) (ho : hash_order) (F : frame_decoder).

(** network/attributes.rs:1457-1483 *)
Definition n_online (D : attribute_decoder) : comp (rs * Z) unit (list (list product)) :=
  let* size := kept (read_u8 B) in
  let* _ := taken size in
  n_repeat (Z.to_nat size)
    (let* attribute_size := kept (read_u8 B) in
     let* _ := taken attribute_size in
     n_repeat (Z.to_nat attribute_size) (kept (decode_product B D))).

(** network/attributes.rs:1408-1443 and 542-611 *)
Definition n_attribute (D : attribute_decoder) (tag : attribute_tag) : comp (rs * Z) attribute_error attribute :=
  match tag with
  | TLoadoutOnline => ok_or (ANotEnoughDataFor "Loadout Online") (fmap ALoadoutOnline (n_online D))
  | TLoadoutsOnline =>
      ok_or (ANotEnoughDataFor "Loadouts online")
        (let* blue := n_online D in
         let* orange := n_online D in
         let* unknown1 := kept (read_bit B) in
         let* unknown2 := kept (read_bit B) in
         ret (ALoadoutsOnline (mkLoadoutsOnline blue orange unknown1 unknown2)))
  | _ => kept (decode_attribute B D tag)
  end.

(** the reader of the state, network/frame_decoder.rs:179 *)
Definition n_reader {E A} (m : comp (rs * Z) E A) : comp (fstate * Z) E A := fun s =>
  let '(o, (r, n)) := m (fs_r (fst s), snd s) in (o, (set_r r (fst s), n)).

(** network/frame_decoder.rs:247-301 *)
Fixpoint n_attributes_loop (fuel : nat) (actor_id object_id : Z) (ci : cache_info) : comp (fstate * Z) frame_error unit :=
  match fuel with
  | O => panics PanicFuel
  | S fuel' =>
      let* more := kept (f_not_enough "Is prop present" (read_bit B)) in
      if more : bool then
        let* _ := kept (on_reader (refill B)) in
        let* la := kept (on_reader lookahead_bits) in
        if la <? ci_prop_id_bits ci + 1 then fail (FNotEnoughDataFor "Prop id")
        else
          let* stream_id_raw :=
            kept (on_reader (peek_bits_max_computed (Z.to_nat (ci_prop_id_bits ci)) (ci_max_prop_id ci))) in
          let stream_id := as_i32 stream_id_raw in
          let* attr := need (FMissingAttribute actor_id object_id stream_id)
                            (seg_get stream_id (ci_attributes ci)) in
          let* attribute :=
            map_err (fun _ e => attr_error actor_id object_id stream_id e)
              (n_reader (n_attribute (attr_decoder F) (oa_attribute attr))) in
          let* _ := kept (push_updated (mkUpdated actor_id stream_id (oa_object_id attr) attribute)) in
          n_attributes_loop fuel' actor_id object_id ci
      else ret tt
  end.

(** network/frame_decoder.rs:203-307 *)
Fixpoint n_actors_loop (afuel fuel : nat) : comp (fstate * Z) frame_error unit :=
  match fuel with
  | O => panics PanicFuel
  | S fuel' =>
      let* more := kept (f_not_enough "Actor data" (read_bit B)) in
      if more : bool then
        let* _ := kept (on_reader (refill B)) in
        let* la := kept (on_reader lookahead_bits) in
        if la <? fd_channel_bits F + 1 + 1 then fail (FNotEnoughDataFor "Actor Id")
        else
          let* actor_id_raw :=
            kept (on_reader (peek_bits_max_computed (Z.to_nat (fd_channel_bits F)) (fd_max_channels F))) in
          let actor_id := as_i32 actor_id_raw in
          let* alive := kept (on_reader (peek_and_consume 1)) in
          let* _ :=
            (if alive =? 1 then
               let* is_new := kept (f_not_enough "Is new actor" (read_bit B)) in
               if is_new : bool then
                 let* actor := kept (parse_new_actor B F actor_id) in
                 let* ci := need (FMissingCache actor_id (n_object_id actor))
                                 (cache_of F (n_object_id actor)) in
                 let* _ := kept (actors_insert (n_actor_id actor) (n_object_id actor, ci)) in
                 kept (push_new actor)
               else
                 let* found := kept (actors_get actor_id) in
                 let* oc := need (FMissingActor actor_id) found in
                 n_attributes_loop afuel actor_id (fst oc) (snd oc)
             else
               let* _ := kept (push_deleted actor_id) in
               kept (actors_delete actor_id)) in
          n_actors_loop afuel fuel'
      else ret tt
  end.

(** what replaces a vector that is not empty: [len().next_power_of_two()],
    network/frame_decoder.rs:310-335 *)
Definition replacement {A} (l : list A) : Z :=
  match l with [] => 0 | _ => 2 ^ Z.log2_up (lenZ l) end.
(** network/frame_decoder.rs:309-343 *)
Definition n_finish (time delta : f32) : comp (fstate * Z) frame_error frame := fun s =>
  let (o, s') := finish_frame time delta (fst s) in
  (o, (s', snd s + (replacement (fs_new (fst s)) + replacement (fs_updated (fst s)) + replacement (fs_deleted (fst s))))).

(** network/frame_decoder.rs:176-344 *)
Definition n_decode_frame (fuel : nat) : comp (fstate * Z) frame_error (option frame) :=
  let* time := kept (f_not_enough "Time" (read_f32 B)) in
  if out_of_range time then fail (FTimeOutOfRange time)
  else
    let* delta := kept (f_not_enough "Delta" (read_f32 B)) in
    if out_of_range delta then fail (FDeltaOutOfRange delta)
    else if f32_eq time f32_zero && f32_eq delta f32_zero then ret None
    else
      let* _ := n_actors_loop fuel fuel in
      fmap Some (n_finish time delta).

(** network/frame_decoder.rs:361-405 *)
Fixpoint n_frames_loop (fuel n : nat) (acc : list frame) (s : fstate * Z)
  : outcome network_error (list frame) * Z :=
  match n with
  | O => (Ok (rev acc), snd s)
  | S n' =>
      if is_empty (fs_r (fst s)) then (Ok (rev acc), snd s)
      else
        match n_decode_frame fuel s with
        | (Ok None, s') => (Ok (rev acc), snd s')
        | (Ok (Some f), s') => n_frames_loop fuel n' (f :: acc) s'
        | (Err e, s') => (Err (NFrameError e (frame_context_of ho F (rev acc) (fst s'))), snd s')
        | (Panic p, s') => (Panic p, snd s')
        end
  end.

(** network/frame_decoder.rs:346-414 *)
Definition frames_reserved : outcome network_error (list frame) * Z :=
  n_frames_loop (loop_fuel F) (Z.to_nat (fd_frames_len F)) []
    (mkFState (reader_new (fd_network_data F) (repeat x00 1024)) (seg_new 200) [] [] [], 0).
End Reserved.

(** the tables (network/mod.rs:62, 81-85, 110-124: as long as lists that have been read) are
    not counted. network/mod.rs:42-194 *)
Definition network_reserved (B : bitter) (ho : hash_order) (h : header) (b : body)
  : outcome network_error (list frame) * Z :=
  let version := version_of h in
  let ix := object_index_new (b_objects b) in
  match compute_spawns ix (b_objects b) with
  | Err e => (Err e, 0)
  | Panic p => (Panic p, 0)
  | Ok spawns =>
      match compute_caches ho ix (b_objects b) (b_net_cache b) with
      | Err e => (Err e, 0)
      | Panic p => (Panic p, 0)
      | Ok object_ind_attributes =>
          let product_decoder := product_decoder_create version ix in
          match num_frames h with
          | Some frame_len =>
              if lenZ (b_network_data b) <? as_usize frame_len then (Err (NTooManyFrames frame_len), 0)
              else
                frames_reserved B ho
                  (mkFrameDecoder (as_usize frame_len) product_decoder (max_channels_of h)
                     (channel_bits_of h) (b_objects b) (b_network_data b)
                     (map (fun x => match x with Some s => s | None => SpNone end) spawns)
                     object_ind_attributes version (is_lan_of h) (is_rl_223_of h))
          | None => (Ok [], 0)
          end
      end
  end.
