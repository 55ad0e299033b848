(** * The network data with the operations of the frame decoder counted *)

From Coq Require Import ZArith List Bool.
From Verif Require Import Base NetTypes Errors Header Body BitReader ObjectIndex FrameDecoder Network Cost.
Open Scope Z_scope.

(** an outcome and its count; the tables are not counted. network/mod.rs:42-194 *)
Definition network_parse_frames_c (B : bitter) (ho : hash_order) (h : header) (b : body)
  : outcome network_error (list frame) * Z :=
  let version := version_of h in
  let ix := object_index_new (b_objects b) in
  match compute_spawns ix (b_objects b) with
  | Err e => (Err e, 0)
  | Panic p => (Panic p, 0)
  | Ok spawns =>
      match compute_caches ho ix (b_objects b) (b_net_cache b) with
      | Err e => (Err e, 0)
      | Panic p => (Panic p, 0)
      | Ok object_ind_attributes =>
          let product_decoder := product_decoder_create version ix in
          match num_frames h with
          | Some frame_len =>
              if lenZ (b_network_data b) <? as_usize frame_len then (Err (NTooManyFrames frame_len), 0)
              else
                decode_frames_c B ho
                  (mkFrameDecoder (as_usize frame_len) product_decoder (max_channels_of h)
                     (channel_bits_of h) (b_objects b) (b_network_data b)
                     (map (fun x => match x with Some s => s | None => SpNone end) spawns)
                     object_ind_attributes version (is_lan_of h) (is_rl_223_of h))
          | None => (Ok [], 0)
          end
      end
  end.
