(** * The parser: model of /repo/src/parser.rs *)

From Coq Require Import ZArith List Bool.
From Verif Require Import Base F32 Crc NetTypes Errors Core Header Body BitReader
  ObjectIndex FrameDecoder Network.
Open Scope Z_scope.

(** parser.rs:229-244 *)
Inductive crc_check : Set := CrcAlways | CrcNever | CrcOnError.
(** parser.rs:249-259 *)
Inductive network_parse : Set := NetAlways | NetNever | NetIgnoreOnError.

(** models.rs:19-43; [NetworkFrames] (47-49) is its list of frames *)
Record replay := mkReplay {
  r_header_size : Z; r_header_crc : Z; r_major_version : Z; r_minor_version : Z;
  r_net_version : option Z; r_game_type : str; r_properties : props;
  r_content_size : Z; r_content_crc : Z; r_network_frames : option (list frame);
  r_levels : list str; r_keyframes : list key_frame; r_debug_info : list debug_info;
  r_tick_marks : list tick_mark; r_packages : list str; r_objects : list str;
  r_names : list str; r_class_indices : list class_index; r_net_cache : list class_net_cache }.

(** parser.rs:428-459 *)
Definition crc_section {A} (check : crc_check) (data : list byte) (crc : Z) (section : string)
    (f : parser A) : parser A := fun s =>
  match f s with
  | (Panic p, s') => (Panic p, s')
  | (result, s') =>
      match check with
      | CrcAlways =>
          let actual := calc_crcZ data in
          if negb (actual =? crc) then (Err (ECrcMismatch crc actual), s') else (result, s')
      | CrcOnError =>
          match result with
          | Err e =>
              let actual := calc_crcZ data in
              if negb (actual =? crc) then (Err (ECorruptReplay section e), s') else (Err e, s')
          | _ => (result, s')
          end
      | CrcNever => (result, s')
      end
  end.

Section Parser.
Context (B : bitter) (ho : hash_order).

(** parser.rs:379-389 and 415-421 *)
Definition parse_network (np : network_parse) (h : header) (b : body) : parser (option (list frame)) :=
  fun s =>
    match np with
    | NetAlways =>
        match network_parse_frames B ho h b with
        | Ok fs => (Ok (Some fs), s)
        | Err e => (Err (ENetworkError e), s)
        | Panic p => (Panic p, s)
        end
    | NetIgnoreOnError =>
        match network_parse_frames B ho h b with
        | Ok fs => (Ok (Some fs), s)
        | Err _ => (Ok None, s)
        | Panic p => (Panic p, s)
        end
    | NetNever => (Ok None, s)
    end.

(** parser.rs:361-413 *)
Definition parse_replay (check : crc_check) (np : network_parse) : parser replay :=
  let* header_size := take_i32 "header size" in
  let* header_crc := take_u32 "header crc" in
  let* header_data := in_section "header data" (view_data (as_usize header_size)) in
  let* h := crc_section check header_data header_crc "header" parse_header in
  let* content_size := take_i32 "content size" in
  let* content_crc := take_u32 "content crc" in
  let* content_data := in_section "content data" (view_data (as_usize content_size)) in
  let* b := crc_section check content_data content_crc "body" parse_body in
  let* network := parse_network np h b in
  ret (mkReplay header_size header_crc (h_major h) (h_minor h) (h_net h) (h_game_type h)
         (h_properties h) content_size content_crc network (b_levels b) (b_keyframes b)
         (b_debug_info b) (b_tick_marks b) (b_packages b) (b_objects b) (b_names b)
         (b_class_indices b) (b_net_cache b)).

(** parser.rs:264-268 *)
Record parser_builder := mkBuilder {
  pb_data : list byte; pb_crc_check : option crc_check; pb_network_parse : option network_parse }.

(** parser.rs:271-277 *)
Definition builder_new (data : list byte) : parser_builder := mkBuilder data None None.
(** parser.rs:279-282 *)
Definition always_check_crc (p : parser_builder) : parser_builder :=
  mkBuilder (pb_data p) (Some CrcAlways) (pb_network_parse p).
(** parser.rs:284-287 *)
Definition never_check_crc (p : parser_builder) : parser_builder :=
  mkBuilder (pb_data p) (Some CrcNever) (pb_network_parse p).
(** parser.rs:289-292 *)
Definition on_error_check_crc (p : parser_builder) : parser_builder :=
  mkBuilder (pb_data p) (Some CrcOnError) (pb_network_parse p).
(** parser.rs:294-297 *)
Definition with_crc_check (check : crc_check) (p : parser_builder) : parser_builder :=
  mkBuilder (pb_data p) (Some check) (pb_network_parse p).
(** parser.rs:299-302 *)
Definition must_parse_network_data (p : parser_builder) : parser_builder :=
  mkBuilder (pb_data p) (pb_crc_check p) (Some NetAlways).
(** parser.rs:304-307 *)
Definition never_parse_network_data (p : parser_builder) : parser_builder :=
  mkBuilder (pb_data p) (pb_crc_check p) (Some NetNever).
(** parser.rs:309-312 *)
Definition ignore_network_data_on_error (p : parser_builder) : parser_builder :=
  mkBuilder (pb_data p) (pb_crc_check p) (Some NetIgnoreOnError).
(** parser.rs:314-317 *)
Definition with_network_parse (np : network_parse) (p : parser_builder) : parser_builder :=
  mkBuilder (pb_data p) (pb_crc_check p) (Some np).

(** parser.rs:319-326 and 352-358 ([Parser::new]) *)
Definition builder_parse (p : parser_builder) : outcome parse_error replay :=
  fst (parse_replay
         (match pb_crc_check p with Some c => c | None => CrcOnError end)
         (match pb_network_parse p with Some n => n | None => NetIgnoreOnError end)
         (core_new (pb_data p))).

End Parser.
