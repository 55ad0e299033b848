(** * The reading of a file with its operations counted

    The functions of Core.v, Header.v, Body.v and Parser.v once more, with the counter of
    Cost.v.  Each call of [take] and [view_data] counts as one, and one more for each byte taken
    (copying a string, decoding it and comparing it with the known names is paid for by these);
    so does each element pushed, each byte a checksum is computed of, and what Cost.v
    counts in the network data.  The tables made from the objects and the class net cache
    (network/mod.rs:49-154) are counted in CostTables.v. *)

From Coq Require Import ZArith List Bool.
From Verif Require Import Base Text F32 Errors NetTypes Core Header Body BitReader ObjectIndex FrameDecoder Network Crc Parser
  Cost CostNet.
Open Scope Z_scope.

(** a method as in core_parser.rs:42 *)
Definition parser_c (A : Type) : Type := comp (counted core) parse_error A.

(** core_parser.rs:22-27 *)
Definition view_data_c (size : Z) : parser_c (list byte) := op 1 (view_data size).
(** core_parser.rs:42-53 *)
Definition take_data_c (size : Z) : parser_c (list byte) := fun s =>
  let '(o, t) := take_data size (fst s) in
  (o, (t, snd s + 1 + (lenZ (c_data (fst s)) - lenZ (c_data t)))).
(** core_parser.rs:29-40 and 56-67 *)
Definition take_c (n : Z) : parser_c (list byte) := take_data_c n.
(** core_parser.rs:101, 111, 119; parser.rs:524, 533 *)
Definition raw_i32_c : parser_c Z := fmap (fun l => as_i32 (le_Z l)) (take_c 4).
(** parser.rs:532 *)
Definition raw_f32_c : parser_c f32 := fmap le_Z (take_c 4).
(** core_parser.rs:72, 78; parser.rs:465 *)
Definition in_section_c {A} (section : string) (m : parser_c A) : parser_c A :=
  map_err (fun s e => EParseError section (c_col (fst s)) e) m.
(** core_parser.rs:69-73 *)
Definition take_i32_c (section : string) : parser_c Z := in_section_c section raw_i32_c.
(** core_parser.rs:75-79 *)
Definition take_u32_c (section : string) : parser_c Z := in_section_c section (fmap le_Z (take_c 4)).

(** [res.push(..)], core_parser.rs:92; header.rs:150 *)
Definition push_c : parser_c unit := op 1 (ret tt).
(** core_parser.rs:91-94 *)
Fixpoint repeat_n_c {A} (n : nat) (f : parser_c A) : parser_c (list A) :=
  match n with
  | O => ret []
  | S n' => let* x := f in let* _ := push_c in let* xs := repeat_n_c n' f in ret (x :: xs)
  end.
(** core_parser.rs:82-95 *)
Definition repeat_of_c {A} (size : Z) (f : parser_c A) : parser_c (list A) :=
  if 25000 <? size then fail (EListTooLarge size)
  else repeat_n_c (Z.to_nat size) f.
(** core_parser.rs:97-103 *)
Definition list_of_c {A} (f : parser_c A) : parser_c (list A) :=
  let* size := raw_i32_c in repeat_of_c (as_usize size) f.
(** core_parser.rs:110-113 *)
Definition parse_str_c : parser_c str :=
  let* size := raw_i32_c in
  let* data := take_data_c (as_usize size) in
  match decode_str data with
  | inr s => ret s
  | inl e => fail (EUtf8Error e)
  end.
(** core_parser.rs:116-134 *)
Definition parse_text_c : parser_c str :=
  let* characters := raw_i32_c in
  if negb ((-10000 <=? characters) && (characters <=? 10000)) then
    fail (ETextTooLarge characters)
  else if characters <? 0 then
    let* data := take_data_c (as_usize (characters * -2)) in ret (decode_utf16 data)
  else
    let* data := take_data_c (as_usize characters) in ret (decode_windows1252 data).
(** core_parser.rs:105-107 *)
Definition text_list_c : parser_c (list str) := list_of_c parse_text_c.

(** header.rs:156-158 *)
Definition bool_prop_c (data : list byte) : parser_c header_prop :=
  match data with
  | b :: _ => ret (HBool (byteZ b =? 1))
  | [] => panics PanicIndex
  end.
(** header.rs:81-154 and 160-164 *)
Fixpoint parse_rdict_c (fuel : nat) (mode : parser_mode) {struct fuel} : parser_c props :=
  match fuel with
  | O => panics PanicFuel
  | S fuel' =>
      let* key := parse_str_c in
      if str_eqb key (lit "None") then ret []
      else
        let* kind := parse_str_c in
        let* _ := take_u32_c "property size" in
        let* _ := take_data_c 4 in
        let* v :=
          (if str_eqb kind (lit "BoolProperty") then
             match mode with
             | Standard => let* d := take_data_c 1 in fmap Some (bool_prop_c d)
             | Quirks => let* d := take_data_c 4 in fmap Some (bool_prop_c d)
             end
           else if str_eqb kind (lit "ByteProperty") then
             match mode with
             | Standard =>
                 let* k := parse_str_c in
                 if str_eqb k (lit "None") then
                   let* _ := take_data_c 1 in ret None
                 else
                   let* value := parse_str_c in ret (Some (HByte k (Some value)))
             | Quirks => fmap (fun k => Some (HByte k None)) parse_text_c
             end
           else if str_eqb kind (lit "ArrayProperty") then
             let* size := take_i32_c "array property size" in
             let* rows := repeat_of_c (as_usize size) (parse_rdict_c fuel' mode) in
             ret (Some (HArray rows))
           else if str_eqb kind (lit "FloatProperty") then
             fmap (fun l => Some (HFloat (le_Z l))) (take_c 4)
           else if str_eqb kind (lit "IntProperty") then
             fmap (fun l => Some (HInt (as_i32 (le_Z l)))) (take_c 4)
           else if str_eqb kind (lit "QWordProperty") then
             fmap (fun l => Some (HQWord (le_Z l))) (take_c 8)
           else if str_eqb kind (lit "NameProperty") then
             fmap (fun t => Some (HName t)) parse_text_c
           else if str_eqb kind (lit "StrProperty") then
             fmap (fun t => Some (HStr t)) parse_text_c
           else if str_eqb kind (lit "StructProperty") then
             let* name := parse_str_c in
             let* fields := parse_rdict_c fuel' mode in
             ret (Some (HStruct name fields))
           else fail (EUnexpectedProperty kind)) in
        let* _ := (match v with Some _ => push_c | None => ret tt end) in
        let* rest := parse_rdict_c fuel' mode in
        ret (match v with Some p => (key, p) :: rest | None => rest end)
  end.

(** header.rs:45-73 *)
Definition parse_header_c : parser_c header :=
  let* major := take_i32_c "major version" in
  let* minor := take_i32_c "minor version" in
  let* net :=
    (if (865 <? major) && (17 <? minor)
     then fmap Some (take_i32_c "net version") else ret None) in
  let* game_type := in_section_c "game type" parse_text_c in
  let* properties :=
    in_section_c "header properties"
      (fun s => parse_rdict_c (S (length (c_data (fst s)))) (mode_of major minor net) s) in
  ret (mkHeader major minor net game_type properties).

(** parser.rs:520-527 *)
Definition parse_tickmarks_c : parser_c (list tick_mark) :=
  list_of_c (let* d := parse_text_c in let* f := raw_i32_c in ret (mkTick d f)).
(** parser.rs:529-537 *)
Definition parse_keyframe_c : parser_c (list key_frame) :=
  list_of_c (let* t := raw_f32_c in let* f := raw_i32_c in let* p := raw_i32_c in ret (mkKeyFrame t f p)).
(** parser.rs:539-547 *)
Definition parse_debuginfo_c : parser_c (list debug_info) :=
  list_of_c (let* f := raw_i32_c in let* u := parse_text_c in let* t := parse_text_c in ret (mkDebug f u t)).
(** parser.rs:549-556 *)
Definition parse_classindex_c : parser_c (list class_index) :=
  list_of_c (let* c := parse_str_c in let* i := raw_i32_c in ret (mkClassIndex c i)).
(** parser.rs:558-572 *)
Definition parse_classcache_c : parser_c (list class_net_cache) :=
  list_of_c (let* o := raw_i32_c in let* p := raw_i32_c in let* c := raw_i32_c in
           let* ps := list_of_c (let* o := raw_i32_c in let* s := raw_i32_c in ret (mkCacheProp o s)) in
           ret (mkNetCache o p c ps)).

(** parser.rs:461-518 *)
Definition parse_body_c : parser_c body :=
  let* levels := in_section_c "levels" text_list_c in
  let* keyframes := in_section_c "keyframes" parse_keyframe_c in
  let* network_size := take_i32_c "network size" in
  let* network_data := in_section_c "network data" (take_data_c (as_usize network_size)) in
  let* debug_infos := in_section_c "debug info" parse_debuginfo_c in
  let* tickmarks := in_section_c "tickmarks" parse_tickmarks_c in
  let* packages := in_section_c "packages" text_list_c in
  let* objects := in_section_c "objects" text_list_c in
  let* names := in_section_c "names" text_list_c in
  let* class_index := in_section_c "class index" parse_classindex_c in
  let* net_cache := in_section_c "net cache" parse_classcache_c in
  ret (mkBody levels keyframes debug_infos tickmarks packages objects names
              class_index net_cache network_data).

(** the bytes that the checksum is computed of, parser.rs:442, 450 *)
Definition crc_cost {A} (check : crc_check) (data : list byte) (result : outcome parse_error A) : Z :=
  match check, result with
  | CrcAlways, _ => lenZ data
  | CrcOnError, Err _ => lenZ data
  | _, _ => 0
  end.
(** parser.rs:428-459 *)
Definition crc_section_c {A} (check : crc_check) (data : list byte) (crc : Z) (section : string)
    (f : parser_c A) : parser_c A := fun s =>
  match f s with
  | (Panic p, s') => (Panic p, s')
  | (result, s') =>
      let s'' := (fst s', snd s' + crc_cost check data result) in
      match check with
      | CrcAlways =>
          let actual := calc_crcZ data in
          if negb (actual =? crc) then (Err (ECrcMismatch crc actual), s'') else (result, s'')
      | CrcOnError =>
          match result with
          | Err e =>
              let actual := calc_crcZ data in
              if negb (actual =? crc) then (Err (ECorruptReplay section e), s'') else (Err e, s'')
          | _ => (result, s'')
          end
      | CrcNever => (result, s'')
      end
  end.

Section Parser.
Context (B : bitter) (ho : hash_order).

(** parser.rs:379-389 and 415-421 *)
Definition parse_network_c (np : network_parse) (h : header) (b : body) : parser_c (option (list frame)) :=
  fun s =>
    let '(o, n) := network_parse_frames_c B ho h b in
    match np with
    | NetAlways =>
        (match o with
         | Ok fs => Ok (Some fs)
         | Err e => Err (ENetworkError e)
         | Panic p => Panic p
         end, (fst s, snd s + n))
    | NetIgnoreOnError =>
        (match o with
         | Ok fs => Ok (Some fs)
         | Err _ => Ok None
         | Panic p => Panic p
         end, (fst s, snd s + n))
    | NetNever => (Ok None, s)
    end.

(** parser.rs:361-413 *)
Definition parse_replay_c (check : crc_check) (np : network_parse) : parser_c replay :=
  let* header_size := take_i32_c "header size" in
  let* header_crc := take_u32_c "header crc" in
  let* header_data := in_section_c "header data" (view_data_c (as_usize header_size)) in
  let* h := crc_section_c check header_data header_crc "header" parse_header_c in
  let* content_size := take_i32_c "content size" in
  let* content_crc := take_u32_c "content crc" in
  let* content_data := in_section_c "content data" (view_data_c (as_usize content_size)) in
  let* b := crc_section_c check content_data content_crc "body" parse_body_c in
  let* network := parse_network_c np h b in
  ret (mkReplay header_size header_crc (h_major h) (h_minor h) (h_net h) (h_game_type h)
         (h_properties h) content_size content_crc network (b_levels b) (b_keyframes b)
         (b_debug_info b) (b_tick_marks b) (b_packages b) (b_objects b) (b_names b)
         (b_class_indices b) (b_net_cache b)).

(** the result of parsing, and the operations; parser.rs:319-326 *)
Definition parse_counted (check : crc_check) (np : network_parse) (data : list byte) : outcome parse_error replay * Z :=
  let '(o, s) := parse_replay_c check np (core_new data, 0) in (o, snd s).
End Parser.
