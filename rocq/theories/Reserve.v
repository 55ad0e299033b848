(** * Reserving memory ahead: [Vec::with_capacity] in the reading of header and body

    The functions of Core.v, Header.v, Body.v and Parser.v once more, with a counter of the
    elements for which a vector has been reserved.  [C94_same] says that the counter is all
    that differs.  No vector is dropped before the result is known, except strings. *)

From Coq Require Import ZArith List Bool.
From Verif Require Import Base Text F32 Errors NetTypes Core Header Body BitReader ObjectIndex FrameDecoder Network Crc Parser.
Open Scope Z_scope.

(** core_parser.rs:5-10, and the number of elements reserved so far *)
Definition counting : Type := core * Z.
(** a method as in core_parser.rs:42 *)
Definition counter (A : Type) : Type := comp counting parse_error A.

(** code without [with_capacity], e.g. core_parser.rs:42-53 *)
Definition keep {A} (m : parser A) : counter A := fun s =>
  let (o, s') := m (fst s) in (o, (s', snd s)).

(** core_parser.rs:90 *)
Definition reserve (n : Z) : counter unit := fun s => (Ok tt, (fst s, snd s + n)).

(** core_parser.rs:91-94 *)
Fixpoint c_repeat_n {A} (n : nat) (f : counter A) : counter (list A) :=
  match n with
  | O => ret []
  | S n' => let* x := f in let* xs := c_repeat_n n' f in ret (x :: xs)
  end.
(** core_parser.rs:82-95 *)
Definition c_repeat_of {A} (size : Z) (f : counter A) : counter (list A) :=
  if 25000 <? size then fail (EListTooLarge size)
  else reserve size ;; c_repeat_n (Z.to_nat size) f.
(** core_parser.rs:97-103 *)
Definition c_list_of {A} (f : counter A) : counter (list A) :=
  let* size := keep raw_i32 in c_repeat_of (as_usize size) f.
(** core_parser.rs:105-107 *)
Definition c_text_list : counter (list str) := c_list_of (keep parse_text).
(** as in core_parser.rs:72 *)
Definition c_in_section {A} (section : string) (m : counter A) : counter A :=
  map_err (fun s e => EParseError section (c_col (fst s)) e) m.

(** header.rs:81-154 and 160-164 *)
Fixpoint c_parse_rdict (fuel : nat) (mode : parser_mode) {struct fuel} : counter props :=
  match fuel with
  | O => panics PanicFuel
  | S fuel' =>
      let* key := keep parse_str in
      if str_eqb key (lit "None") then ret []
      else
        let* kind := keep parse_str in
        let* _ := keep (take_u32 "property size") in
        let* _ := keep (take_data 4) in
        let* v :=
          (if str_eqb kind (lit "BoolProperty") then
             match mode with
             | Standard => keep (let* d := take_data 1 in fmap Some (bool_prop d))
             | Quirks => keep (let* d := take_data 4 in fmap Some (bool_prop d))
             end
           else if str_eqb kind (lit "ByteProperty") then
             match mode with
             | Standard =>
                 keep (let* k := parse_str in
                 if str_eqb k (lit "None") then
                   let* _ := take_data 1 in ret None
                 else
                   let* value := parse_str in ret (Some (HByte k (Some value))))
             | Quirks => keep (fmap (fun k => Some (HByte k None)) parse_text)
             end
           else if str_eqb kind (lit "ArrayProperty") then
             let* size := keep (take_i32 "array property size") in
             let* rows := c_repeat_of (as_usize size) (c_parse_rdict fuel' mode) in
             ret (Some (HArray rows))
           else if str_eqb kind (lit "FloatProperty") then
             keep (fmap (fun l => Some (HFloat (le_Z l))) (take 4))
           else if str_eqb kind (lit "IntProperty") then
             keep (fmap (fun l => Some (HInt (as_i32 (le_Z l)))) (take 4))
           else if str_eqb kind (lit "QWordProperty") then
             keep (fmap (fun l => Some (HQWord (le_Z l))) (take 8))
           else if str_eqb kind (lit "NameProperty") then
             keep (fmap (fun t => Some (HName t)) parse_text)
           else if str_eqb kind (lit "StrProperty") then
             keep (fmap (fun t => Some (HStr t)) parse_text)
           else if str_eqb kind (lit "StructProperty") then
             let* name := keep parse_str in
             let* fields := c_parse_rdict fuel' mode in
             ret (Some (HStruct name fields))
           else fail (EUnexpectedProperty kind)) in
        let* rest := c_parse_rdict fuel' mode in
        ret (match v with Some p => (key, p) :: rest | None => rest end)
  end.

(** header.rs:45-73 *)
Definition c_parse_header : counter header :=
  let* major := keep (take_i32 "major version") in
  let* minor := keep (take_i32 "minor version") in
  let* net :=
    (if (865 <? major) && (17 <? minor)
     then keep (fmap Some (take_i32 "net version")) else ret None) in
  let* game_type := keep (in_section "game type" parse_text) in
  let* properties :=
    c_in_section "header properties"
      (fun s => c_parse_rdict (S (length (c_data (fst s)))) (mode_of major minor net) s) in
  ret (mkHeader major minor net game_type properties).

(** parser.rs:520-527 *)
Definition c_parse_tickmarks : counter (list tick_mark) :=
  c_list_of (keep (let* d := parse_text in let* f := raw_i32 in ret (mkTick d f))).
(** parser.rs:529-537 *)
Definition c_parse_keyframe : counter (list key_frame) :=
  c_list_of (keep (let* t := raw_f32 in let* f := raw_i32 in let* p := raw_i32 in ret (mkKeyFrame t f p))).
(** parser.rs:539-547 *)
Definition c_parse_debuginfo : counter (list debug_info) :=
  c_list_of (keep (let* f := raw_i32 in let* u := parse_text in let* t := parse_text in ret (mkDebug f u t))).
(** parser.rs:549-556 *)
Definition c_parse_classindex : counter (list class_index) :=
  c_list_of (keep (let* c := parse_str in let* i := raw_i32 in ret (mkClassIndex c i))).
(** parser.rs:558-572 *)
Definition c_parse_classcache : counter (list class_net_cache) :=
  c_list_of (let* o := keep raw_i32 in let* p := keep raw_i32 in let* c := keep raw_i32 in
           let* ps := c_list_of (keep (let* o := raw_i32 in let* s := raw_i32 in ret (mkCacheProp o s))) in
           ret (mkNetCache o p c ps)).

(** parser.rs:461-518 *)
Definition c_parse_body : counter body :=
  let* levels := c_in_section "levels" c_text_list in
  let* keyframes := c_in_section "keyframes" c_parse_keyframe in
  let* network_size := keep (take_i32 "network size") in
  let* network_data := keep (in_section "network data" (take_data (as_usize network_size))) in
  let* debug_infos := c_in_section "debug info" c_parse_debuginfo in
  let* tickmarks := c_in_section "tickmarks" c_parse_tickmarks in
  let* packages := c_in_section "packages" c_text_list in
  let* objects := c_in_section "objects" c_text_list in
  let* names := c_in_section "names" c_text_list in
  let* class_index := c_in_section "class index" c_parse_classindex in
  let* net_cache := c_in_section "net cache" c_parse_classcache in
  ret (mkBody levels keyframes debug_infos tickmarks packages objects names
              class_index net_cache network_data).

(** parser.rs:428-459 *)
Definition c_crc_section {A} (check : crc_check) (data : list byte) (crc : Z) (section : string)
    (f : counter A) : counter A := fun s =>
  match f s with
  | (Panic p, s') => (Panic p, s')
  | (result, s') =>
      match check with
      | CrcAlways =>
          let actual := calc_crcZ data in
          if negb (actual =? crc) then (Err (ECrcMismatch crc actual), s') else (result, s')
      | CrcOnError =>
          match result with
          | Err e =>
              let actual := calc_crcZ data in
              if negb (actual =? crc) then (Err (ECorruptReplay section e), s') else (Err e, s')
          | _ => (result, s')
          end
      | CrcNever => (result, s')
      end
  end.

Section Parser.
Context (B : bitter) (ho : hash_order).

(** network/mod.rs:143-149 and network/frame_decoder.rs:353: frames reserved before the first is read *)
Definition frame_slots (np : network_parse) (h : header) (b : body) : Z :=
  let ix := object_index_new (b_objects b) in
  match np, compute_spawns ix (b_objects b), compute_caches ho ix (b_objects b) (b_net_cache b), num_frames h with
  | NetNever, _, _, _ => 0
  | _, Ok _, Ok _, Some n => if lenZ (b_network_data b) <? as_usize n then 0 else as_usize n
  | _, _, _, _ => 0
  end.

(** parser.rs:361-413 *)
Definition c_parse_replay (check : crc_check) (np : network_parse) : counter replay :=
  let* header_size := keep (take_i32 "header size") in
  let* header_crc := keep (take_u32 "header crc") in
  let* header_data := keep (in_section "header data" (view_data (as_usize header_size))) in
  let* h := c_crc_section check header_data header_crc "header" c_parse_header in
  let* content_size := keep (take_i32 "content size") in
  let* content_crc := keep (take_u32 "content crc") in
  let* content_data := keep (in_section "content data" (view_data (as_usize content_size))) in
  let* b := c_crc_section check content_data content_crc "body" c_parse_body in
  let* _ := reserve (frame_slots np h b) in
  let* network := keep (parse_network B ho np h b) in
  ret (mkReplay header_size header_crc (h_major h) (h_minor h) (h_net h) (h_game_type h)
         (h_properties h) content_size content_crc network (b_levels b) (b_keyframes b)
         (b_debug_info b) (b_tick_marks b) (b_packages b) (b_objects b) (b_names b)
         (b_class_indices b) (b_net_cache b)).

(** the result of parsing, and the elements reserved; parser.rs:319-326 *)
Definition reserved (check : crc_check) (np : network_parse) (data : list byte) : outcome parse_error replay * Z :=
  let (o, s) := c_parse_replay check np (core_new data, 0) in (o, snd s).
End Parser.
