(** * The unit tests of /repo, run on the model

    Each example is one test of /repo and cites it.  Files of /repo/assets are
    in RepoData.v.  The remaining tests of /repo, including the recorded hash of
    the JSON of every sample replay, are run by tools/check_snapshots.py. *)

From Coq Require Import ZArith List Bool.
From Verif Require Import Base Text F32 NetTypes Errors Core Header Body Crc BitReader NetModels
  ObjectIndex Network Parser Json JsonReplay Display Samples SpecReplay RepoData.
Open Scope Z_scope.

(** ** core_parser.rs *)

(** core_parser.rs:143-148 *)
Example parse_text_encoding :
  fst (parse_str (core_new text_data)) = Ok (lit "TAGame.Replay_Soccar_TA").
Proof. vm_compute. reflexivity. Qed.

(** core_parser.rs:151-159 *)
Example parse_text_encoding_bad :
  fst (parse_str (core_new (removelast text_data))) = Err (EInsufficientData 24 23).
Proof. vm_compute. reflexivity. Qed.

(** core_parser.rs:162-173 *)
Example parse_text_zero_size :
  fst (parse_str (core_new [x00; x00; x00; x00; x00])) = Ok [] /\
  fst (parse_text (core_new [x00; x00; x00; x00; x00])) = Ok [].
Proof. vm_compute. split; reflexivity. Qed.

(** core_parser.rs:176-182 *)
Example parse_text_too_large :
  fst (parse_text (core_new [xcc; xcc; xcc; xcc; xcc])) = Err (ETextTooLarge (-858993460)).
Proof. vm_compute. reflexivity. Qed.

(** core_parser.rs:185-194 *)
Example parse_text_encoding_bad_2 :
  fst (parse_str (core_new (firstn 2 text_data))) = Err (EInsufficientData 4 2).
Proof. vm_compute. reflexivity. Qed.

(** core_parser.rs:197-203; U+2623 is E2 98 A3 in UTF-8 *)
Example parse_utf16_string :
  fst (parse_text (core_new utf16_data)) = Ok ([xe2; x98; xa3] ++ lit "D[e]!v1zz" ++ [xe2; x98; xa3]).
Proof. vm_compute. reflexivity. Qed.

(** core_parser.rs:206-211; U+00B3 is C2 B3 in UTF-8 *)
Example windows1252_string :
  fst (parse_text (core_new windows_1252_data)) = Ok (lit "caudillman6000" ++ [xc2; xb3] ++ lit "(2)").
Proof. vm_compute. reflexivity. Qed.

(** core_parser.rs:214-220; U+FFFD is EF BF BD in UTF-8 *)
Example parse_invalid_utf16_string :
  fst (parse_text (core_new [xfd; xff; xff; xff; xd8; xd8; x00; x00; x00; x00])) = Ok [xef; xbf; xbd; x00].
Proof. vm_compute. reflexivity. Qed.

(** ** header.rs *)

(** header.rs:174, 214 *)
Definition none : list byte := [x05; x00; x00; x00; x4e; x6f; x6e; x65; x00].

(** the call of the tests, e.g. header.rs:175-176 *)
Definition rdict (data : list byte) : outcome parse_error props :=
  fst (parse_rdict (S (length data)) Standard (core_new data)).

(** header.rs:173-178 *)
Example rdict_no_elements : rdict none = Ok [].
Proof. vm_compute. reflexivity. Qed.

(** header.rs:181-193 *)
Example rdict_one_element : rdict rdict_one_data = Ok [(lit "PlayerName", HStr (lit "comagoosie"))].
Proof. vm_compute. reflexivity. Qed.

(** header.rs:196-202 *)
Example rdict_one_int_element : rdict rdict_int_data = Ok [(lit "PlayerTeam", HInt 0)].
Proof. vm_compute. reflexivity. Qed.

(** header.rs:205-211 *)
Example rdict_one_bool_element : rdict rdict_bool_data = Ok [(lit "bBot", HBool false)].
Proof. vm_compute. reflexivity. Qed.

(** header.rs:222-236 *)
Example rdict_one_name_element :
  rdict (rdict_name_data ++ none) = Ok [(lit "MatchType", HName (lit "Online"))].
Proof. vm_compute. reflexivity. Qed.

(** header.rs:239-250; 30.0 is 0x41f00000 *)
Example rdict_one_float_element :
  rdict (rdict_float_data ++ none) = Ok [(lit "RecordFPS", HFloat 0x41f00000)].
Proof. vm_compute. reflexivity. Qed.

(** header.rs:253-267 *)
Example rdict_one_qword_element :
  rdict (rdict_qword_data ++ none) = Ok [(lit "OnlineID", HQWord 76561198101748375)].
Proof. vm_compute. reflexivity. Qed.

(** header.rs:270-339 *)
Example rdict_one_array_element :
  let goal frame name team :=
    [(lit "frame", HInt frame); (lit "PlayerName", HStr (lit name)); (lit "PlayerTeam", HInt team)] in
  rdict (rdict_array_data ++ none) =
  Ok [(lit "Goals", HArray [
    goal 441 "Cakeboss"%string 1; goal 1738 "Sasha Kaun"%string 0; goal 3504 "SilentWarrior"%string 0;
    goal 5058 "jeffreyj1"%string 1; goal 5751 "GOOSE LORD"%string 0; goal 6083 "GOOSE LORD"%string 0;
    goal 7021 "SilentWarrior"%string 0])].
Proof. vm_compute. reflexivity. Qed.

(** header.rs:342-359 *)
Example rdict_one_byte_element :
  rdict (rdict_byte_data ++ none) =
  Ok [(lit "Platform", HByte (lit "OnlinePlatform") (Some (lit "OnlinePlatform_Steam")))].
Proof. vm_compute. reflexivity. Qed.

(** the text of an error; no float and no attribute occurs in the texts below.
    e.g. header.rs:370 *)
Definition message {A} (o : outcome parse_error A) : str :=
  match o with
  | Err e => display_parse_error (fun _ => []) (fun _ => []) e
  | _ => []
  end.

(** header.rs:362-373 *)
Example rdict_unrecognized_property :
  message (rdict (rdict_unrecognized_data ++ none)) = lit "Did not expect a property of: BiteProperty".
Proof. vm_compute. reflexivity. Qed.

(** ** crc.rs *)

(** crc.rs:93-95 *)
Example single_byte : calc_crc [xa0] = 0x76cc8c81%N.
Proof. vm_compute. reflexivity. Qed.

(** ** network/models.rs and network/mod.rs *)

(** network/models.rs:421-426 *)
Example decode_vector :
  fst (vector3i_decode std_bitter 5 (reader_new [x06; x08; xd8; x0d] [])) = Ok (mkV3i 0 0 93).
Proof. vm_compute. reflexivity. Qed.

(** network/models.rs:429-440 *)
Example decode_rotation :
  fst (rotation_decode std_bitter (reader_new [x05; x00] [])) = Ok (mkRot (Some 2) None None).
Proof. vm_compute. reflexivity. Qed.

(** network/mod.rs:230-241 *)
Example version_triplets :
  let v := mkVersion 18 27 1 in
  let lt a b := negb (version_geb a b) in
  v_net v = 1 /\
  lt v (mkVersion 19 27 1) = true /\ lt v (mkVersion 18 28 1) = true /\ lt v (mkVersion 18 27 2) = true /\
  lt (mkVersion 17 27 1) v = true /\ lt (mkVersion 18 26 1) v = true /\ lt (mkVersion 18 27 0) v = true.
Proof. vm_compute. repeat split. Qed.

(** ** models.rs; the values instead of their texts, 10.2 is 0x41233333 *)

(** models.rs:348-370 *)
Example serialize_header_array :
  ser_header_prop (HArray [[(lit "frame", HInt 441); (lit "PlayerName", HStr (lit "rust is awesome"))];
                           [(lit "frame", HInt 1738); (lit "PlayerName", HStr (lit "rusty"))]]) =
  JArr [JObj [(lit "frame", JInt 441); (lit "PlayerName", JStr (lit "rust is awesome"))];
        JObj [(lit "frame", JInt 1738); (lit "PlayerName", JStr (lit "rusty"))]].
Proof. vm_compute. reflexivity. Qed.

(** models.rs:373-403 *)
Example serialize_header_others :
  ser_header_prop (HBool false) = JBool false /\ ser_header_prop (HBool true) = JBool true /\
  ser_header_prop (HByte (lit "a") (Some (lit "B"))) = JObj [(lit "kind", JStr (lit "a")); (lit "value", JStr (lit "B"))] /\
  ser_header_prop (HQWord 10) = JStr (lit "10") /\
  ser_header_prop (HFloat 0x41233333) = JF32 0x41233333 /\
  ser_header_prop (HInt 11) = JInt 11 /\
  ser_header_prop (HStr (lit "hello world")) = JStr (lit "hello world") /\
  ser_header_prop (HName (lit "hello world")) = JStr (lit "hello world").
Proof. vm_compute. repeat split. Qed.

(** ** parser.rs *)

(** parser.rs:582-593 *)
Example key_frame_list :
  match fst (parse_keyframe (core_new keyframe_data)) with Ok l => length l = 42%nat | _ => False end.
Proof. vm_compute. reflexivity. Qed.

(** parser.rs:596-615 *)
Example tickmark_list :
  match fst (parse_tickmarks (core_new tickmark_data)) with
  | Ok l => length l = 7%nat /\ hd_error l = Some (mkTick (lit "Team1Goal") 396)
  | _ => False
  end.
Proof. vm_compute. split; reflexivity. Qed.

(** the parser of the tests; parser.rs:618-720 *)
Definition run := parse_with std_bitter key_order.

(** parser.rs:618-621 *)
Example parsing_empty :
  run CrcNever NetNever [] = Err (EParseError "header size" 0 (EInsufficientData 4 0)).
Proof. vm_compute. reflexivity. Qed.

(** parser.rs:638-642 *)
Example corpus_slice_index : match run CrcNever NetNever slice_index with Err _ => True | _ => False end.
Proof. vm_compute. exact I. Qed.

(** ** tests/integration_tests.rs: the number of frames *)

(** tests/integration_tests.rs:9-14 and 38 *)
Definition frames_of (data : list byte) : option nat :=
  match builder_parse std_bitter key_order (must_parse_network_data (always_check_crc (builder_new data))) with
  | Ok r => option_map (@length frame) (r_network_frames r)
  | _ => None
  end.

(** tests/snapshots: no-frames and 6688 *)
Example frame_counts :
  frames_of replay_no_frames = Some 0%nat /\ frames_of replay_6688 = Some 0%nat.
Proof. vm_compute. split; reflexivity. Qed.
