(** * Properties: the JSON texts of replays, and the program that prints them (C78-C82) *)

From Coq Require Import ZArith List Bool Lia.
From Verif Require Import Base F32 Text Errors NetTypes Header Body ObjectIndex BitReader Parser Display Json JsonNet JsonReplay JsonText
  SpecBasic SpecText SpecDecimal SpecFacts SpecReplay SpecFile SpecJson SpecAlike SpecJsonText NumberTextProofs JsonTextProofs
  TextFacts Samples SamplesText.
Open Scope Z_scope.

(** ** C78 *)

Theorem C78_document : forall B ho show l c n data r, bitter_ok B -> hash_order_ok ho -> shows show ->
  lenZ data < 2 ^ 31 -> parse_with B ho c n data = Ok r ->
  json_document (ser_replay r) (json_text show l 0 (ser_replay r)).
Proof. exact (fun B ho show l c n data r HB Hho => replay_text B HB ho Hho show l c n data r). Qed.
Print Assumptions C78_document.

(** a text with quotes, a backslash, a line feed and a control character is escaped *)
Example C78_ex : exists r, parse_with std_bitter key_order CrcAlways NetNever tiny_sample = Ok r /\
  json_text f32_text Compact 0 (ser_replay r) = lit
"{""header_size"":137,""header_crc"":278791627,""major_version"":868,""minor_version"":20,""net_version"":5,""game_type"":""TAGame.Replay_Soccar_TA"",""properties"":{""NumFrames"":1,""Note"":""a \""b\""\\\n\u0001""},""content_size"":331,""content_crc"":276338452,""network_frames"":null,""levels"":[""stadium""],""keyframes"":[{""time"":0.5,""frame"":1,""position"":2}],""debug_info"":[],""tick_marks"":[{""description"":""Goal"",""frame"":1}],""packages"":[""pkg""],""objects"":[""Core.Object"",""TAGame.CameraSettingsActor_TA"",""TAGame.Default__CameraSettingsActor_TA"",""TAGame.CameraSettingsActor_TA:ProfileSettings""],""names"":[""Ball_0""],""class_indices"":[{""class"":""Core.Object"",""index"":0}],""net_cache"":[{""object_ind"":1,""parent_id"":0,""cache_id"":1,""properties"":[{""object_ind"":3,""stream_id"":2}]}]}".
Proof.
  assert (H : match parse_with std_bitter key_order CrcAlways NetNever tiny_sample with
              | Ok r => json_text f32_text Compact 0 (ser_replay r) = lit
"{""header_size"":137,""header_crc"":278791627,""major_version"":868,""minor_version"":20,""net_version"":5,""game_type"":""TAGame.Replay_Soccar_TA"",""properties"":{""NumFrames"":1,""Note"":""a \""b\""\\\n\u0001""},""content_size"":331,""content_crc"":276338452,""network_frames"":null,""levels"":[""stadium""],""keyframes"":[{""time"":0.5,""frame"":1,""position"":2}],""debug_info"":[],""tick_marks"":[{""description"":""Goal"",""frame"":1}],""packages"":[""pkg""],""objects"":[""Core.Object"",""TAGame.CameraSettingsActor_TA"",""TAGame.Default__CameraSettingsActor_TA"",""TAGame.CameraSettingsActor_TA:ProfileSettings""],""names"":[""Ball_0""],""class_indices"":[{""class"":""Core.Object"",""index"":0}],""net_cache"":[{""object_ind"":1,""parent_id"":0,""cache_id"":1,""properties"":[{""object_ind"":3,""stream_id"":2}]}]}"
              | _ => False end) by (vm_compute; reflexivity).
  destruct (parse_with std_bitter key_order CrcAlways NetNever tiny_sample) as [r| |]; try contradiction.
  exists r. split; [reflexivity|exact H].
Qed.

(** ** C79 *)

Theorem C79_one_value : forall j j' t, json_document j t -> json_document j' t -> j = j'.
Proof. exact document_fun. Qed.
Print Assumptions C79_one_value.

Theorem C79_alike : forall B ho show l l' c n data r c' n' data' s, bitter_ok B -> hash_order_ok ho -> shows show ->
  lenZ data < 2 ^ 31 -> lenZ data' < 2 ^ 31 ->
  parse_with B ho c n data = Ok r -> parse_with B ho c' n' data' = Ok s -> finite_frames r -> finite_frames s ->
  (json_text show l 0 (ser_replay r) = json_text show l' 0 (ser_replay s) -> alike_replay r s) /\
  (alike_replay r s -> json_text show l 0 (ser_replay r) = json_text show l 0 (ser_replay s)).
Proof. exact (fun B ho show l l' c n data r c' n' data' s HB Hho => text_same B HB ho Hho show l l' c n data r c' n' data' s). Qed.
Print Assumptions C79_alike.

(** whatever reader the text is given to: if it follows the RFC, it finds the frames *)
Theorem C79_frames_back : forall B ho show l d c n data r fs j, bitter_ok B -> hash_order_ok ho -> shows show ->
  lenZ data < 2 ^ 31 -> parse_with B ho c n data = Ok r -> r_network_frames r = Some fs ->
  json_document j (json_text show l d (ser_vec ser_frame fs)) ->
  (de_vec de_frame j = Some fs <-> Forall finite (flat_map floats_frame fs)).
Proof. exact (fun B ho show l d c n data r fs j HB Hho => frames_text_read B HB ho Hho show l d c n data r fs j). Qed.
Print Assumptions C79_frames_back.

Example C79_ex : exists r f, parse_with std_bitter key_order CrcAlways NetAlways tiny_sample = Ok r /\
  r_network_frames r = Some [f] /\ Forall finite (floats_frame f) /\
  json_text f32_text Compact 0 (ser_frame f) = lit
"{""time"":1.0,""delta"":0.25,""new_actors"":[{""actor_id"":3,""name_id"":0,""object_id"":2,""initial_trajectory"":{""location"":null,""rotation"":null}}],""deleted_actors"":[],""updated_actors"":[{""actor_id"":3,""stream_id"":2,""object_id"":3,""attribute"":{""CamSettings"":{""fov"":110.0,""height"":100.0,""angle"":-4.0,""distance"":270.0,""stiffness"":0.5,""swivel"":4.5,""transition"":7.038531e-26}}}]}".
Proof.
  assert (H : match parse_with std_bitter key_order CrcAlways NetAlways tiny_sample with
              | Ok r => match r_network_frames r with
                        | Some [f] => forallb f32_is_finite (floats_frame f) = true /\
                            json_text f32_text Compact 0 (ser_frame f) = lit
"{""time"":1.0,""delta"":0.25,""new_actors"":[{""actor_id"":3,""name_id"":0,""object_id"":2,""initial_trajectory"":{""location"":null,""rotation"":null}}],""deleted_actors"":[],""updated_actors"":[{""actor_id"":3,""stream_id"":2,""object_id"":3,""attribute"":{""CamSettings"":{""fov"":110.0,""height"":100.0,""angle"":-4.0,""distance"":270.0,""stiffness"":0.5,""swivel"":4.5,""transition"":7.038531e-26}}}]}"
                        | _ => False end
              | _ => False end) by (vm_compute; split; reflexivity).
  destruct (parse_with std_bitter key_order CrcAlways NetAlways tiny_sample) as [r| |]; try contradiction.
  destruct (r_network_frames r) as [[|f [|]]|] eqn:F; try contradiction. destruct H as [Fi T].
  exists r, f. split; [reflexivity|]. split; [exact F|]. split; [|exact T].
  rewrite forallb_forall in Fi. apply Forall_forall. intros x Hx. apply JsonLogic.finite_iff, Fi, Hx.
Qed.

(** one value, two texts *)
Example C79_ex_texts : let j := JArr [JInt 1; JF32 0x3f800000; JStr [x2f]] in
  json_document j (lit "[1,1.0,""/""]") /\ json_document j (lit " [ 1 , 10.0e-1, ""\/""] ").
Proof. exact two_texts. Qed.

(** ** C80 *)

Theorem C80_reads : shows f32_text.
Proof. exact f32_text_reads. Qed.
Print Assumptions C80_reads.

Theorem C80_shortest : forall x, is_u32 x -> finite x -> exists neg c e d k a,
  number neg c e false (f32_text x) /\ same_decimal c e d k /\ shortest_decimal a d k /\ ties_to_even a d k /\ 0 <= c /\
  x = (if neg : bool then 2 ^ 31 + a else a).
Proof. exact f32_text_shortest. Qed.
Print Assumptions C80_shortest.

(** the least and the greatest positive number, negative zero, and others *)
Example C80_ex : f32_text 1 = lit "1e-45" /\ f32_text 0x7f7fffff = lit "3.4028235e+38" /\ f32_text 0x80000000 = lit "-0.0" /\
  f32_text 0x3dcccccd = lit "0.1" /\ f32_text 0x3586a18b = lit "0.0000010030793" /\ f32_text 0x322bcc77 = lit "1e-8" /\
  f32_text 0x4b800001 = lit "16777218.0" /\ f32_text 0x3f7fffff = lit "0.99999994" /\
  Forall (fun x => is_u32 x /\ finite x) [1; 0x7f7fffff; 0x80000000; 0x3dcccccd; 0x3586a18b; 0x322bcc77; 0x4b800001; 0x3f7fffff].
Proof.
  repeat (split; [vm_compute; reflexivity|]).
  repeat (constructor; [split; [split; reflexivity || discriminate|apply JsonLogic.finite_iff; vm_compute; reflexivity]|]). constructor.
Qed.

(** a tie: the number is written 2097152.2 *)
Example C80_ex_tie : f32_text 0x4a000001 = lit "2097152.2" /\ tied 0x4a000001 20971522 (-1) 20971523 (-1).
Proof.
  split; [vm_compute; reflexivity|]. split; [lia|]. split; [apply FloatTextProofs.reads_as_nearest; [split; reflexivity || discriminate|lia|vm_compute; reflexivity]|].
  split; [intros j Hj L; destruct (Z.le_gt_cases j 7) as [H|H]; [|apply Z.lt_le_trans with (10 ^ 8); [reflexivity|apply Z.pow_le_mono_r; lia]]|].
  - assert (10 ^ j <= 10 ^ 7) by (apply Z.pow_le_mono_r; lia). change (10 ^ 7) with 10000000 in *. lia.
  - split; [discriminate|]. eexists. split; [vm_compute; reflexivity|]. vm_compute. discriminate.
Qed.

(** ** C81 *)

(** that a reader may use binary64 numbers *)
Theorem C81_binary64_refuted : exists data r f x y,
  parse_with std_bitter key_order CrcAlways NetAlways data = Ok r /\ r_network_frames r = Some [f] /\ In x (floats_frame f) /\
  finite x /\ float_text x (f32_text x) /\ float_text64 y (f32_text x) /\ y <> x.
Proof. exact lost_in_frames. Qed.
Print Assumptions C81_binary64_refuted.

Example C81_ex : f32_text 0x15AE43FD = lit "7.038531e-26" /\ f32_text 0x15AE43FE = lit "7.0385313e-26" /\
  float_text64 0x15AE43FE (lit "7.038531e-26").
Proof. split; [vm_compute; reflexivity|]. split; [vm_compute; reflexivity|exact lost]. Qed.

(** ** C82 *)

Theorem C82_json : forall B ho show show_error data p, bitter_ok B -> hash_order_ok ho -> shows show -> lenZ data < 2 ^ 31 ->
  json_main B ho show show_error data = p ->
  (exists r, parse_with B ho CrcAlways NetAlways data = Ok r /\ json_document (ser_replay r) (out_text p) /\
     err_text p = [] /\ exit_code p = 0) \/
  (exists e, parse_with B ho CrcAlways NetAlways data = Err e /\ out_text p = [] /\
     err_text p = lit "An error occurred: " ++ show_error e ++ [x0a] /\ exit_code p = 1).
Proof. exact (fun B ho show show_error data p HB Hho => json_exact B HB ho Hho show show_error data p). Qed.
Print Assumptions C82_json.

Example C82_ex : json_main std_bitter key_order f32_text (display_parse_error f32_text (fun _ => [])) tiny_sample = mkPrinted (lit
"{
  ""header_size"": 137,
  ""header_crc"": 278791627,
  ""major_version"": 868,
  ""minor_version"": 20,
  ""net_version"": 5,
  ""game_type"": ""TAGame.Replay_Soccar_TA"",
  ""properties"": {
    ""NumFrames"": 1,
    ""Note"": ""a \""b\""\\\n\u0001""
  },
  ""content_size"": 331,
  ""content_crc"": 276338452,
  ""network_frames"": {
    ""frames"": [
      {
        ""time"": 1.0,
        ""delta"": 0.25,
        ""new_actors"": [
          {
            ""actor_id"": 3,
            ""name_id"": 0,
            ""object_id"": 2,
            ""initial_trajectory"": {
              ""location"": null,
              ""rotation"": null
            }
          }
        ],
        ""deleted_actors"": [],
        ""updated_actors"": [
          {
            ""actor_id"": 3,
            ""stream_id"": 2,
            ""object_id"": 3,
            ""attribute"": {
              ""CamSettings"": {
                ""fov"": 110.0,
                ""height"": 100.0,
                ""angle"": -4.0,
                ""distance"": 270.0,
                ""stiffness"": 0.5,
                ""swivel"": 4.5,
                ""transition"": 7.038531e-26
              }
            }
          }
        ]
      }
    ]
  },
  ""levels"": [
    ""stadium""
  ],
  ""keyframes"": [
    {
      ""time"": 0.5,
      ""frame"": 1,
      ""position"": 2
    }
  ],
  ""debug_info"": [],
  ""tick_marks"": [
    {
      ""description"": ""Goal"",
      ""frame"": 1
    }
  ],
  ""packages"": [
    ""pkg""
  ],
  ""objects"": [
    ""Core.Object"",
    ""TAGame.CameraSettingsActor_TA"",
    ""TAGame.Default__CameraSettingsActor_TA"",
    ""TAGame.CameraSettingsActor_TA:ProfileSettings""
  ],
  ""names"": [
    ""Ball_0""
  ],
  ""class_indices"": [
    {
      ""class"": ""Core.Object"",
      ""index"": 0
    }
  ],
  ""net_cache"": [
    {
      ""object_ind"": 1,
      ""parent_id"": 0,
      ""cache_id"": 1,
      ""properties"": [
        {
          ""object_ind"": 3,
          ""stream_id"": 2
        }
      ]
    }
  ]
}") [] 0.
Proof. vm_compute. reflexivity. Qed.

(** one bit of the stored checksum of the header is wrong *)
Example C82_ex_crc : json_main std_bitter key_order f32_text (display_parse_error f32_text (fun _ => []))
    (firstn 4 tiny_sample ++ [x00] ++ skipn 5 tiny_sample) = mkPrinted [] (lit "An error occurred: Crc mismatch. Expected 278791424 but received 278791627" ++ [x0a]) 1.
Proof. vm_compute. reflexivity. Qed.
