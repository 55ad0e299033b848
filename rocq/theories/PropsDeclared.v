(** * Property theorems: replays for [Debug] and in JSON are as declared (C97) *)

From Coq Require Import ZArith List String Lia.
From Verif Require Import Base F32 NetTypes Errors Attributes BitReader ObjectIndex Parser Json JsonNet JsonReplay JsonText Debug DebugNet DebugReplay Display
  SpecBasic SpecJson SpecReader SpecReplay SpecDeclared BitLemmas DeclaredProofs DeclaredReplay DeclaredUnique DeclaredKinds Samples.
Import ListNotations.
Open Scope Z_scope.

(** ** C97 *)

(** [describes t d j]: [d], for [Debug], and [j], in JSON, show the same value of type [t] *)
Theorem C97_replay : forall B, bitter_ok B -> forall ho, hash_order_ok ho -> forall c n data r, lenZ data < 2 ^ 31 ->
  parse_with B ho c n data = Ok r -> describes (Named "Replay") (dbg_replay r) (ser_replay r).
Proof. exact replay_declared. Qed.
Print Assumptions C97_replay.

(** also frames that were not read from a file *)
Theorem C97_frame : forall f, typed_frame f -> describes (Named "Frame") (dbg_frame f) (ser_frame f).
Proof. exact d_frame. Qed.
Print Assumptions C97_frame.

Theorem C97_determined : forall t d j j', describes t d j -> describes t d j' -> j = j'.
Proof. exact describes_fun. Qed.
Print Assumptions C97_determined.

(** kinds of attributes are named like the variants they are decoded to *)
Theorem C97_kind : forall B D tag r a r', bitter_ok B -> reader_ok r -> decode_attribute B D tag r = (Ok a, r') ->
  (exists l, dbg_attribute a = DTuple (lit (variant_of (ad_is_rl_223 D) (tag_name tag))) l) /\
  exists j, ser_attribute a = JObj [(lit (variant_of (ad_is_rl_223 D) (tag_name tag)), j)].
Proof. exact decoded_kind. Qed.
Print Assumptions C97_kind.

Example C97_ex : match parse_with std_bitter key_order CrcAlways NetAlways sample with
  | Ok r =>
    debug_text (fun _ => true) (dbg_replay r) = lit "Replay { header_size: 528, header_crc: 2214411202, major_version: 868, minor_version: 20, net_version: Some(5), game_type: ""TAGame.Replay_Soccar_TA"", properties: [(""NumFrames"", Int(2)), (""Goals"", Array([[(""frame"", Int(7))], []])), (""Platform"", Byte { kind: ""OnlinePlatform"", value: Some(""OnlinePlatform_Steam"") }), (""Bot"", Bool(true)), (""Team"", Struct { name: ""Kind"", fields: [(""Id"", QWord(9223372036854775808))] }), (""Name"", Str(""é😀"")), (""Fps"", Float(30.0))], content_size: 391, content_crc: 1558977162, network_frames: Some(NetworkFrames { frames: [Frame { time: 1.0, delta: 0.25, new_actors: [NewActor { actor_id: ActorId(3), name_id: Some(0), object_id: ObjectId(4), initial_trajectory: Trajectory { location: Some(Vector3i { x: 10, y: -20, z: 30 }), rotation: Some(Rotation { yaw: Some(-56), pitch: None, roll: None }) } }], deleted_actors: [], updated_actors: [UpdatedAttribute { actor_id: ActorId(3), stream_id: StreamId(3), object_id: ObjectId(6), attribute: Boolean(true) }] }, Frame { time: 2.0, delta: 1.0, new_actors: [], deleted_actors: [ActorId(3)], updated_actors: [] }] }), levels: [""stadium""], keyframes: [KeyFrame { time: 0.5, frame: 1, position: 2 }], debug_info: [], tick_marks: [TickMark { description: ""Goal"", frame: 1 }], packages: [""pkg""], objects: [""Core.Object"", ""Engine.Actor"", ""TAGame.RBActor_TA"", ""TAGame.Ball_TA"", ""Archetypes.Ball.Ball_Default"", ""TAGame.RBActor_TA:ReplicatedRBState"", ""Engine.Actor:bHidden""], names: [""Ball_0""], class_indices: [ClassIndex { class: ""Core.Object"", index: 0 }], net_cache: [ClassNetCache { object_ind: 1, parent_id: 0, cache_id: 1, properties: [CacheProp { object_ind: 6, stream_id: 3 }] }, ClassNetCache { object_ind: 2, parent_id: 1, cache_id: 2, properties: [CacheProp { object_ind: 5, stream_id: 10 }] }, ClassNetCache { object_ind: 3, parent_id: 2, cache_id: 3, properties: [] }] }" /\
    json_text f32_text Compact 0 (ser_replay r) = lit "{""header_size"":528,""header_crc"":2214411202,""major_version"":868,""minor_version"":20,""net_version"":5,""game_type"":""TAGame.Replay_Soccar_TA"",""properties"":{""NumFrames"":2,""Goals"":[{""frame"":7},{}],""Platform"":{""kind"":""OnlinePlatform"",""value"":""OnlinePlatform_Steam""},""Bot"":true,""Team"":{""name"":""Kind"",""fields"":{""Id"":""9223372036854775808""}},""Name"":""é😀"",""Fps"":30.0},""content_size"":391,""content_crc"":1558977162,""network_frames"":{""frames"":[{""time"":1.0,""delta"":0.25,""new_actors"":[{""actor_id"":3,""name_id"":0,""object_id"":4,""initial_trajectory"":{""location"":{""x"":10,""y"":-20,""z"":30},""rotation"":{""yaw"":-56,""pitch"":null,""roll"":null}}}],""deleted_actors"":[],""updated_actors"":[{""actor_id"":3,""stream_id"":3,""object_id"":6,""attribute"":{""Boolean"":true}}]},{""time"":2.0,""delta"":1.0,""new_actors"":[],""deleted_actors"":[3],""updated_actors"":[]}]},""levels"":[""stadium""],""keyframes"":[{""time"":0.5,""frame"":1,""position"":2}],""debug_info"":[],""tick_marks"":[{""description"":""Goal"",""frame"":1}],""packages"":[""pkg""],""objects"":[""Core.Object"",""Engine.Actor"",""TAGame.RBActor_TA"",""TAGame.Ball_TA"",""Archetypes.Ball.Ball_Default"",""TAGame.RBActor_TA:ReplicatedRBState"",""Engine.Actor:bHidden""],""names"":[""Ball_0""],""class_indices"":[{""class"":""Core.Object"",""index"":0}],""net_cache"":[{""object_ind"":1,""parent_id"":0,""cache_id"":1,""properties"":[{""object_ind"":6,""stream_id"":3}]},{""object_ind"":2,""parent_id"":1,""cache_id"":2,""properties"":[{""object_ind"":5,""stream_id"":10}]},{""object_ind"":3,""parent_id"":2,""cache_id"":3,""properties"":[]}]}"
  | _ => False end.
Proof. vm_compute. auto. Qed.

(** numbers of 64 bits are texts in JSON only; what is not a number is [null] there; an identifier with a struct of its own *)
Definition some_update : updated_attribute := mkUpdated 5 6 7 (AReservation (mkReservation 1 (mkUniqueId 6 (RSwitch (2 ^ 64 - 1) [x01; xff]) 0) None true false None)).
Example C97_ex2 : typed_frame (mkFrame 0x7fc00000 0 [] [-4] [some_update; mkUpdated 5 6 7 (AFlaggedByte true 255)]) /\
  debug_text (fun _ => true) (dbg_frame (mkFrame 0x7fc00000 0 [] [-4] [some_update; mkUpdated 5 6 7 (AFlaggedByte true 255)])) =
    lit "Frame { time: NaN, delta: 0.0, new_actors: [], deleted_actors: [ActorId(-4)], updated_actors: [UpdatedAttribute { actor_id: ActorId(5), stream_id: StreamId(6), object_id: ObjectId(7), attribute: Reservation(Reservation { number: 1, unique_id: UniqueId { system_id: 6, remote_id: Switch(SwitchId { online_id: 18446744073709551615, unknown1: [1, 255] }), local_id: 0 }, name: None, unknown1: true, unknown2: false, unknown3: None }) }, UpdatedAttribute { actor_id: ActorId(5), stream_id: StreamId(6), object_id: ObjectId(7), attribute: FlaggedByte(true, 255) }] }" /\
  json_text f32_text Compact 0 (ser_frame (mkFrame 0x7fc00000 0 [] [-4] [some_update; mkUpdated 5 6 7 (AFlaggedByte true 255)])) =
    lit "{""time"":null,""delta"":0.0,""new_actors"":[],""deleted_actors"":[-4],""updated_actors"":[{""actor_id"":5,""stream_id"":6,""object_id"":7,""attribute"":{""Reservation"":{""number"":1,""unique_id"":{""system_id"":6,""remote_id"":{""Switch"":{""online_id"":""18446744073709551615"",""unknown1"":[1,255]}},""local_id"":0},""name"":null,""unknown1"":true,""unknown2"":false,""unknown3"":null}}},{""actor_id"":5,""stream_id"":6,""object_id"":7,""attribute"":{""FlaggedByte"":[true,255]}}]}".
Proof. split; [repeat constructor; cbv; intuition discriminate|]. vm_compute. auto. Qed.

(** the same eight bytes under one kind before and after version 2.23 *)
Example C97_ex3 : let read newer := match decode_attribute std_bitter (mkAttrDecoder (mkVersion 868 32 10) (mkProductDecoder (mkVersion 868 32 10) 1 2 3 4 5) newer)
      TQWordString (reader_new [x02; x00; x00; x00; x61; x00; x00; x00] (repeat xff 1024)) with
    | (Ok a, _) => debug_text (fun _ => true) (dbg_attribute a) | _ => [] end in
  reader_ok (reader_new [x02; x00; x00; x00; x61; x00; x00; x00] (repeat xff 1024)) /\
  read true = lit "String(""a"")" /\ read false = lit "QWord(416611827714)".
Proof. split; [split; cbn; lia|]. vm_compute. auto. Qed.
