(** * Property theorems: values in error messages (C89) *)

From Coq Require Import ZArith List Bool Lia.
From Verif Require Import Base F32 NetTypes SegArray Errors Core Header Body BitReader Attributes Data ObjectIndex FrameDecoder
  Network Parser Json Display FloatDisplay Debug DebugNet SpecBasic SpecText SpecFacts SpecJson SpecJsonText SpecReader SpecRange SpecReplay SpecFloatDisplay SpecNan SpecDebug
  BitLemmas NetworkProofs DebugTextProofs DebugFacts Samples SamplesForged.
Open Scope Z_scope.

(** ** C89 *)

(** [shown]: which characters that are not ASCII are shown as they are *)
Theorem C89_notation : forall B, bitter_ok B -> forall shown D tag r a r', reader_ok r -> decode_attribute B D tag r = (Ok a, r') ->
  literal (dbg_attribute a) (debug_text shown (dbg_attribute a)) /\ visible (debug_text shown (dbg_attribute a)).
Proof. exact attribute_shown. Qed.
Print Assumptions C89_notation.

Definition decoder : attribute_decoder :=
  mkAttrDecoder (mkVersion 868 20 5) (mkProductDecoder (mkVersion 868 20 5) 1 2 3 4 5) false.
(** a text with a quotation mark, a line break, the delete character, an accent and an emoji;
    an impulse of 1e-5; camera settings of which some are not finite *)
Example C89_ex : let read shown tag l := match decode_attribute std_bitter decoder tag (reader_new l (repeat xff 1024)) with
    | (Ok a, _) => debug_text shown (dbg_attribute a) | _ => [] end in
  let text := [xf8; xff; xff; xff; x61; x00; x22; x00; x0a; x00; x7f; x00; xe9; x00; x3d; xd8; x00; xde; x00; x00] in
  reader_ok (reader_new text (repeat xff 1024)) /\
  read (fun _ => true) TString text = lit "String(""a\""\n\u{7f}é😀"")" /\
  read (fun c => c <? 256) TString text = lit "String(""a\""\n\u{7f}é\u{1f600}"")" /\
  read (fun _ => true) TImpulse [xff; xff; xff; xff; xac; xc5; x27; x37] = lit "Impulse(Impulse { compressed_rotation: -1, speed: 1e-5 })" /\
  read (fun _ => true) TCamSettings
    [x00; x00; xdc; x42; x01; x00; xc0; x7f; x00; x00; x80; xff; xca; x1b; x0e; x5a; x17; xb7; xd1; x38; x00; x00; x00; x80; xcd; xcc; xcc; x3d] =
    lit "CamSettings(CamSettings { fov: 110.0, height: NaN, angle: -inf, distance: 1e16, stiffness: 0.0001, swivel: -0.0, transition: Some(0.1) })".
Proof. split; [split; cbn; lia|]. vm_compute. auto. Qed.

Theorem C89_determined : forall B, bitter_ok B -> forall shown D tag r a r' D' tag' s b s', reader_ok r -> reader_ok s ->
  decode_attribute B D tag r = (Ok a, r') -> decode_attribute B D' tag' s = (Ok b, s') ->
  debug_text shown (dbg_attribute a) = debug_text shown (dbg_attribute b) <-> one_nan_attribute a = one_nan_attribute b.
Proof. exact attribute_determined. Qed.
Print Assumptions C89_determined.

(** two that are not numbers, and two zeros *)
Example C89_ex2 : let read l := match decode_attribute std_bitter decoder TFloat (reader_new l (repeat xff 1024)) with
    | (Ok a, _) => (a, debug_text (fun _ => true) (dbg_attribute a), one_nan_attribute a) | _ => (ABoolean true, [], ABoolean true) end in
  read [x01; x00; x80; x7f] = (AFloat 0x7f800001, lit "Float(NaN)", AFloat 0x7fc00000) /\
  read [xff; xff; xff; xff] = (AFloat 0xffffffff, lit "Float(NaN)", AFloat 0x7fc00000) /\
  read [x00; x00; x00; x00] = (AFloat 0, lit "Float(0.0)", AFloat 0) /\
  read [x00; x00; x00; x80] = (AFloat 0x80000000, lit "Float(-0.0)", AFloat 0x80000000).
Proof. vm_compute. auto. Qed.

Theorem C89_frame : forall B, bitter_ok B -> forall ho, hash_order_ok ho -> forall shown c n data r fs f, lenZ data < 2 ^ 31 ->
  parse_with B ho c n data = Ok r -> r_network_frames r = Some fs -> In f fs ->
  literal (dbg_frame f) (debug_text shown (dbg_frame f)) /\ visible (debug_text shown (dbg_frame f)).
Proof. exact frames_shown. Qed.
Print Assumptions C89_frame.

Theorem C89_frame_determined : forall B, bitter_ok B -> forall ho, hash_order_ok ho -> forall shown c n data r fs f c' n' data' r' fs' f',
  lenZ data < 2 ^ 31 -> lenZ data' < 2 ^ 31 ->
  parse_with B ho c n data = Ok r -> parse_with B ho c' n' data' = Ok r' ->
  r_network_frames r = Some fs -> r_network_frames r' = Some fs' -> In f fs -> In f' fs' ->
  debug_text shown (dbg_frame f) = debug_text shown (dbg_frame f') <-> one_nan_frame f = one_nan_frame f'.
Proof. exact frames_determined. Qed.
Print Assumptions C89_frame_determined.

Example C89_ex3 : match parse_with std_bitter key_order CrcAlways NetAlways sample with
  | Ok r => match r_network_frames r with
    | Some fs => map (fun f => debug_text (fun _ => true) (dbg_frame f)) fs =
      [lit "Frame { time: 1.0, delta: 0.25, new_actors: [NewActor { actor_id: ActorId(3), name_id: Some(0), object_id: ObjectId(4), initial_trajectory: Trajectory { location: Some(Vector3i { x: 10, y: -20, z: 30 }), rotation: Some(Rotation { yaw: Some(-56), pitch: None, roll: None }) } }], deleted_actors: [], updated_actors: [UpdatedAttribute { actor_id: ActorId(3), stream_id: StreamId(3), object_id: ObjectId(6), attribute: Boolean(true) }] }";
       lit "Frame { time: 2.0, delta: 1.0, new_actors: [], deleted_actors: [ActorId(3)], updated_actors: [] }"]
    | None => False end
  | _ => False end.
Proof. vm_compute. reflexivity. Qed.

(** [float_literal]: read back, it is the same number *)
Theorem C89_float : forall x, is_u32 x -> float_literal x (debug_f32 x).
Proof. exact debug_float. Qed.
Print Assumptions C89_float.

(** the digits are the fewest that do *)
Theorem C89_shortest : forall x, is_u32 x -> finite x -> exists neg c e d k a,
  number neg c e false (debug_f32 x) /\ same_decimal c e d k /\ shortest_decimal a d k /\ 0 <= c /\ x = (if neg : bool then 2 ^ 31 + a else a).
Proof. exact debug_shortest. Qed.
Print Assumptions C89_shortest.

Example C89_ex4 : is_u32 0x33d6bf95 /\ finite 0x33d6bf95 /\
  map debug_f32 [0x33d6bf95; 0x38d1b716; 0x38d1b717; 0x5a0e1bc9; 0x5a0e1bca; 0x7f7fffff; 1; 0xc2f6e979] =
  map lit ["1e-7"; "9.999999e-5"; "0.0001"; "9999999000000000.0"; "1e16"; "3.4028235e38"; "1e-45"; "-123.456"]%string.
Proof. split; [split; [discriminate|reflexivity]|]. split; [discriminate|]. vm_compute. reflexivity. Qed.

(** the places of new actors, which Display.v writes out, are shown in the same way *)
Theorem C89_location : forall shown v, Forall (fun x => Z.abs x < 2 ^ 31) [v3i_x v; v3i_y v; v3i_z v] ->
  debug_location (Some v) = debug_text shown (dbg_opt dbg_vector3i (Some v)).
Proof. exact location_shown. Qed.
Print Assumptions C89_location.
Theorem C89_rotation : forall shown r, if_any (fun x => Z.abs x < 2 ^ 31) (r_yaw r) -> if_any (fun x => Z.abs x < 2 ^ 31) (r_pitch r) ->
  if_any (fun x => Z.abs x < 2 ^ 31) (r_roll r) -> debug_rotation (Some r) = debug_text shown (dbg_opt dbg_rotation (Some r)).
Proof. exact rotation_shown. Qed.
Print Assumptions C89_rotation.
Example C89_ex5 : debug_rotation (Some (mkRot (Some (-56)) None (Some 0))) = lit "Some(Rotation { yaw: Some(-56), pitch: None, roll: Some(0) })" /\
  debug_text (fun _ => true) (dbg_opt dbg_rotation (Some (mkRot (Some (-56)) None (Some 0)))) = lit "Some(Rotation { yaw: Some(-56), pitch: None, roll: Some(0) })".
Proof. vm_compute. auto. Qed.

(** Names of objects are not escaped: a message can tell of an actor that the replay does not mention. *)
Theorem C89_lines_refuted : exists data x ctx before after,
  parse_with std_bitter key_order CrcAlways NetAlways data = Err (ENetworkError (NFrameError x ctx)) /\
  display_parse_error display_f32 (fun a => debug_text (fun _ => true) (dbg_attribute a)) (ENetworkError (NFrameError x ctx)) =
    before ++ lit "

Last new actor:
---------------
actor id: 99
object name: Archetypes.Ball.Ball_Puck
" ++ after /\
  Forall (fun id => id <> 99) (map fst (fc_actors ctx) ++ map n_actor_id (fc_new_actors ctx) ++ map u_actor_id (fc_updated_actors ctx)) /\
  fc_frames ctx = [] /\ ~ In (lit "Archetypes.Ball.Ball_Puck") (fc_objects ctx).
Proof.
  exists forged_sample. eexists _, _, (lit "Error decoding frame: attribute unknown or not implemented:
----------
actor id: 3
actor object id: 4
attribute stream id: 2
did not find attribute id (2) on Archetypes.Ball.Ball_Default in object hierarchy: searching all attributes with the same stream id, unknown attributes: [TAGame.CameraSettingsActor_TA:Unheard]"), _.
  split; [vm_compute; reflexivity|]. split; [vm_compute; reflexivity|]. split; [repeat constructor; discriminate|]. split; [reflexivity|].
  cbn [fc_objects In]. intros H. repeat (destruct H as [H|H]; [discriminate H|]). exact H.
Qed.
Print Assumptions C89_lines_refuted.
