(** * Property theorems: whole replays for [Debug] (C98) *)

From Coq Require Import ZArith List Bool Lia.
From Verif Require Import Base F32 NetTypes Errors BitReader ObjectIndex Parser Json JsonReplay JsonText Debug DebugReplay EqReplay
  SpecBasic SpecReplay SpecJson SpecEq SpecEqReplay SpecNan SpecShown SpecDebug BitLemmas CompareFacts ShownProofs ShownNumbers Samples SamplesText.
Open Scope Z_scope.

(** ** C98 *)

(** [literal d t]: the text [t] is a notation of Rust for [d]; [visible]: on one line, without control characters *)
Theorem C98_notation : forall B, bitter_ok B -> forall ho, hash_order_ok ho -> forall shown c n data r, lenZ data < 2 ^ 31 ->
  parse_with B ho c n data = Ok r ->
  literal (dbg_replay r) (debug_text shown (dbg_replay r)) /\ visible (debug_text shown (dbg_replay r)).
Proof. exact replay_shown. Qed.
Print Assumptions C98_notation.

(** [one_nan_replay]: with all that is not a number replaced by the same *)
Theorem C98_determined : forall B, bitter_ok B -> forall ho, hash_order_ok ho -> forall shown c n data r c' n' data' r',
  lenZ data < 2 ^ 31 -> lenZ data' < 2 ^ 31 -> parse_with B ho c n data = Ok r -> parse_with B ho c' n' data' = Ok r' ->
  debug_text shown (dbg_replay r) = debug_text shown (dbg_replay r') <-> one_nan_replay r = one_nan_replay r'.
Proof. exact replay_determined. Qed.
Print Assumptions C98_determined.

Theorem C98_numbers : forall B, bitter_ok B -> forall ho, hash_order_ok ho -> forall shown c n data r c' n' data' r',
  lenZ data < 2 ^ 31 -> lenZ data' < 2 ^ 31 -> parse_with B ho c n data = Ok r -> parse_with B ho c' n' data' = Ok r' ->
  Forall numeric (replay_floats r) -> debug_text shown (dbg_replay r) = debug_text shown (dbg_replay r') -> r = r'.
Proof. exact numbers_determined. Qed.
Print Assumptions C98_numbers.

(** the text of a replay around the time of its key frame *)
Definition key_frame_at (time : str) : str :=
  lit "Replay { header_size: 137, header_crc: 278791627, major_version: 868, minor_version: 20, net_version: Some(5), game_type: ""TAGame.Replay_Soccar_TA"", properties: [(""NumFrames"", Int(1)), (""Note"", Str(""a \""b\""\\\n\u{1}""))], content_size: 331, content_crc: 276338452, network_frames: Some(NetworkFrames { frames: [Frame { time: 1.0, delta: 0.25, new_actors: [NewActor { actor_id: ActorId(3), name_id: Some(0), object_id: ObjectId(2), initial_trajectory: Trajectory { location: None, rotation: None } }], deleted_actors: [], updated_actors: [UpdatedAttribute { actor_id: ActorId(3), stream_id: StreamId(2), object_id: ObjectId(3), attribute: CamSettings(CamSettings { fov: 110.0, height: 100.0, angle: -4.0, distance: 270.0, stiffness: 0.5, swivel: 4.5, transition: Some(7.038531e-26) }) }] }] }), levels: [""stadium""], keyframes: [KeyFrame { time: " ++ time ++
  lit ", frame: 1, position: 2 }], debug_info: [], tick_marks: [TickMark { description: ""Goal"", frame: 1 }], packages: [""pkg""], objects: [""Core.Object"", ""TAGame.CameraSettingsActor_TA"", ""TAGame.Default__CameraSettingsActor_TA"", ""TAGame.CameraSettingsActor_TA:ProfileSettings""], names: [""Ball_0""], class_indices: [ClassIndex { class: ""Core.Object"", index: 0 }], net_cache: [ClassNetCache { object_ind: 1, parent_id: 0, cache_id: 1, properties: [CacheProp { object_ind: 3, stream_id: 2 }] }] }".
Definition at_time (l : list byte) (f : replay -> Prop) : Prop :=
  match parse_with std_bitter key_order CrcNever NetAlways (patch 173 l tiny_sample) with Ok r => f r | _ => False end.
(** [1e-45], negative zero and two that are not numbers, which are shown alike *)
Example C98_ex : lenZ tiny_sample < 2 ^ 31 /\
  at_time [x01; x00; x00; x00] (fun r => debug_text (fun _ => true) (dbg_replay r) = key_frame_at (lit "1e-45")) /\
  at_time [x00; x00; x00; x80] (fun r => debug_text (fun _ => true) (dbg_replay r) = key_frame_at (lit "-0.0")) /\
  at_time [x01; x00; x80; x7f] (fun r => debug_text (fun _ => true) (dbg_replay r) = key_frame_at (lit "NaN")) /\
  at_time [xff; xff; xff; xff] (fun r => debug_text (fun _ => true) (dbg_replay r) = key_frame_at (lit "NaN")) /\
  at_time [x01; x00; x80; x7f] (fun r => at_time [xff; xff; xff; xff] (fun s => one_nan_replay r = one_nan_replay s /\ r <> s)) /\
  at_time [x00; x00; x00; x00] (fun r => at_time [x00; x00; x00; x80] (fun s => eq_replay r s = true /\ one_nan_replay r <> one_nan_replay s)) /\
  at_time [x01; x00; x00; x00] (fun r => replay_floats r = [1065353216; 1048576000; 1121714176; 1120403456; 3229614080; 1132920832; 1056964608; 1083179008; 363742205; 1]) /\
  Forall numeric [1065353216; 1048576000; 1121714176; 1120403456; 3229614080; 1132920832; 1056964608; 1083179008; 363742205; 1].
Proof.
  split; [vm_compute; reflexivity|]. do 4 (split; [vm_compute; reflexivity|]).
  split; [vm_compute; split; [reflexivity|discriminate]|]. split; [vm_compute; split; [reflexivity|discriminate]|].
  split; [vm_compute; reflexivity|]. repeat (apply Forall_cons; [left; discriminate|]). apply Forall_nil.
Qed.
