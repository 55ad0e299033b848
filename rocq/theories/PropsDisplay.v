(** * Property theorems: causes and messages of errors (C49 - C51) *)

From Coq Require Import ZArith List Bool Lia.
From Verif Require Import Base F32 NetTypes SegArray Errors Core Header Body BitReader Attributes Data ObjectIndex FrameDecoder
  Network Parser Json Display NetworkProofs Wire SpecBasic SpecNet SpecFrames BitLemmas SpecCrc SpecFile SpecReplay SpecErrors
  SpecDisplay CauseProofs DisplayProofs DisplayFacts DisplayUnique Samples.
Open Scope Z_scope.

(** ** C49 *)

Theorem C49_shape : forall B ho c n data e, parse_with B ho c n data = Err e -> error_shape e.
Proof. exact parse_shape. Qed.
Print Assumptions C49_shape.

Theorem C49_causes : forall B ho c n data e, parse_with B ho c n data = Err e ->
  exists l, causes (AnyParse e) l /\ (length l <= 4)%nat.
Proof. exact parse_causes. Qed.
Print Assumptions C49_causes.

(** the file ends inside the size of the first property and the checksum is wrong:
    four errors, each the cause of the one before *)
Example C49_ex : let data := repeat x00 8 ++ firstn 72 sample_header in exists e e1 e2 e3,
  parse_with std_bitter key_order CrcOnError NetAlways data = Err e /\
  causes (AnyParse e) [AnyParse e; AnyParse e1; AnyParse e2; AnyParse e3] /\
  display_parse_error display_Z (fun _ => []) e = lit "Failed to parse header and crc check failed. Replay is corrupt" /\
  display_parse_error display_Z (fun _ => []) e2 =
    lit "Could not decode replay property size at offset (78): Insufficient data. Expected 4 bytes, but only 2 left".
Proof.
  intros data. eexists _, _, _, _. split; [vm_compute; reflexivity|].
  split; [do 3 (eapply causes_more; [reflexivity|]); apply causes_root; reflexivity|]. split; vm_compute; reflexivity.
Qed.

(** ** C50 *)

Theorem C50_message : forall B ho show_f32 debug_attribute c n data x ctx, bitter_ok B -> hash_order_ok ho ->
  lenZ data < 2 ^ 31 -> parse_with B ho c n data = Err (ENetworkError (NFrameError x ctx)) ->
  exists h b rest l, f_file data (h, b) rest /\
    frame_error_message show_f32 debug_attribute (b_objects (sec_value b)) (b_net_cache (sec_value b)) ctx x l /\
    reads l (display_parse_error show_f32 debug_attribute (ENetworkError (NFrameError x ctx))).
Proof. exact (fun B ho f g c n data x ctx HB Hho => parse_message B HB ho Hho f g c n data x ctx). Qed.
Print Assumptions C50_message.

(** a ball is updated with an attribute that only cameras have, and which is not
    implemented; a frame with a negative time follows one that announces a ball *)
Example C50_ex : let display r := match r with Err e => display_parse_error display_Z (fun _ => lit "...") e | _ => [] end in
  display (parse_with std_bitter key_order CrcAlways NetAlways bad_sample) = lit
"Error decoding frame: attribute unknown or not implemented:
----------
actor id: 3
actor object id: 4
attribute stream id: 2
did not find attribute id (2) on Archetypes.Ball.Ball_Default in object hierarchy: searching all attributes with the same stream id, unknown attributes: [TAGame.CameraSettingsActor_TA:Unheard], all attributes with that stream id: [(TAGame.CameraSettingsActor_TA:Unheard)]. 
Current frame: 0 (time: 0 delta: 0)

Last new actor:
---------------
actor id: 3
name id: 0
object id: 4
object name: Archetypes.Ball.Ball_Default
location: Some(Vector3i { x: 10, y: -20, z: 30 })
rotation: Some(Rotation { yaw: Some(-56), pitch: None, roll: None })
" /\
  display (parse_with std_bitter key_order CrcAlways NetAlways early_sample) = lit
"Error decoding frame: time is out of range: 3212836864. 
Current frame: 1 (time: 1065353216 delta: 1048576000)
- No actor information decoded
Retrace frame: 0 (time: 1065353216, delta: 1048576000)

Last new actor:
---------------
actor id: 3
name id: 0
object id: 4
object name: Archetypes.Ball.Ball_Default
location: Some(Vector3i { x: 10, y: -20, z: 30 })
rotation: Some(Rotation { yaw: Some(-56), pitch: None, roll: None })
".
Proof. vm_compute. auto. Qed.

Theorem C50_unique : forall show_f32 debug_attribute objects caches c x l l' t t', lenZ objects <= 2 ^ 31 ->
  NoDup (map fst (fc_actors c)) ->
  frame_error_message show_f32 debug_attribute objects caches c x l ->
  frame_error_message show_f32 debug_attribute objects caches c x l' -> reads l t -> reads l' t' -> t = t'.
Proof. exact (fun f g objects caches c x l l' t t' L ND => message_fun f g objects L caches c ND x l l' t t'). Qed.
Print Assumptions C50_unique.

Example C50_ex2 : exists objects caches ctx x l t, lenZ objects <= 2 ^ 31 /\ NoDup (map fst (fc_actors ctx)) /\
  frame_error_message display_Z (fun _ => []) objects caches ctx x l /\ reads l t /\ (200 < length t)%nat.
Proof.
  assert (E : exists x ctx, parse_with std_bitter key_order CrcAlways NetAlways bad_sample = Err (ENetworkError (NFrameError x ctx)) /\
    map fst (fc_actors ctx) = [3] /\
    Nat.ltb 200 (length (display_parse_error display_Z (fun _ => []) (ENetworkError (NFrameError x ctx)))) = true).
  { eexists _, _. split; [vm_compute; reflexivity|]. split; [reflexivity|vm_compute; reflexivity]. }
  destruct E as (x & ctx & E & A & Lt). assert (L : lenZ bad_sample < 2 ^ 31) by reflexivity.
  destruct (C50_message std_bitter key_order display_Z (fun _ => []) _ _ _ _ _ std_bitter_ok
    (fun V m => Permutation.Permutation_refl m) L E) as (h & b & rest & l & F & M & R).
  exists (b_objects (sec_value b)), (b_net_cache (sec_value b)), ctx, x, l. eexists.
  split; [apply (nr_objects _ _ (ParseProofs.file_ready _ _ _ _ F))|]. split; [rewrite A; repeat constructor; intros []|].
  split; [exact M|]. split; [exact R|]. now apply Nat.ltb_lt.
Qed.

(** ** C51 *)

Theorem C51_object_of_update_refuted : exists data r x ctx us u obj cls,
  parse_with std_bitter key_order CrcAlways NetNever data = Ok r /\
  parse_with std_bitter key_order CrcAlways NetAlways data = Err (ENetworkError (NFrameError x ctx)) /\
  fc_updated_actors ctx = us ++ [u] /\
  In (u_actor_id u, obj) (fc_actors ctx) /\ object_at (r_objects r) obj cls /\
  (forall p, ~ resolves (r_objects r) (r_net_cache r) cls (u_stream_id u) p) /\
  exists before after,
    display_parse_error (fun _ => []) (fun _ => []) (ENetworkError (NFrameError x ctx)) =
    before ++ lit "Last actor update:
------------------
actor id: " ++ display_Z (u_actor_id u) ++ lit "
object id: " ++ display_Z obj ++ lit "
object name: " ++ cls ++ lit "
attribute stream id: " ++ display_Z (u_stream_id u) ++ after.
Proof.
  exists swap_sample. eexists _, _, _, [], _, 8, (lit "TAGame.Default__CameraSettingsActor_TA").
  split; [vm_compute; reflexivity|]. split; [vm_compute; reflexivity|]. split; [reflexivity|].
  split; [left; reflexivity|]. split; [split; [lia|reflexivity]|]. split.
  - refine (no_attribute std_bitter std_bitter_ok key_order (fun V m => Permutation.Permutation_refl m) CrcAlways swap_sample _ _ _ 8 _ _
      _ _ _ _ _ _); [reflexivity|vm_compute; reflexivity|vm_compute; reflexivity|..]; [|split; [lia|reflexivity]|reflexivity].
    unfold is_i32. cbn. lia.
  - exists (lit "Error decoding frame: attribute update references unknown actor: 301. 
Current frame: 1 (time:  delta: )

"), (lit "
attribute object id: 6
attribute object name: Engine.Actor:bHidden
attribute: 
"). vm_compute. reflexivity.
Qed.
Print Assumptions C51_object_of_update_refuted.

(** the time of the frame with the error, and the time that is shown: that of the
    frame before (here [show_f32] shows the bit pattern) *)
Theorem C51_time_of_frame_refuted : exists data t ctx f after,
  parse_with std_bitter key_order CrcAlways NetAlways data = Err (ENetworkError (NFrameError (FTimeOutOfRange t) ctx)) /\
  fc_frames ctx = [f] /\ f_time f <> t /\
  display_parse_error display_Z (fun _ => []) (ENetworkError (NFrameError (FTimeOutOfRange t) ctx)) =
    lit "Error decoding frame: time is out of range: " ++ display_Z t ++ lit ". 
Current frame: 1 (time: " ++ display_Z (f_time f) ++ after.
Proof.
  exists early_sample. eexists _, _, _, _.
  split; [vm_compute; reflexivity|]. split; [reflexivity|]. split; [discriminate|]. vm_compute. reflexivity.
Qed.
Print Assumptions C51_time_of_frame_refuted.
