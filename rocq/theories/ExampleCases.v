(** * Proofs: runs of ping.rs and property_counter.rs that go wrong *)

From Coq Require Import ZArith List Bool Lia.
From Verif Require Import Base F32 NetTypes Errors Header BitReader ObjectIndex Network Parser SpecBasic SpecReplay
  Examples SpecExamples Samples SamplesPlay.
Open Scope Z_scope.

Definition as_is : text_order := fun V m => m.
Definition no_f32 : f32 -> str := fun _ => [].
Definition no_attribute : attribute -> str := fun _ => [].

(** the place of a text in a list *)
Ltac index l i := exists (firstn i l), (skipn (S i) l); split; [reflexivity|]; split;
  [cbn; intuition discriminate|reflexivity].

Lemma pings_lost : exists data r fs i j u v,
  parse_with std_bitter key_order CrcOnError NetAlways data = Ok r /\ r_network_frames r = Some fs /\
  first_index (r_objects r) (lit "Engine.PlayerReplicationInfo:PlayerName") i /\
  first_index (r_objects r) (lit "Engine.PlayerReplicationInfo:Ping") j /\
  In u (updates fs) /\ says i u (lit "ann") /\ In v (updates fs) /\ pings j v 7 /\ u_actor_id v = u_actor_id u /\
  ping_main std_bitter key_order as_is data = ([lit "ann: []"], Success).
Proof.
  exists solo_sample. eexists. eexists. exists 4, 5, (mkUpdated 1 1 4 (AString (lit "ann"))), (mkUpdated 1 2 5 (AByte 7)).
  split; [vm_compute; reflexivity|]. split; [reflexivity|]. cbn [r_objects].
  split; [match goal with |- first_index ?l _ _ => index l 4%nat end|].
  split; [match goal with |- first_index ?l _ _ => index l 5%nat end|].
  split; [right; left; reflexivity|]. split; [split; reflexivity|].
  split; [right; right; left; reflexivity|]. split; [split; reflexivity|]. split; [reflexivity|]. vm_compute. reflexivity.
Qed.

Lemma pings_moved : exists data r fs i j u v,
  parse_with std_bitter key_order CrcOnError NetAlways data = Ok r /\ r_network_frames r = Some fs /\
  first_index (r_objects r) (lit "Engine.PlayerReplicationInfo:PlayerName") i /\
  first_index (r_objects r) (lit "Engine.PlayerReplicationInfo:Ping") j /\
  In u (updates fs) /\ says i u (lit "ann") /\ In v (updates fs) /\ pings j v 7 /\ u_actor_id v = u_actor_id u /\
  (forall w x, In w (updates fs) -> pings j w x -> w = v) /\
  (forall w, In w (updates fs) -> u_actor_id w = u_actor_id u -> ~ says i w (lit "bob")) /\
  ping_main std_bitter key_order as_is data = ([lit "ann: []"; lit "bob: [7]"], Success).
Proof.
  exists play_sample. eexists. eexists. exists 4, 5, (mkUpdated 1 1 4 (AString (lit "ann"))), (mkUpdated 1 2 5 (AByte 7)).
  split; [vm_compute; reflexivity|]. split; [reflexivity|]. cbn [r_objects].
  split; [match goal with |- first_index ?l _ _ => index l 4%nat end|].
  split; [match goal with |- first_index ?l _ _ => index l 5%nat end|].
  split; [left; reflexivity|]. split; [split; reflexivity|].
  split; [right; right; right; left; reflexivity|]. split; [split; reflexivity|]. split; [reflexivity|].
  split; [|split; [|vm_compute; reflexivity]].
  - intros w x H [O A]. cbn [updates flat_map f_updated_actors app] in H.
    repeat (destruct H as [<-|H]; [cbn [u_object_id u_attribute] in *; try discriminate O; reflexivity|]). destruct H.
  - intros w H W [O A]. cbn [updates flat_map f_updated_actors app] in H.
    repeat (destruct H as [<-|H]; [cbn [u_actor_id u_object_id u_attribute] in *; first [discriminate W|discriminate O|discriminate A]|]).
    destruct H.
Qed.

Lemma not_counted : exists x s r,
  parses std_bitter key_order s r /\
  counter_main std_bitter key_order as_is no_f32 no_attribute [s] =
    ([lit "Parsed: s"; lit "Parsed 1 files"; lit "NumFrames:int: 1"; lit "PlayerStats:Name:int: 1";
      lit "PlayerStats:Name:name: 1"; lit "PlayerStats:Name:str: 1"; lit "PlayerStats:Score:int: 1";
      lit "PlayerStats:array: 1"; lit "PlayerStats:int: 1"], Success) /\
  counter_main std_bitter key_order as_is no_f32 no_attribute [x; s] =
    ([lit "unable to parse file x: Could not decode replay header properties at offset (86): Did not expect a property of: MapProperty";
      lit "unable to parse file s: Could not decode replay header properties at offset (86): Did not expect a property of: MapProperty";
      lit "Parsed 0 files"], Success).
Proof.
  exists (mkArg (lit "x") map_sample None), (mkArg (lit "s") solo_sample None). eexists.
  split; [split; [reflexivity|vm_compute; reflexivity]|]. split; vm_compute; reflexivity.
Qed.

Lemma counted_wrongly : exists a b e e',
  arg_error a = None /\ arg_error b = None /\
  parse_with std_bitter key_order CrcNever NetNever (arg_data a) = Err e /\
  parse_with std_bitter key_order CrcNever NetNever (arg_data b) = Err e' /\
  exists l, counter_main std_bitter key_order as_is no_f32 no_attribute [a; b] =
    (lit "unable to parse file a: Could not decode replay header data at offset (8): Insufficient data. Expected 528 bytes, but only 292 left" ::
     lit "Parsed: b" :: lit "Parsed 1 files" :: l, Success) /\ l <> [].
Proof.
  exists (mkArg (lit "a") (firstn 300 sample) None), (mkArg (lit "b") (skipn 300 sample) None). eexists. eexists.
  split; [reflexivity|]. split; [reflexivity|]. split; [vm_compute; reflexivity|]. split; [vm_compute; reflexivity|].
  eexists. split; [vm_compute; reflexivity|]. discriminate.
Qed.
