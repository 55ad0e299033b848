(** * Properties: errors that more data do not change, and the example programs (C71-C77) *)

From Coq Require Import ZArith List Bool Lia Permutation.
From Verif Require Import Base F32 NetTypes Errors Core Header Body BitReader ObjectIndex Network Parser Display
  SpecBasic SpecDecimal SpecDisplay SpecNet SpecFacts SpecReplay BitLemmas Examples SpecExamples Samples SamplesPlay
  StableProofs ExampleFacts ExampleProofs ExampleCases.
Open Scope Z_scope.

(** ** C71 *)

Theorem C71_error_stays : forall B ho c n data extra e, bitter_ok B -> hash_order_ok ho ->
  lenZ (data ++ extra) < 2 ^ 31 -> parse_with B ho c n data = Err e -> ~ short e ->
  parse_with B ho c n (data ++ extra) = Err e.
Proof. exact error_stays. Qed.
Print Assumptions C71_error_stays.

(** without a body: more data can cure this *)
Example C71_ex_short : exists e r, parse_with std_bitter key_order CrcAlways NetAlways (firstn 300 sample) = Err e /\ short e /\
  parse_with std_bitter key_order CrcAlways NetAlways (firstn 300 sample ++ skipn 300 sample) = Ok r.
Proof.
  eexists. eexists. split; [vm_compute; reflexivity|]. split; [|vm_compute; reflexivity]. repeat constructor.
Qed.
(** a property of an unknown kind: no data can *)
Example C71_ex : exists e, parse_with std_bitter key_order CrcNever NetNever map_header = Err e /\ ~ short e /\
  parse_with std_bitter key_order CrcNever NetNever map_sample = Err e.
Proof.
  eexists. split; [vm_compute; reflexivity|]. split; [|vm_compute; reflexivity].
  intros H. repeat (inversion H; clear H; subst; rename H1 into H); inversion H.
Qed.

(** ** C72 *)

Theorem C72_names : forall B ho data l e, bitter_ok B -> hash_order_ok ho -> lenZ data < 2 ^ 31 ->
  (names_main B ho data = (l, e) <-> names_run (parse_with B ho CrcOnError NetIgnoreOnError data) l e).
Proof. intros B ho data l e HB Hho. exact (names_exact B HB ho Hho data l e). Qed.
Print Assumptions C72_names.

Example C72_ex : names_main std_bitter key_order play_sample =
  ([lit "Names in the header data:"; lit "ann"; lit "bob"; lit "Names in the network data:"; lit "ann"; lit "bob"], Success).
Proof. vm_compute. reflexivity. Qed.

(** ** C73 *)

Theorem C73_expected : forall B ho c n data r fs u, bitter_ok B -> hash_order_ok ho -> lenZ data < 2 ^ 31 ->
  parse_with B ho c n data = Ok r -> r_network_frames r = Some fs -> In u (updates fs) ->
  let of name := object_at (r_objects r) (u_object_id u) (lit name) in
  (of "Engine.PlayerReplicationInfo:PlayerName"%string -> exists s, u_attribute u = AString s) /\
  (of "Engine.PlayerReplicationInfo:Ping"%string -> exists x, u_attribute u = AByte x /\ 0 <= x < 256) /\
  (of "Engine.Pawn:PlayerReplicationInfo"%string -> exists a, u_attribute u = AActiveActor a) /\
  (of "TAGame.Car_TA:ReplicatedDemolish"%string -> exists d, u_attribute u = ADemolish d) /\
  (of "TAGame.Car_TA:ReplicatedDemolishGoalExplosion"%string \/ of "TAGame.Car_TA:ReplicatedDemolish_CustomFX"%string ->
     exists d, u_attribute u = ADemolishFx d) /\
  (of "TAGame.Car_TA:ReplicatedDemolishExtended"%string -> exists d, u_attribute u = ADemolishExtended d).
Proof. intros B ho c n data r fs u HB Hho. exact (expected B HB ho Hho c n data r fs u). Qed.
Print Assumptions C73_expected.

Theorem C73_ping_ends : forall B ho so data e, bitter_ok B -> hash_order_ok ho -> lenZ data < 2 ^ 31 ->
  (snd (ping_main B ho so data) = e <-> ping_ends (parse_with B ho CrcOnError NetAlways data) e).
Proof. intros B ho so data e HB Hho. exact (ping_ending B HB ho Hho so data e). Qed.
Print Assumptions C73_ping_ends.

Example C73_ex : snd (ping_main std_bitter key_order as_is play_sample) = Success /\
  exists r fs us, parse_with std_bitter key_order CrcOnError NetAlways play_sample = Ok r /\
    r_network_frames r = Some fs /\ updates fs = us /\ (8 <= length us)%nat.
Proof.
  split; [vm_compute; reflexivity|]. eexists. eexists. eexists. split; [vm_compute; reflexivity|].
  split; [reflexivity|]. split; [reflexivity|]. vm_compute. lia.
Qed.

(** ** C74 *)

Theorem C74_one_player : forall B ho so data r fs i j actor n, bitter_ok B -> hash_order_ok ho -> text_order_ok so ->
  lenZ data < 2 ^ 31 -> parse_with B ho CrcOnError NetAlways data = Ok r -> r_network_frames r = Some fs ->
  first_index (r_objects r) (lit "Engine.PlayerReplicationInfo:PlayerName") i ->
  first_index (r_objects r) (lit "Engine.PlayerReplicationInfo:Ping") j ->
  Forall (one_player i j actor n) (updates fs) -> (exists u, In u (updates fs) /\ u_object_id u = i) ->
  ping_main B ho so data = ([n ++ lit ": []"], Success).
Proof.
  intros B ho so data r fs i j actor n HB Hho Hso. exact (ping_alone B HB ho Hho so Hso data r fs i j actor n).
Qed.
Print Assumptions C74_one_player.

Example C74_ex : exists r fs, parse_with std_bitter key_order CrcOnError NetAlways solo_sample = Ok r /\
  r_network_frames r = Some fs /\ Forall (one_player 4 5 1 (lit "ann")) (updates fs) /\ length (updates fs) = 3%nat /\
  ping_main std_bitter key_order as_is solo_sample = ([lit "ann: []"], Success).
Proof.
  eexists. eexists. split; [vm_compute; reflexivity|]. split; [reflexivity|].
  split; [|split; [reflexivity|vm_compute; reflexivity]].
  repeat constructor; intros m [O A]; first [discriminate O|now injection A as <-].
Qed.

(** "the pings of a player are in the line with their name" *)
Theorem C74_pings_printed_refuted : exists data r fs i j u v,
  parse_with std_bitter key_order CrcOnError NetAlways data = Ok r /\ r_network_frames r = Some fs /\
  first_index (r_objects r) (lit "Engine.PlayerReplicationInfo:PlayerName") i /\
  first_index (r_objects r) (lit "Engine.PlayerReplicationInfo:Ping") j /\
  In u (updates fs) /\ says i u (lit "ann") /\ In v (updates fs) /\ pings j v 7 /\ u_actor_id v = u_actor_id u /\
  ping_main std_bitter key_order as_is data = ([lit "ann: []"], Success).
Proof. exact pings_lost. Qed.
Print Assumptions C74_pings_printed_refuted.

(** "a ping in the line with a name belongs to an actor with this name" *)
Theorem C74_right_player_refuted : exists data r fs i j u v,
  parse_with std_bitter key_order CrcOnError NetAlways data = Ok r /\ r_network_frames r = Some fs /\
  first_index (r_objects r) (lit "Engine.PlayerReplicationInfo:PlayerName") i /\
  first_index (r_objects r) (lit "Engine.PlayerReplicationInfo:Ping") j /\
  In u (updates fs) /\ says i u (lit "ann") /\ In v (updates fs) /\ pings j v 7 /\ u_actor_id v = u_actor_id u /\
  (forall w x, In w (updates fs) -> pings j w x -> w = v) /\
  (forall w, In w (updates fs) -> u_actor_id w = u_actor_id u -> ~ says i w (lit "bob")) /\
  ping_main std_bitter key_order as_is data = ([lit "ann: []"; lit "bob: [7]"], Success).
Proof. exact pings_moved. Qed.
Print Assumptions C74_right_player_refuted.

(** ** C75 *)

Theorem C75_demo : forall B ho show2 data l e, bitter_ok B -> hash_order_ok ho -> lenZ data < 2 ^ 31 ->
  (demo_main B ho show2 data = (l, e) <-> demo_run show2 (parse_with B ho CrcOnError NetAlways data) l e).
Proof. intros B ho show2 data l e HB Hho. exact (demo_exact B HB ho Hho show2 data l e). Qed.
Print Assumptions C75_demo.

Example C75_ex : demo_main std_bitter key_order (fun _ => lit "1.00") play_sample =
  ([lit "Total demolitions: 3"; lit "t=1.00s  ann  demolished  bob"; lit "t=1.00s  <environment>  demolished  bob";
    lit "t=1.00s  ann  demolished  <unknown 6>"], Success).
Proof. vm_compute. reflexivity. Qed.

(** ** C76 *)

Theorem C76_counted : forall B ho so show_f32 debug_attribute args rs, bitter_ok B -> hash_order_ok ho -> text_order_ok so ->
  Forall2 (parses B ho) args rs -> lenZ args < 2 ^ 31 -> lenZ (all_labels rs) < 2 ^ 64 ->
  exists last, counted (lenZ args) (all_labels rs) last /\
    counter_main B ho so show_f32 debug_attribute args = (parsed_lines (map arg_name args) ++ last, Success).
Proof.
  intros B ho so show_f32 debug_attribute args rs HB Hho Hso.
  exact (counter_all B ho so Hso show_f32 debug_attribute args rs).
Qed.
Print Assumptions C76_counted.

Example C76_ex : counter_main std_bitter key_order as_is no_f32 no_attribute
    [mkArg (lit "a") play_sample None; mkArg (lit "b") solo_sample None] =
  ([lit "Parsed: a"; lit "Parsed: b"; lit "Parsed 2 files"; lit "NumFrames:int: 2"; lit "PlayerStats:Name:int: 2";
    lit "PlayerStats:Name:name: 2"; lit "PlayerStats:Name:str: 2"; lit "PlayerStats:Score:int: 2";
    lit "PlayerStats:array: 2"; lit "PlayerStats:int: 2"], Success).
Proof. vm_compute. reflexivity. Qed.

(** ** C77 *)

Theorem C77_blocked : forall B ho so show_f32 debug_attribute before rs a e after,
  bitter_ok B -> hash_order_ok ho -> text_order_ok so ->
  Forall2 (parses B ho) before rs -> arg_error a = None ->
  parse_with B ho CrcNever NetNever (arg_data a) = Err e -> ~ short e ->
  lenZ before < 2 ^ 31 -> lenZ (all_labels rs) < 2 ^ 64 -> lenZ (concat (map arg_data (a :: after))) < 2 ^ 31 ->
  exists last, counted (lenZ before) (all_labels rs) last /\
    counter_main B ho so show_f32 debug_attribute (before ++ a :: after) =
      (parsed_lines (map arg_name before) ++
       map (blocked_line (display_parse_error show_f32 debug_attribute e)) (a :: after) ++ last, Success).
Proof.
  intros B ho so show_f32 debug_attribute before rs a e after HB Hho Hso.
  exact (counter_blocked B HB ho Hho so Hso show_f32 debug_attribute before rs a e after).
Qed.
Print Assumptions C77_blocked.

(** "every argument that can be read and parsed is counted" *)
Theorem C77_all_counted_refuted : exists x s r,
  parses std_bitter key_order s r /\
  counter_main std_bitter key_order as_is no_f32 no_attribute [s] =
    ([lit "Parsed: s"; lit "Parsed 1 files"; lit "NumFrames:int: 1"; lit "PlayerStats:Name:int: 1";
      lit "PlayerStats:Name:name: 1"; lit "PlayerStats:Name:str: 1"; lit "PlayerStats:Score:int: 1";
      lit "PlayerStats:array: 1"; lit "PlayerStats:int: 1"], Success) /\
  counter_main std_bitter key_order as_is no_f32 no_attribute [x; s] =
    ([lit "unable to parse file x: Could not decode replay header properties at offset (86): Did not expect a property of: MapProperty";
      lit "unable to parse file s: Could not decode replay header properties at offset (86): Did not expect a property of: MapProperty";
      lit "Parsed 0 files"], Success).
Proof. exact not_counted. Qed.
Print Assumptions C77_all_counted_refuted.

(** "an argument that cannot be parsed is not counted" *)
Theorem C77_only_counted_refuted : exists a b e e',
  arg_error a = None /\ arg_error b = None /\
  parse_with std_bitter key_order CrcNever NetNever (arg_data a) = Err e /\
  parse_with std_bitter key_order CrcNever NetNever (arg_data b) = Err e' /\
  exists l, counter_main std_bitter key_order as_is no_f32 no_attribute [a; b] =
    (lit "unable to parse file a: Could not decode replay header data at offset (8): Insufficient data. Expected 528 bytes, but only 292 left" ::
     lit "Parsed: b" :: lit "Parsed 1 files" :: l, Success) /\ l <> [].
Proof. exact counted_wrongly. Qed.
Print Assumptions C77_only_counted_refuted.
