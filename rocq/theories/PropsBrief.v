(** * Properties: the length of the messages (C102) and of replays shown by Debug (C103) *)

From Coq Require Import ZArith List Bool Lia.
From Verif Require Import Base F32 Text NetTypes Errors Core Header Body BitReader ObjectIndex Network Parser Json Debug DebugNet
  FloatDisplay Display SpecFile SpecNet SpecReplay SpecWrite SpecMessage BitLemmas MessageLength DebugReplay DebugReplayLength DebugLength Samples.
Open Scope Z_scope.

(** ** C102 *)

(** The message of every error, with the floats and the attributes as they are shown, is at most
    proportional to the file. *)
Theorem C102_message : forall B ho shown c n data e, bitter_ok B -> hash_order_ok ho -> lenZ data < 2 ^ 31 ->
  parse_with B ho c n data = Err e ->
  lenZ (display_parse_error display_f32 (fun a => debug_text shown (dbg_attribute a)) e) <= 512 * lenZ data + 4000.
Proof. exact (fun B ho shown c n data e HB Hho L E => proj2 (result_message shown B HB ho Hho c n data e L E)). Qed.
Print Assumptions C102_message.

(** Outside the frames it is hardly longer than the file. *)
Theorem C102_outside : forall B ho shown c n data e, bitter_ok B -> hash_order_ok ho -> lenZ data < 2 ^ 31 ->
  parse_with B ho c n data = Err e -> outside e ->
  lenZ (display_parse_error display_f32 (fun a => debug_text shown (dbg_attribute a)) e) <= lenZ data + 400.
Proof. exact (fun B ho shown c n data e HB Hho L E => proj1 (result_message shown B HB ho Hho c n data e L E)). Qed.
Print Assumptions C102_outside.

(** A name of [n] control characters is decoded before the error: each is shown as "\u{1}". *)
Definition control_file (n : nat) : bytes :=
  write_file (mkHeader 868 12 None [] [(lit "NumFrames", HInt 1); (lit "MaxChannels", HInt 1)])
    (mkBody [] [] [] [] []
       [lit "Core.Object"; lit "TAGame.PRI_TA"; lit "TAGame.Default__PRI_TA"; lit "Engine.PlayerReplicationInfo:PlayerName"] []
       [] [mkNetCache 1 0 0 [mkCacheProp 3 0]]
       ([x00; x00; x80; x3f; x00; x00; x80; x3f; x27; x00; x00; x00; xb0] ++
        write_int 4 (Z.of_nat n + 1) ++ repeat x01 n ++ [x00] ++ [xff; xff; xff; x7f; x00; x00])).
Definition messages (data : bytes) : option Z :=
  match parse_with std_bitter key_order CrcAlways NetAlways data with
  | Err e => Some (lenZ (display_parse_error display_f32 (fun a => debug_text (fun _ => true) (dbg_attribute a)) e))
  | _ => None
  end.
Definition fails_outside (data : bytes) : Prop :=
  match parse_with std_bitter key_order CrcAlways NetAlways data with Err e => outside e | _ => False end.
Example C102_ex : lenZ (control_file 100) = 416 /\ messages (control_file 100) = Some 1154 /\
  ~ fails_outside (control_file 100).
Proof. vm_compute. auto. Qed.

(** a property of an unknown kind with a name of [n] letters *)
Definition kind_file (n : nat) : bytes :=
  let l := write_int 4 868 ++ write_int 4 12 ++ write_text [] ++ write_str (lit "a") ++ write_str (repeat "k"%byte n) ++ write_int 8 0 in
  write_section l ++ write_section [].
Example C102_ex2 : lenZ (kind_file 100) = 147 /\ messages (kind_file 100) = Some 189 /\ fails_outside (kind_file 100).
Proof. vm_compute. auto. Qed.

(** ** C103 *)

Theorem C103_replay : forall B ho shown c n data r, bitter_ok B -> hash_order_ok ho -> lenZ data < 2 ^ 31 ->
  parse_with B ho c n data = Ok r -> lenZ (debug_text shown (dbg_replay r)) <= 1024 * lenZ data.
Proof.
  exact (fun B ho shown c n data r HB Hho L E => Z.le_trans _ _ _ (debug_len shown (dbg_replay r)) (debug_weight B HB ho Hho c n data r L E)).
Qed.
Print Assumptions C103_replay.

(** One frame with [4 * n + 1] updates of two bits each: 16 bytes of the file are 64 updates. *)
Definition shown_length (data : bytes) : option Z :=
  match parse_with std_bitter key_order CrcAlways NetAlways data with
  | Ok r => Some (lenZ (debug_text (fun _ => true) (dbg_replay r)))
  | _ => None
  end.
Definition switches_file (n : nat) : bytes :=
  write_file (mkHeader 868 12 None [] [(lit "NumFrames", HInt 1); (lit "MaxChannels", HInt 1)])
    (mkBody [] [] [] [] []
       [lit "Core.Object"; lit "TAGame.CameraSettingsActor_TA"; lit "TAGame.Default__CameraSettingsActor_TA";
        lit "TAGame.CameraSettingsActor_TA:bUsingSwivel"] []
       [] [mkNetCache 1 0 0 [mkCacheProp 3 0]]
       ([x00; x00; x80; x3f; x00; x00; x80; x3f; x27; x00; x00; x00; xb0] ++ repeat xff n ++ [x01])).
Example C103_ex : lenZ (switches_file 16) = 357 /\ shown_length (switches_file 16) = Some 8491.
Proof. vm_compute. auto. Qed.
