(** * Properties: the length of the JSON text (C93) *)

From Coq Require Import ZArith List Bool Lia.
From Verif Require Import Base F32 NetTypes Errors Core Header Body BitReader ObjectIndex Network Parser Json JsonReplay JsonText
  SpecFile SpecNet SpecReplay SpecWrite SpecDepth BitLemmas JsonHeight Samples.
Open Scope Z_scope.

(** ** C93 *)

Theorem C93_compact : forall B ho c n data r, bitter_ok B -> hash_order_ok ho -> lenZ data < 2 ^ 31 ->
  parse_with B ho c n data = Ok r ->
  lenZ (json_text f32_text Compact 0 (ser_replay r)) <= 512 * lenZ data.
Proof. exact (fun B ho c n data r HB Hho => compact_length B HB ho Hho c n data r). Qed.
Print Assumptions C93_compact.

(** The indented text: proportional to the file for header properties of bounded depth. *)
Theorem C93_indented : forall B ho c n data r k, bitter_ok B -> hash_order_ok ho -> lenZ data < 2 ^ 31 ->
  parse_with B ho c n data = Ok r -> (forall m, levels m (r_properties r) -> (m <= k)%nat) ->
  lenZ (json_text f32_text Pretty 0 (ser_replay r)) <= (4 * Z.of_nat k + 27) * (512 * lenZ data).
Proof. exact (fun B ho c n data r k HB Hho => pretty_length B HB ho Hho c n data r k). Qed.
Print Assumptions C93_indented.

(** What json.rs prints: at most about the square of the length of the file ... *)
Theorem C93_program : forall B ho show_error data, bitter_ok B -> hash_order_ok ho -> lenZ data < 2 ^ 31 ->
  lenZ (out_text (json_main B ho f32_text show_error data)) <= 512 * lenZ data * (27 + 4 * (lenZ data / 43)).
Proof. exact program_length. Qed.
Print Assumptions C93_program.

(** ... and it grows like the square for files of arrays inside each other. *)
Theorem C93_quadratic : forall B ho show_error k, hash_order_ok ho -> 43 * Z.of_nat k + 77 < 2 ^ 31 ->
  exists data, lenZ data = 43 * Z.of_nat k + 77 /\
    exit_code (json_main B ho f32_text show_error data) = 0 /\
    8 * (Z.of_nat k * Z.of_nat k) <= lenZ (out_text (json_main B ho f32_text show_error data)).
Proof. exact program_quadratic. Qed.
Print Assumptions C93_quadratic.

(** One frame with [4 * n + 1] updates of two bits each: the text is more than 215 times as long as
    the file, the indented text more than 534 times. *)
Definition flags_file (n : nat) : bytes :=
  write_file (mkHeader 868 12 None [] [(lit "NumFrames", HInt 1); (lit "MaxChannels", HInt 1)])
    (mkBody [] [] [] [] []
       [lit "Core.Object"; lit "TAGame.CameraSettingsActor_TA"; lit "TAGame.Default__CameraSettingsActor_TA";
        lit "TAGame.CameraSettingsActor_TA:bUsingSwivel"] []
       [] [mkNetCache 1 0 0 [mkCacheProp 3 0]]
       ([x00; x00; x80; x3f; x00; x00; x80; x3f; x27; x00; x00; x00; xb0] ++ repeat xff n ++ [x01])).
Example C93_ex : exists r, parse_with std_bitter key_order CrcAlways NetAlways (flags_file 1000) = Ok r /\
  lenZ (flags_file 1000) = 1341 /\
  option_map (map (fun f => lenZ (f_updated_actors f))) (r_network_frames r) = Some [4001] /\
  lenZ (json_text f32_text Compact 0 (ser_replay r)) = 288836 /\
  lenZ (json_text f32_text Pretty 0 (ser_replay r)) = 717371 /\
  (forall m, levels m (r_properties r) -> (m <= 0)%nat).
Proof.
  assert (H : match parse_with std_bitter key_order CrcAlways NetAlways (flags_file 1000) with
              | Ok r => lenZ (flags_file 1000) = 1341 /\
                  option_map (map (fun f => lenZ (f_updated_actors f))) (r_network_frames r) = Some [4001] /\
                  lenZ (json_text f32_text Compact 0 (ser_replay r)) = 288836 /\
                  lenZ (json_text f32_text Pretty 0 (ser_replay r)) = 717371 /\
                  r_properties r = [(lit "NumFrames", HInt 1); (lit "MaxChannels", HInt 1)]
              | _ => False end) by (vm_compute; repeat split; reflexivity).
  destruct (parse_with std_bitter key_order CrcAlways NetAlways (flags_file 1000)) as [r| |]; try contradiction.
  destruct H as (H1 & H2 & H3 & H4 & P). exists r. repeat (split; [assumption || reflexivity|]). rewrite P.
  intros m Hm. inversion Hm as [|? ? ? ? ? I|? ? ? ? ? I]; [lia|exfalso..]; repeat (destruct I as [I|I]; [discriminate I|]); destruct I.
Qed.

(** a file of 507 bytes with ten arrays inside each other: the part of the text for the properties
    alone has 1002 characters, 800 of them by [C93_quadratic] *)
Example C93_ex_nested : exists data, lenZ data = 507 /\
  exit_code (json_main std_bitter key_order f32_text (fun _ => []) data) = 0 /\
  lenZ (out_text (json_main std_bitter key_order f32_text (fun _ => []) data)) = 1418.
Proof. exists (DepthProofs.arrays_file 10). vm_compute. repeat split; reflexivity. Qed.
