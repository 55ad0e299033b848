(** * Properties: the errors of a file, and its result on every input (C69, C70) *)

From Coq Require Import ZArith List Bool Lia.
From Verif Require Import Base F32 NetTypes Errors Core Header Body BitReader ObjectIndex Network Parser
  SpecText SpecCrc SpecFile SpecReplay BitLemmas SpecFrames SpecErrors SpecFileErrors Utf8Errors FileErrorProofs
  SpecResult ResultProofs Samples.
Open Scope Z_scope.

(** ** C69 *)

Theorem C69_error : forall B ho c n data e, lenZ data < 2 ^ 31 -> file_fails c data e ->
  parse_with B ho c n data = Err e.
Proof. exact error_exact. Qed.
Print Assumptions C69_error.

(** a file is faulty or has the format, never both, and it has one error *)
Theorem C69_faulty_or_file : forall c data, lenZ data < 2 ^ 31 ->
  ((exists e, file_fails c data e) /\ ~ exists h b, file_is c data h b) \/
  ((forall e, ~ file_fails c data e) /\ exists h b, file_is c data h b).
Proof. exact faulty_or_file. Qed.
Print Assumptions C69_faulty_or_file.

Theorem C69_unique : forall c data e e', lenZ data < 2 ^ 31 -> file_fails c data e -> file_fails c data e' -> e = e'.
Proof. exact (error_unique std_bitter key_order). Qed.
Print Assumptions C69_unique.

(** the first error of bytes that are not UTF-8 *)
Theorem C69_utf8 : forall s e, utf8_broken s e <-> Text.utf8_validate 0 s = Some e.
Proof. exact broken_spec. Qed.
Print Assumptions C69_utf8.

(** the size is negative *)
Example C69_ex_size : file_fails CrcOnError [xff; xff; xff; xff; x00; x00; x00; x00; x05; x06; x07]
  (EParseError "header data" 8 (EInsufficientData (-1) 3)).
Proof.
  apply (xf_header_declared CrcOnError [xff; xff; xff; xff; x00; x00; x00; x00; x05; x06; x07]
    (["header data"%string], Cut (-1)) [x05; x06; x07]).
  right. exists (-1), [x00; x00; x00; x00; x05; x06; x07]. split.
  { exists [xff; xff; xff; xff]. split; [split; reflexivity|]. repeat split; lia. }
  right. exists 0, [x05; x06; x07]. split.
  { exists [x00; x00; x00; x00]. split; [split; reflexivity|]. repeat split; lia. }
  exists [], (Cut (-1)). split; [|reflexivity]. split; [lia|split; reflexivity].
Qed.

(** a property of an unknown kind *)
Definition bad_kind : bytes :=
  [x00; x00; x00; x00] ++ [x00; x00; x00; x00] ++ [x01; x00; x00; x00] ++ [x01; x00; x00; x00] ++
  [x00; x00; x00; x00] ++ [x02; x00; x00; x00; x41; x00] ++ [x02; x00; x00; x00; x42; x00] ++
  [x00; x00; x00; x00; x00; x00; x00; x00] ++ [x09].
Ltac number l := exists l; split; [split; reflexivity|]; repeat split; lia.
Example C69_ex_kind : file_fails CrcNever bad_kind
  (EParseError "header properties" 40 (EUnexpectedProperty [x42])).
Proof.
  eapply xf_header with (size := 0) (crc := 0) (covered := []).
  { eexists. split; [number [x00; x00; x00; x00]|]. split; [number [x00; x00; x00; x00]|]. split; [lia|].
    split; [reflexivity|]. eexists. reflexivity. }
  right. left. exists (["header properties"%string], UnknownKind [x42]), [x09].
  split; [|split; [now left|reflexivity]].
  right. exists 1. eexists. split; [number [x01; x00; x00; x00]|].
  right. exists 1. eexists. split; [number [x01; x00; x00; x00]|].
  right. exists None. eexists. split; [split; reflexivity|].
  right. exists []. eexists. split.
  { exists 0. eexists. split; [number [x00; x00; x00; x00]|]. exists []. split; [split; reflexivity|].
    exists []. split; constructor. }
  exists [], (UnknownKind [x42]). split; [|reflexivity].
  apply xp_value with (kind := [x42]) (m := [x09]).
  - exists [x41]. eexists _, _, (repeat x00 8). split; [|split; [discriminate|split; [|split; reflexivity]]].
    + exists 2. eexists. split; [number [x02; x00; x00; x00]|]. exists [x41; x00]. split; [split; reflexivity|]. split; [reflexivity|].
      exists [65]. apply (utf8_cons 65 [] [x41] []); [apply (utf8_1 x41 65); [reflexivity|lia]|constructor].
    + exists 2. eexists. split; [number [x02; x00; x00; x00]|]. exists [x42; x00]. split; [split; reflexivity|]. split; [reflexivity|].
      exists [66]. apply (utf8_cons 66 [] [x42] []); [apply (utf8_1 x42 66); [reflexivity|lia]|constructor].
  - apply xv_unknown; [|split; reflexivity]. cbn [kinds map In]. intros H. repeat (destruct H as [H|H]; [discriminate H|]). exact H.
Qed.

(** the key of the first property is "A" and the first two bytes of the Euro sign *)
Definition bad_utf8 : bytes :=
  [x00; x00; x00; x00] ++ [x00; x00; x00; x00] ++ [x01; x00; x00; x00] ++ [x01; x00; x00; x00] ++
  [x00; x00; x00; x00] ++ [x04; x00; x00; x00; x41; xe2; x82; x00].
Example C69_ex_utf8 : utf8_broken [x41; xe2; x82] (1, None) /\ utf8_broken [xe2; x82; x41] (0, Some 2) /\
  utf8_broken [xed; xa0; x80] (0, Some 1) /\
  parse_with std_bitter key_order CrcNever NetNever bad_utf8 = Err (EParseError "header properties" 28 (EUtf8Error (1, None))).
Proof.
  rewrite !C69_utf8. repeat split.
Qed.

(** a list of more than 2^31 levels; the checksum of the body is wrong, so that it is reported *)
Definition long_list : bytes := sample_prefix ++ sample_header ++ [x04; x00; x00; x00; x00; x00; x00; x00] ++ [xff; xff; xff; xff].
Example C69_ex_corrupt :
  exists off, parse_with std_bitter key_order CrcOnError NetNever long_list =
    Err (ECorruptReplay "body" (EParseError "levels" off (EListTooLarge (2 ^ 64 - 1)))).
Proof. eexists. vm_compute. reflexivity. Qed.

(** ** C70 *)

Theorem C70_parse : forall B ho c n data, bitter_ok B -> hash_order_ok ho -> lenZ data < 2 ^ 31 ->
  means c n data (parse_with B ho c n data).
Proof. exact (fun B ho c n data HB Hho => parse_means B HB ho Hho c n data). Qed.
Print Assumptions C70_parse.

Theorem C70_unique : forall c n data o o', lenZ data < 2 ^ 31 -> means c n data o -> means c n data o' -> same_result o o'.
Proof. exact means_unique. Qed.
Print Assumptions C70_unique.

Theorem C70_ok : forall B ho c n data r, bitter_ok B -> hash_order_ok ho -> lenZ data < 2 ^ 31 ->
  parse_with B ho c n data = Ok r <-> means c n data (Ok r).
Proof. exact (fun B ho c n data r HB Hho => ok_iff B HB ho Hho c n data r). Qed.
Print Assumptions C70_ok.

(** the three results of one file whose third frame is wrong *)
Example C70_ex : exists h b ctx,
  means CrcAlways NetAlways gone_sample (Err (ENetworkError (NFrameError (FMissingActor 300) ctx))) /\
  means CrcAlways NetIgnoreOnError gone_sample (Ok (replay_of h b None)) /\
  file_is CrcAlways gone_sample h b /\ network_fails (sec_value h) (sec_value b) (NFrameError (FMissingActor 300) ctx) /\
  r_objects (replay_of h b None) <> [].
Proof.
  assert (L : lenZ gone_sample < 2 ^ 31) by reflexivity.
  assert (E : exists ctx, parse_with std_bitter key_order CrcAlways NetAlways gone_sample =
    Err (ENetworkError (NFrameError (FMissingActor 300) ctx))) by (eexists; vm_compute; reflexivity).
  destruct E as (ctx & E).
  pose proof (C70_parse std_bitter key_order CrcAlways NetAlways gone_sample std_bitter_ok
    (fun V m => Permutation.Permutation_refl m) L) as M. rewrite E in M.
  inversion M as [e H| | | |h b x H N1 N2 Ex]; subst.
  { apply (C69_error std_bitter key_order _ NetNever) in H; [|exact L]. exfalso. revert H. vm_compute. discriminate. }
  exists h, b, ctx. split; [exact M|]. split; [eapply means_ignored; eauto; reflexivity|]. split; [exact H|]. split; [exact N2|].
  intros K.
  pose proof (proj2 (C70_ok std_bitter key_order CrcAlways NetNever gone_sample
    (replay_of h b None) std_bitter_ok (fun V m => Permutation.Permutation_refl m) L)
    (means_skipped _ _ _ _ _ H eq_refl)) as Q.
  assert (Z0 : match parse_with std_bitter key_order CrcAlways NetNever gone_sample with Ok r => r_objects r <> [] | _ => False end)
    by (vm_compute; discriminate).
  rewrite Q in Z0. exact (Z0 K).
Qed.
