(** * Small files nested arbitrarily deep, and files whose checksums cover nothing *)

From Coq Require Import ZArith List Bool Lia ZifyBool ZifyNat.
From Verif Require Import Base Text F32 Crc Errors Core Header Body BitReader ObjectIndex Parser
  SpecText SpecFile SpecReplay CoreLogic FormatProofs FileProofs FileFacts.
Open Scope Z_scope.

(** the key "None" *)
Definition none_key : bytes := [x05; x00; x00; x00] ++ lit "None" ++ [x00].
(** an entry with empty key, the kind of structs, a size, the empty name *)
Definition open_struct : bytes :=
  [x00; x00; x00; x00] ++ ([x0f; x00; x00; x00] ++ lit "StructProperty" ++ [x00]) ++
  repeat x00 8 ++ [x00; x00; x00; x00].

Fixpoint deep (n : nat) : bytes :=
  match n with
  | O => none_key
  | S n' => open_struct ++ deep n' ++ none_key
  end.
Fixpoint deep_value (n : nat) : props :=
  match n with
  | O => []
  | S n' => [([], HStruct [] (deep_value n'))]
  end.

Lemma deep_length n : length (deep n) = (44 * n + 9)%nat.
Proof.
  induction n as [|n IH]; [reflexivity|]. cbn [deep].
  rewrite !app_length, IH. change (length none_key) with 9%nat. change (length open_struct) with 35%nat. lia.
Qed.

Lemma deep_nested n : nested n (deep_value n).
Proof. induction n; [constructor|]. cbn [deep_value]. eapply nested_S; [left; reflexivity|auto]. Qed.

Lemma f_str_empty rest : f_str ([x00; x00; x00; x00] ++ rest) [] rest.
Proof.
  exists 0, rest. split.
  - exists [x00; x00; x00; x00]. split; [split; reflexivity|]. cbn. unfold is. cbn. lia.
  - exists []. split; [split; reflexivity|]. split; [reflexivity|]. exists []. constructor.
Qed.

Lemma f_str_ascii count s rest : length count = 4%nat -> (length s < 1000)%nat ->
  little_endian (Z.of_nat (length s) + 1) count -> valid_utf8 s ->
  f_str ((count ++ s ++ [x00]) ++ rest) s rest.
Proof.
  intros C L E V. exists (Z.of_nat (length s) + 1), ((s ++ [x00]) ++ rest). split.
  - exists count. split; [split; auto; now rewrite <- !app_assoc|]. split; [lia|auto].
  - replace (_ <? 0) with false by lia. exists (s ++ [x00]). split.
    + split; [rewrite app_length; cbn [length]; lia|reflexivity].
    + rewrite removelast_snoc. auto.
Qed.

Lemma lit_utf8 s : Text.utf8_validate 0 s = None -> valid_utf8 s.
Proof. apply TextProofs.validate_spec. Qed.

Lemma none_str rest : f_str (none_key ++ rest) (lit "None") rest.
Proof.
  unfold none_key. apply f_str_ascii; [reflexivity|cbn; lia| |apply lit_utf8; reflexivity].
  cbn. unfold is. cbn. lia.
Qed.

Lemma deep_props n : forall rest, f_props false (deep n ++ rest) (deep_value n) rest.
Proof.
  induction n as [|n IH]; intros rest; cbn [deep deep_value].
  - apply fp_end, none_str.
  - unfold open_struct. rewrite <- !app_assoc.
    eapply fp_entry with (ignored := repeat x00 8).
    + apply f_str_empty.
    + discriminate.
    + rewrite !app_assoc. rewrite <- (app_assoc _ (lit "StructProperty")).
      rewrite <- 4!app_assoc.
      apply (f_str_ascii [x0f; x00; x00; x00] (lit "StructProperty"));
        [reflexivity|cbn; lia| |apply lit_utf8; reflexivity]. cbn. unfold is. cbn. lia.
    + split; [reflexivity|reflexivity].
    + eapply fv_struct; [apply f_str_empty|]. apply IH.
    + apply fp_end, none_str.
Qed.

(** versions 1.0, empty game type *)
Definition deep_header (n : nat) : bytes :=
  [x01; x00; x00; x00] ++ repeat x00 8 ++ deep n.

Lemma f_i32_le x l rest : length l = 4%nat -> - 2 ^ 31 <= x < 2 ^ 31 -> little_endian x l ->
  f_i32 (l ++ rest) x rest.
Proof. intros L R E. exists l. split; [split; auto|]. auto. Qed.

Lemma deep_header_parses n rest :
  f_header (deep_header n ++ rest) (mkHeader 1 0 None [] (deep_value n)) rest.
Proof.
  unfold deep_header. rewrite <- !app_assoc.
  exists 1. eexists. split; [apply f_i32_le; [reflexivity|lia|cbn; unfold is; cbn; lia]|].
  change (repeat x00 8) with ([x00; x00; x00; x00] ++ [x00; x00; x00; x00]). rewrite <- app_assoc.
  exists 0. eexists. split; [apply f_i32_le; [reflexivity|lia|cbn; unfold is; cbn; lia]|].
  exists None. eexists. split; [split; reflexivity|].
  exists []. eexists. split.
  { exists 0. eexists. split; [apply f_i32_le; [reflexivity|lia|cbn; unfold is; cbn; lia]|].
    cbn. exists []. split; [split; reflexivity|]. exists []. split; constructor. }
  exists (deep_value n). eexists. split; [apply deep_props|]. split; reflexivity.
Qed.

Definition empty_body : body := mkBody [] [] [] [] [] [] [] [] [] [].

Lemma zero_body : f_body (repeat x00 40) empty_body [].
Proof.
  apply (bacc_parses parse_body f_body _ bacc_body); [reflexivity|].
  eexists. split; [vm_compute; reflexivity|reflexivity].
Qed.

Definition deep_file (n : nat) : bytes :=
  repeat x00 8 ++ deep_header n ++ repeat x00 8 ++ repeat x00 40.

Lemma deep_file_length n : length (deep_file n) = (44 * n + 77)%nat.
Proof.
  unfold deep_file, deep_header. rewrite !app_length, deep_length, !repeat_length. cbn [length]. lia.
Qed.

Lemma declared_zero rest : declared (repeat x00 8 ++ rest) 0 0 [] rest.
Proof.
  change (repeat x00 8) with ([x00; x00; x00; x00] ++ [x00; x00; x00; x00]). rewrite <- app_assoc.
  eexists. split; [apply f_i32_le; [reflexivity|lia|cbn; unfold is; cbn; lia]|]. split.
  - exists [x00; x00; x00; x00]. split; [split; reflexivity|]. cbn. unfold is; cbn; lia.
  - split; [lia|]. split; [reflexivity|]. now exists rest.
Qed.

Lemma deep_file_parses B ho n : 44 * Z.of_nat n + 77 < 2 ^ 31 ->
  exists r, parse_with B ho CrcNever NetNever (deep_file n) = Ok r /\ nested n (r_properties r).
Proof.
  intros L.
  exists (replay_of (mkSection 0 0 [] (mkHeader 1 0 None [] (deep_value n))) (mkSection 0 0 [] empty_body) None).
  split; [|apply deep_nested].
  apply never_never; [unfold lenZ; rewrite deep_file_length; lia|].
  eexists _, _, []. split; [|reflexivity].
  eexists. eexists. split.
  - eexists _, _, _, _, _. split; [apply declared_zero|]. split; [apply deep_header_parses|reflexivity].
  - eexists. eexists. split; [|split; reflexivity].
    eexists _, _, _, _, _. split; [apply declared_zero|]. split; [apply zero_body|reflexivity].
Qed.

Lemma deep_exists B ho n : 44 * Z.of_nat n + 77 < 2 ^ 31 ->
  exists data r, length data = (44 * n + 77)%nat /\
    parse_with B ho CrcNever NetNever data = Ok r /\ nested n (r_properties r).
Proof.
  intros L. exists (deep_file n). destruct (deep_file_parses B ho n L) as [r H]. exists r.
  split; [apply deep_file_length|exact H].
Qed.
