(** * Computing the parts of a concrete file (for examples and witnesses) *)

From Coq Require Import ZArith List Bool Lia ZifyBool.
From Verif Require Import Base Errors Core Header Body SpecFile CoreLogic FormatProofs FileFacts.
Open Scope Z_scope.

Definition run_section {A} (m : parser A) (data : list byte) : option (section A * list byte) :=
  match raw_i32 (core_new data) with
  | (Ok size, s1) =>
      match take_u32 "crc" (core_new (c_data s1)) with
      | (Ok crc, s2) =>
          if (0 <=? size) && (size <=? lenZ (c_data s2)) then
            match m (core_new (c_data s2)) with
            | (Ok v, s3) => Some (mkSection size crc (firstn (Z.to_nat size) (c_data s2)) v, c_data s3)
            | _ => None
            end
          else None
      | _ => None
      end
  | _ => None
  end.

Lemma run_section_ok {A} (m : parser A) P data v rest : (forall K, bacc K m P) -> lenZ data < 2 ^ 31 ->
  run_section m data = Some (v, rest) -> f_section P data v rest.
Proof.
  intros HP L. unfold run_section.
  destruct (raw_i32 (core_new data)) as [[size|?|?] s1] eqn:E1; try discriminate.
  assert (F1 : f_i32 data size (c_data s1)) by (apply (bacc_parses raw_i32 f_i32 data bacc_raw_i32 L); eauto).
  assert (L1 : lenZ (c_data s1) < 2 ^ 31).
  { destruct F1 as (l & (Hl & ->) & _). revert L. unfold lenZ. rewrite app_length. lia. }
  destruct (take_u32 "crc" (core_new (c_data s1))) as [[crc|?|?] s2] eqn:E2; try discriminate.
  assert (F2 : f_u32 (c_data s1) crc (c_data s2))
    by (apply (bacc_parses _ f_u32 _ (fun K => bacc_take_u32 K "crc") L1); eauto).
  assert (L2 : lenZ (c_data s2) < 2 ^ 31).
  { destruct F2 as (l & (Hl & Heq) & _). revert L1. rewrite Heq. unfold lenZ. rewrite app_length. lia. }
  destruct ((0 <=? size) && (size <=? lenZ (c_data s2))) eqn:R; [|discriminate]. unfold lenZ in R.
  destruct (m (core_new (c_data s2))) as [[x|?|?] s3] eqn:E3; try discriminate.
  assert (F3 : P (c_data s2) x (c_data s3)) by (apply (bacc_parses m P _ HP L2); eauto).
  intros H. assert (Ev : v = mkSection size crc (firstn (Z.to_nat size) (c_data s2)) x) by congruence.
  assert (Er : rest = c_data s3) by congruence. subst v rest.
  exists size, crc, (firstn (Z.to_nat size) (c_data s2)), (c_data s2), x. split; [|auto].
  exists (c_data s1). split; [exact F1|]. split; [exact F2|]. split; [lia|]. split; [rewrite firstn_length; lia|].
  exists (skipn (Z.to_nat size) (c_data s2)). now rewrite firstn_skipn.
Qed.

Definition run_file (data : list byte) : option (section header * section body * list byte) :=
  match run_section parse_header data with
  | Some (h, m) => match run_section parse_body m with Some (b, rest) => Some (h, b, rest) | None => None end
  | None => None
  end.

Lemma run_file_ok data h b rest : lenZ data < 2 ^ 31 -> run_file data = Some (h, b, rest) -> f_file data (h, b) rest.
Proof.
  intros L. unfold run_file. destruct (run_section parse_header data) as [[h' m]|] eqn:E1; [|discriminate].
  destruct (run_section parse_body m) as [[b' r']|] eqn:E2; [|discriminate].
  intros H. assert (h' = h) as -> by congruence. assert (b' = b) as -> by congruence. assert (r' = rest) as -> by congruence.
  apply (run_section_ok _ f_header) in E1; [|exact bacc_header|exact L].
  assert (Lm : lenZ m < 2 ^ 31).
  { pose proof E1 as (size & crc & cov & m2 & x & (m1 & F1 & F2 & _) & F3 & _).
    assert (Z.of_nat (length m2) <= Z.of_nat (length data)).
    { destruct F1 as (l & (Hl & ->) & _), F2 as (l' & (Hl' & ->) & _). rewrite !app_length. lia. }
    unfold lenZ in *. assert (Hs : (length m <= length m2)%nat).
    { apply (bacc_shrinks (length m2) _ _ _ _ _ (bacc_header _)) in F3; lia. }
    lia. }
  apply (run_section_ok _ f_body) in E2; [|exact bacc_body|exact Lm].
  exists h, m. split; [exact E1|]. exists b, rest. split; [exact E2|]. split; reflexivity.
Qed.
