(** * Three wrong bits in files *)

From Coq Require Import NArith ZArith List Lia Bool.
From Verif Require Import Base F32 Errors Core Header Body Crc Parser SpecText SpecFile SpecReplay SpecCrc SpecWrite
  CrcProofs CrcOrder CrcThree FileFacts WriteProofs.
Open Scope Z_scope.

Section Files.
Context (B : BitReader.bitter) (ho : ObjectIndex.hash_order).
Notation parse := (parse_with B ho).

Lemma three_header data n r pre cv cv' rest span : lenZ data < 2 ^ 31 ->
  parse CrcAlways n data = Ok r ->
  data = pre ++ cv ++ rest -> length pre = 8%nat -> Z.of_nat (length cv) = r_header_size r ->
  three_flips span cv cv' -> (span < 91639)%N ->
  parse CrcAlways n (pre ++ cv' ++ rest) = Err (ECrcMismatch (r_header_crc r) (Z.of_N (crc32_unreal cv'))).
Proof.
  intros L H E Lp Ls T S. eapply swap_header; eauto; [eapply three_flips_length; eauto|].
  apply three_flips_detected in T; [|exact S]. congruence.
Qed.

Lemma three_content data n r pre hb h pre2 cv cv' rest span : lenZ data < 2 ^ 31 ->
  parse CrcAlways n data = Ok r ->
  data = pre ++ hb ++ pre2 ++ cv ++ rest -> length pre = 8%nat ->
  f_header hb h [] -> r_header_size r <= Z.of_nat (length hb) -> length pre2 = 8%nat ->
  Z.of_nat (length cv) = r_content_size r ->
  three_flips span cv cv' -> (span < 91639)%N ->
  parse CrcAlways n (pre ++ hb ++ pre2 ++ cv' ++ rest) = Err (ECrcMismatch (r_content_crc r) (Z.of_N (crc32_unreal cv'))).
Proof.
  intros L H E Lp Fh Lh Lp2 Ls T S. eapply swap_body; eauto; [eapply three_flips_length; eauto|].
  apply three_flips_detected in T; [|exact S]. congruence.
Qed.
End Files.

(** ** Two files with the same checksums *)

Definition plain_header : header := mkHeader 0 1 None [] [].
Definition still : key_frame := mkKeyFrame 0 0 0.
Definition frames_body (ks : list key_frame) : body := mkBody [] ks [] [] [] [] [] [] [] [].
Definition good_frames : list key_frame := [still] ++ repeat still 519 ++ [still] ++ repeat still 433 ++ [still].
Definition bad_frames : list key_frame :=
  [mkKeyFrame 0x80 0 0] ++ repeat still 519 ++ [mkKeyFrame 0 0x4000 0] ++ repeat still 433 ++ [mkKeyFrame 0 0x10000 0].

Lemma plain_ok : header_ok plain_header.
Proof.
  split; [unfold i32_ok; cbn; lia|]. split; [unfold i32_ok; cbn; lia|]. split; [cbn; lia|].
  split; [exists []; split; [constructor|unfold count; cbn; lia]|constructor].
Qed.
Lemma frames_ok ks : count ks <= 25000 ->
  Forall (fun k => u32_ok (kf_time k) /\ i32_ok (kf_frame k) /\ i32_ok (kf_position k)) ks -> body_ok (frames_body ks).
Proof.
  intros L F. assert (N : forall A (P : A -> Prop), list_ok P []) by (intros A P; split; [unfold count; cbn; lia|constructor]).
  unfold body_ok, frames_body.
  cbn [b_levels b_keyframes b_network_data b_debug_info b_tick_marks b_packages b_objects b_names b_class_indices b_net_cache].
  repeat split; auto; unfold count; cbn; lia.
Qed.
Lemma Forall_repeat {A} (P : A -> Prop) x n : P x -> Forall P (repeat x n).
Proof. intros H. induction n; cbn [repeat]; constructor; auto. Qed.
Lemma good_ok : body_ok (frames_body good_frames).
Proof.
  apply frames_ok; [apply Z.leb_le; vm_compute; reflexivity|]. unfold good_frames.
  repeat (apply Forall_app; split); try (apply Forall_repeat); try (apply Forall_cons; [|apply Forall_nil]);
    unfold u32_ok, i32_ok; cbn; lia.
Qed.
Lemma bad_ok : body_ok (frames_body bad_frames).
Proof.
  apply frames_ok; [apply Z.leb_le; vm_compute; reflexivity|]. unfold bad_frames.
  repeat (apply Forall_app; split); try (apply Forall_repeat); try (apply Forall_cons; [|apply Forall_nil]);
    unfold u32_ok, i32_ok; cbn; lia.
Qed.

Lemma same_checksum : crc32_unreal (write_body (frames_body good_frames)) = crc32_unreal (write_body (frames_body bad_frames)).
Proof. vm_compute. reflexivity. Qed.

Lemma data_bits_app l1 l2 : data_bits (l1 ++ l2) = data_bits l1 ++ data_bits l2.
Proof. apply flat_map_app. Qed.

(** the files up to the first key frame, and from the last one on *)
Definition up_to : list byte :=
  write_section (write_header plain_header) ++ write_int 4 (count (write_body (frames_body good_frames))) ++
  write_int 4 (Z.of_N (crc32_unreal (write_body (frames_body good_frames)))) ++ write_int 4 0 ++ write_int 4 955.
Lemma file_shape ks : count ks = 955 -> count (write_body (frames_body ks)) = count (write_body (frames_body good_frames)) ->
  crc32_unreal (write_body (frames_body ks)) = crc32_unreal (write_body (frames_body good_frames)) ->
  write_file plain_header (frames_body ks) = up_to ++ flat_map write_keyframe ks ++ repeat x00 32.
Proof.
  intros E1 E2 E3. unfold write_file, write_section at 2. rewrite E2, E3. unfold up_to. rewrite <- !app_assoc. do 3 f_equal.
  unfold write_body, frames_body.
  cbn [b_levels b_keyframes b_network_data b_debug_info b_tick_marks b_packages b_objects b_names b_class_indices b_net_cache].
  unfold write_list at 1 2. rewrite E1. cbn [flat_map]. rewrite app_nil_r, <- !app_assoc. reflexivity.
Qed.

Lemma flat_repeat n : flat_map write_keyframe (repeat still n) = repeat x00 (12 * n).
Proof.
  induction n as [|n IH]; [reflexivity|]. cbn [repeat flat_map]. rewrite IH. replace (12 * S n)%nat with (12 + 12 * n)%nat by lia.
  rewrite repeat_app. reflexivity.
Qed.
Lemma bits_zero n : length (data_bits (repeat x00 n)) = (8 * n)%nat.
Proof. rewrite data_bits_length. now rewrite repeat_length. Qed.

Lemma three_refuted : exists data data' r r', three_flips 91639 data data' /\
  (forall B ho c, parse_with B ho c NetNever data = Ok r) /\
  (forall B ho c, parse_with B ho c NetNever data' = Ok r') /\
  r_keyframes r <> r_keyframes r' /\ r_content_crc r = r_content_crc r' /\ r_header_crc r = r_header_crc r'.
Proof.
  exists (write_file plain_header (frames_body good_frames)), (write_file plain_header (frames_body bad_frames)).
  eexists _, _. split; [|split; [|split]].
  - rewrite (file_shape good_frames), (file_shape bad_frames) by (vm_compute; reflexivity).
    assert (G : flat_map write_keyframe good_frames =
      [x00] ++ (repeat x00 11 ++ repeat x00 (12 * 519) ++ repeat x00 5) ++ [x00] ++ (repeat x00 6 ++ repeat x00 (12 * 433) ++ repeat x00 6) ++ [x00] ++ repeat x00 5).
    { unfold good_frames. rewrite !flat_map_app, !flat_repeat. rewrite <- !app_assoc. reflexivity. }
    assert (H : flat_map write_keyframe bad_frames =
      [x80] ++ (repeat x00 11 ++ repeat x00 (12 * 519) ++ repeat x00 5) ++ [x40] ++ (repeat x00 6 ++ repeat x00 (12 * 433) ++ repeat x00 6) ++ [x01] ++ repeat x00 5).
    { unfold bad_frames. rewrite !flat_map_app, !flat_repeat. rewrite <- !app_assoc. reflexivity. }
    rewrite G, H. clear G H. set (A := up_to). set (M := repeat x00 11 ++ _ ++ _). set (N := repeat x00 6 ++ _ ++ _).
    exists (data_bits A), false, (repeat false 7 ++ data_bits M ++ [false]), false, (repeat false 6 ++ data_bits N ++ repeat false 7), false,
      (data_bits (repeat x00 5) ++ data_bits (repeat x00 32)).
    split; [|split].
    + rewrite !data_bits_app. rewrite <- !app_assoc. reflexivity.
    + rewrite !data_bits_app. rewrite <- !app_assoc. reflexivity.
    + rewrite !app_length. unfold M, N. rewrite !data_bits_app, !app_length, !bits_zero. reflexivity.
  - intros B ho c. apply read_back; [exact plain_ok|exact good_ok|]. apply Z.ltb_lt. vm_compute. reflexivity.
  - intros B ho c. apply read_back; [exact plain_ok|exact bad_ok|]. apply Z.ltb_lt. vm_compute. reflexivity.
  - split; [discriminate|]. split; [|reflexivity]. cbn [r_content_crc replay_of sec_crc section_of]. now rewrite same_checksum.
Qed.
