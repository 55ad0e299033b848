(** * Four to twelve wrong bits in files *)

From Coq Require Import NArith ZArith List Lia Bool.
From Verif Require Import Base F32 Errors Core Header Body Crc Parser SpecText SpecFile SpecReplay SpecCrc SpecWrong SpecWrite
  CrcProofs CrcMany FileFacts WriteProofs ThreeProofs.
Open Scope Z_scope.

Section Files.
Context (B : BitReader.bitter) (ho : ObjectIndex.hash_order).
Notation parse := (parse_with B ho).

Lemma few_header data n r pre cv cv' rest w m span : lenZ data < 2 ^ 31 ->
  parse CrcAlways n data = Ok r ->
  data = pre ++ cv ++ rest -> length pre = 8%nat -> Z.of_nat (length cv) = r_header_size r ->
  In (w, m) least_spans -> wrong_bits w span cv cv' -> (span < m)%N ->
  parse CrcAlways n (pre ++ cv' ++ rest) = Err (ECrcMismatch (r_header_crc r) (Z.of_N (crc32_unreal cv'))).
Proof.
  intros L H E Lp Ls T W S. eapply swap_header; eauto; [eapply wrong_length; eauto|].
  pose proof (few_detected _ _ _ _ _ T W S). congruence.
Qed.

Lemma few_content data n r pre hb h pre2 cv cv' rest w m span : lenZ data < 2 ^ 31 ->
  parse CrcAlways n data = Ok r ->
  data = pre ++ hb ++ pre2 ++ cv ++ rest -> length pre = 8%nat ->
  f_header hb h [] -> r_header_size r <= Z.of_nat (length hb) -> length pre2 = 8%nat ->
  Z.of_nat (length cv) = r_content_size r ->
  In (w, m) least_spans -> wrong_bits w span cv cv' -> (span < m)%N ->
  parse CrcAlways n (pre ++ hb ++ pre2 ++ cv' ++ rest) = Err (ECrcMismatch (r_content_crc r) (Z.of_N (crc32_unreal cv'))).
Proof.
  intros L H E Lp Fh Lh Lp2 Ls T W S. eapply swap_body; eauto; [eapply wrong_length; eauto|].
  pose proof (few_detected _ _ _ _ _ T W S). congruence.
Qed.
End Files.

(** ** Files with the same checksums *)

(** [n] key frames, all zero; and the numbers that have the given bits of them *)
Definition zero_frames (n : nat) : list key_frame := repeat still n.
(** the byte of eight bits *)
Definition set_bits (i : Z) (ps : list Z) : Z :=
  fold_left (fun a p => if (p / 32 =? i) then Z.lor a (2 ^ (8 * (p mod 32 / 8) + (7 - p mod 8))) else a) ps 0.
Definition signed (x : Z) : Z := if x <? 2 ^ 31 then x else x - 2 ^ 32.
Definition wrong_frames (n : nat) (ps : list Z) : list key_frame :=
  map (fun k => let i := 3 * Z.of_nat k in mkKeyFrame (set_bits i ps) (signed (set_bits (i + 1) ps)) (signed (set_bits (i + 2) ps))) (seq 0 n).

Definition frame_okb (k : key_frame) : bool :=
  (0 <=? kf_time k) && (kf_time k <? 2 ^ 32) && (- 2 ^ 31 <=? kf_frame k) && (kf_frame k <? 2 ^ 31) &&
  (- 2 ^ 31 <=? kf_position k) && (kf_position k <? 2 ^ 31).
Lemma frames_okb ks : (count ks <=? 25000) && forallb frame_okb ks = true -> body_ok (frames_body ks).
Proof.
  rewrite andb_true_iff, forallb_forall. intros [L F]. apply frames_ok; [now apply Z.leb_le|]. rewrite Forall_forall.
  intros k K. specialize (F k K). unfold frame_okb in F. rewrite !andb_true_iff, !Z.leb_le, !Z.ltb_lt in F. unfold u32_ok, i32_ok. lia.
Qed.

Definition frame_eqb (k l : key_frame) : bool :=
  (kf_time k =? kf_time l) && (kf_frame k =? kf_frame l) && (kf_position k =? kf_position l).

Definition pair_okb (n : nat) (ps : list Z) (w : nat) (m : N) : bool :=
  let g := zero_frames n in let b := wrong_frames n ps in
  let d := write_file plain_header (frames_body g) in let d' := write_file plain_header (frames_body b) in
  ((count g <=? 25000) && forallb frame_okb g) && ((count b <=? 25000) && forallb frame_okb b) &&
  (lenZ d <? 2 ^ 31) && (lenZ d' <? 2 ^ 31) &&
  (N.eqb (crc32_unreal (write_body (frames_body g))) (crc32_unreal (write_body (frames_body b)))) &&
  (Nat.eqb (length d') (length d)) &&
  (let l := differing 0 (data_bits d) (data_bits d') in Nat.eqb (length l) w && N.eqb (last l 0%N) (hd 0%N l + m)) &&
  negb (frame_eqb (hd still g) (hd still b)).

Lemma pair_undetected n ps w m : pair_okb n ps w m = true -> exists data data' r r', wrong_bits w m data data' /\
  (forall B ho c, parse_with B ho c NetNever data = Ok r) /\
  (forall B ho c, parse_with B ho c NetNever data' = Ok r') /\
  r_keyframes r <> r_keyframes r' /\ r_content_crc r = r_content_crc r' /\ r_header_crc r = r_header_crc r'.
Proof.
  unfold pair_okb. cbv zeta. set (g := zero_frames n). set (b := wrong_frames n ps).
  intros H. apply andb_prop in H as [H Nk]. apply andb_prop in H as [H Hw]. apply andb_prop in H as [H El].
  apply andb_prop in H as [H Ec]. apply andb_prop in H as [H Lb]. apply andb_prop in H as [H Lg]. apply andb_prop in H as [Og Ob].
  apply andb_prop in Hw as [Ew Es]. apply negb_true_iff in Nk. apply Nat.eqb_eq in El, Ew. apply N.eqb_eq in Ec, Es. apply Z.ltb_lt in Lb, Lg.
  exists (write_file plain_header (frames_body g)), (write_file plain_header (frames_body b)). eexists _, _.
  split; [split; [exact El|split; [exact Ew|exact Es]]|].
  split; [intros B ho c; apply read_back; [exact plain_ok|apply frames_okb; exact Og|exact Lg]|].
  split; [intros B ho c; apply read_back; [exact plain_ok|apply frames_okb; exact Ob|exact Lb]|].
  split; [|split; [exact (f_equal Z.of_N Ec)|reflexivity]].
  intros E. change (g = b) in E. rewrite <- E in Nk. unfold frame_eqb in Nk. rewrite !Z.eqb_refl in Nk. discriminate.
Qed.

(** the bits of products of the generator polynomial *)
Lemma all_sharp w m : In (w, m) least_spans -> exists data data' r r', wrong_bits w m data data' /\
  (forall B ho c, parse_with B ho c NetNever data = Ok r) /\
  (forall B ho c, parse_with B ho c NetNever data' = Ok r') /\
  r_keyframes r <> r_keyframes r' /\ r_content_crc r = r_content_crc r' /\ r_header_crc r = r_header_crc r'.
Proof.
  intros I. unfold least_spans in I. cbn [In] in I.
  destruct I as [E|[E|[E|[E|[E|[E|[E|[E|[E|[]]]]]]]]]]; injection E as <- <-.
  - apply (pair_undetected 32 [0; 140; 791; 3006]). vm_compute. reflexivity.
  - apply (pair_undetected 4 [0; 145; 183; 211; 300]). vm_compute. reflexivity.
  - apply (pair_undetected 3 [0; 17; 80; 118; 124; 203]). vm_compute. reflexivity.
  - apply (pair_undetected 2 [0; 3; 43; 49; 70; 78; 123]). vm_compute. reflexivity.
  - apply (pair_undetected 1 [0; 1; 48; 53; 73; 76; 84; 89]). vm_compute. reflexivity.
  - apply (pair_undetected 1 [0; 9; 29; 34; 47; 48; 63; 64; 66]). vm_compute. reflexivity.
  - apply (pair_undetected 1 [0; 15; 17; 20; 23; 26; 28; 46; 50; 53]). vm_compute. reflexivity.
  - apply (pair_undetected 1 [0; 1; 3; 7; 9; 12; 13; 28; 37; 39; 44]). vm_compute. reflexivity.
  - apply (pair_undetected 1 [0; 12; 16; 18; 21; 24; 29; 34; 35; 37; 39; 42]). vm_compute. reflexivity.
Qed.
