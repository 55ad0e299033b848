(** * Properties: four to twelve wrong bits *)

From Coq Require Import ZArith NArith List Bool.
From Verif Require Import Base NetTypes Errors Core Header Body BitReader Network Parser Crc
  SpecCrc SpecWrong SpecFile SpecReplay FileFacts CrcMany ManyProofs Samples.
Open Scope Z_scope.

(** ** C92 *)

Theorem C92_few_bits : forall w m span d1 d2, In (w, m) least_spans -> wrong_bits w span d1 d2 -> (span < m)%N -> calc_crc d1 <> calc_crc d2.
Proof. exact few_detected. Qed.
Print Assumptions C92_few_bits.

(** with the checksum of the header checked *)
Theorem C92_header : forall B ho data n r pre cov cov' rest w m span, lenZ data < 2 ^ 31 ->
  parse_with B ho CrcAlways n data = Ok r ->
  data = pre ++ cov ++ rest -> length pre = 8%nat -> Z.of_nat (length cov) = r_header_size r ->
  In (w, m) least_spans -> wrong_bits w span cov cov' -> (span < m)%N ->
  parse_with B ho CrcAlways n (pre ++ cov' ++ rest) =
    Err (ECrcMismatch (r_header_crc r) (Z.of_N (crc32_unreal cov'))).
Proof. exact few_header. Qed.
Print Assumptions C92_header.

(** with the checksum of the body checked *)
Theorem C92_content : forall B ho data n r pre hb h pre2 cov cov' rest w m span, lenZ data < 2 ^ 31 ->
  parse_with B ho CrcAlways n data = Ok r ->
  data = pre ++ hb ++ pre2 ++ cov ++ rest -> length pre = 8%nat ->
  f_header hb h [] -> r_header_size r <= Z.of_nat (length hb) -> length pre2 = 8%nat ->
  Z.of_nat (length cov) = r_content_size r ->
  In (w, m) least_spans -> wrong_bits w span cov cov' -> (span < m)%N ->
  parse_with B ho CrcAlways n (pre ++ hb ++ pre2 ++ cov' ++ rest) =
    Err (ECrcMismatch (r_content_crc r) (Z.of_N (crc32_unreal cov'))).
Proof. exact few_content. Qed.
Print Assumptions C92_content.

(** All the bounds are sharp: with one bit more between them so many wrong bits can
    go unnoticed.  Both files are accepted with their checksums checked. *)
Theorem C92_sharp : forall w m, In (w, m) least_spans -> exists data data' r r', wrong_bits w m data data' /\
  (forall B ho c, parse_with B ho c NetNever data = Ok r) /\
  (forall B ho c, parse_with B ho c NetNever data' = Ok r') /\
  r_keyframes r <> r_keyframes r' /\ r_content_crc r = r_content_crc r' /\ r_header_crc r = r_header_crc r'.
Proof. exact all_sharp. Qed.
Print Assumptions C92_sharp.

(** four bits of the body of the sample, those of the first byte with its ends and those of the tenth *)
Example C92_ex : exists r cov' e span,
  parse_with std_bitter key_order CrcAlways NetAlways sample = Ok r /\
  Z.of_nat (length sample_body) = r_content_size r /\
  wrong_bits 4 span sample_body cov' /\ (72 < span < 3006)%N /\
  parse_with std_bitter key_order CrcAlways NetAlways (sample_prefix ++ sample_header ++ sample_middle ++ cov') = Err e.
Proof.
  pose (flip := fun b => match Byte.of_N (N.lxor 129 (Byte.to_N b)) with Some b' => b' | None => b end).
  pose (cov' := flip (hd x00 sample_body) :: firstn 8 (skipn 1 sample_body) ++ flip (nth 9 sample_body x00) :: skipn 10 sample_body).
  eexists _, cov', _, 79%N. split; [vm_compute; reflexivity|]. split; [vm_compute; reflexivity|].
  split; [repeat split; vm_compute; reflexivity|]. split; [split; reflexivity|]. vm_compute. reflexivity.
Qed.
