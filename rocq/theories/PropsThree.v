(** * Properties: three wrong bits *)

From Coq Require Import ZArith NArith List Bool.
From Verif Require Import Base NetTypes Errors Core Header Body BitReader Network Parser Crc
  SpecCrc SpecFile SpecReplay BitLemmas FileFacts CrcThree ThreeProofs Samples.
Open Scope Z_scope.

(** ** C65 *)

Theorem C65_three_bits : forall span d1 d2, three_flips span d1 d2 -> (span < 91639)%N -> calc_crc d1 <> calc_crc d2.
Proof. exact three_flips_detected. Qed.
Print Assumptions C65_three_bits.

(** with the checksum of the header checked *)
Theorem C65_header : forall B ho data n r pre cov cov' rest span, lenZ data < 2 ^ 31 ->
  parse_with B ho CrcAlways n data = Ok r ->
  data = pre ++ cov ++ rest -> length pre = 8%nat -> Z.of_nat (length cov) = r_header_size r ->
  three_flips span cov cov' -> (span < 91639)%N ->
  parse_with B ho CrcAlways n (pre ++ cov' ++ rest) =
    Err (ECrcMismatch (r_header_crc r) (Z.of_N (crc32_unreal cov'))).
Proof. exact three_header. Qed.
Print Assumptions C65_header.

(** with the checksum of the body checked *)
Theorem C65_content : forall B ho data n r pre hb h pre2 cov cov' rest span, lenZ data < 2 ^ 31 ->
  parse_with B ho CrcAlways n data = Ok r ->
  data = pre ++ hb ++ pre2 ++ cov ++ rest -> length pre = 8%nat ->
  f_header hb h [] -> r_header_size r <= Z.of_nat (length hb) -> length pre2 = 8%nat ->
  Z.of_nat (length cov) = r_content_size r ->
  three_flips span cov cov' -> (span < 91639)%N ->
  parse_with B ho CrcAlways n (pre ++ hb ++ pre2 ++ cov' ++ rest) =
    Err (ECrcMismatch (r_content_crc r) (Z.of_N (crc32_unreal cov'))).
Proof. exact three_content. Qed.
Print Assumptions C65_content.

(** The bound is sharp: with one bit more between them, three wrong bits go
    unnoticed.  Both files are accepted with their checksums checked. *)
Theorem C65_longer_refuted : exists data data' r r', three_flips 91639 data data' /\
  (forall B ho c, parse_with B ho c NetNever data = Ok r) /\
  (forall B ho c, parse_with B ho c NetNever data' = Ok r') /\
  r_keyframes r <> r_keyframes r' /\ r_content_crc r = r_content_crc r' /\ r_header_crc r = r_header_crc r'.
Proof. exact three_refuted. Qed.
Print Assumptions C65_longer_refuted.

(** the first bits of the first, second and last byte of the body of the sample *)
Example C65_ex : exists r cov' e span,
  parse_with std_bitter key_order CrcAlways NetAlways sample = Ok r /\
  Z.of_nat (length sample_body) = r_content_size r /\
  three_flips span sample_body cov' /\ (8 < span < 91639)%N /\
  parse_with std_bitter key_order CrcAlways NetAlways (sample_prefix ++ sample_header ++ sample_middle ++ cov') = Err e.
Proof.
  pose (flip := fun b => match Byte.of_N (N.lxor 128 (Byte.to_N b)) with Some b' => b' | None => b end).
  pose (m := (length sample_body - 1)%nat).
  pose (cov' := flip (hd x00 sample_body) :: flip (nth 1 sample_body x00) :: firstn (m - 2) (skipn 2 sample_body) ++ [flip (last sample_body x00)]).
  eexists _, cov', _, (8 * N.of_nat m)%N. split; [vm_compute; reflexivity|]. split; [vm_compute; reflexivity|]. split; [|split].
  - exists [], (hd false (data_bits sample_body)), (firstn 7 (skipn 1 (data_bits sample_body))),
      (nth 8 (data_bits sample_body) false), (firstn (8 * m - 9) (skipn 9 (data_bits sample_body))),
      (nth (8 * m) (data_bits sample_body) false), (skipn (8 * m + 1) (data_bits sample_body)).
    split; [vm_compute; reflexivity|]. split; vm_compute; reflexivity.
  - split; vm_compute; reflexivity.
  - vm_compute. reflexivity.
Qed.
