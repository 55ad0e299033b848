(** * Property theorems: the checksum (C07, C08) *)

From Coq Require Import NArith ZArith List Lia.
From Verif Require Import Base Crc SpecCrc CrcProofs.
Open Scope N_scope.

(** ** C07 *)

Theorem C07_crc32 : forall data, calc_crc data = crc32_unreal data.
Proof. exact calc_crc_spec. Qed.
Print Assumptions C07_crc32.

Example C07_ex : calc_crc (lit "The quick brown fox jumps over the lazy dog") =
                 crc32_unreal (lit "The quick brown fox jumps over the lazy dog") /\
                 crc32_unreal [] = 0xefcbf201.
Proof. vm_compute. auto. Qed.

(** ** C08 *)

(** Two messages whose bits differ only within 32 consecutive bits. *)
Theorem C08_burst : forall d1 d2 before w1 w2 after,
  data_bits d1 = before ++ w1 ++ after -> data_bits d2 = before ++ w2 ++ after ->
  length w1 = length w2 -> (length w1 <= 32)%nat -> w1 <> w2 ->
  calc_crc d1 <> calc_crc d2.
Proof. exact burst_detected. Qed.
Print Assumptions C08_burst.

(** In particular within four consecutive bytes. *)
Theorem C08_window : forall before w1 w2 after,
  length w1 = length w2 -> (length w1 <= 4)%nat -> w1 <> w2 ->
  calc_crc (before ++ w1 ++ after) <> calc_crc (before ++ w2 ++ after).
Proof. exact window_detected. Qed.
Print Assumptions C08_window.

(** a burst of 32 bits across five bytes *)
Example C08_ex : exists before w1 w2 after,
  data_bits [x01; xff; x00; xff; x00; xf0; x07] = before ++ w1 ++ after /\
  data_bits [x01; xf0; xff; x00; xff; x00; x07] = before ++ w2 ++ after /\
  length w1 = length w2 /\ (length w1 <= 32)%nat /\ w1 <> w2.
Proof.
  exists (firstn 12 (data_bits [x01; xff; x00; xff; x00; xf0; x07])),
    (firstn 32 (skipn 12 (data_bits [x01; xff; x00; xff; x00; xf0; x07]))),
    (firstn 32 (skipn 12 (data_bits [x01; xf0; xff; x00; xff; x00; x07]))),
    (skipn 44 (data_bits [x01; xff; x00; xff; x00; xf0; x07])).
  vm_compute. repeat split; auto; try lia. discriminate.
Qed.
