(** * The checksum: model of /repo/src/crc.rs

    [u32] values are [N] below 2^32. *)

From Coq Require Import NArith ZArith List.
From Verif Require Import Base.
Open Scope N_scope.

(** the range of [u32], crc.rs:1 *)
Definition mask32 : N := 0xFFFFFFFF.
(** [x << k] on [u32]. crc.rs:10, 12, 26. *)
Definition shl32 (x k : N) : N := N.land (N.shiftl x k) mask32.
(** [!x] on [u32]. crc.rs:52, 79. *)
Definition not32 (x : N) : N := N.lxor x mask32.
(** [u32::swap_bytes]. crc.rs:17, 23, 26-27, 52, 79. *)
Definition swap_bytes (x : N) : N :=
  N.lor (N.shiftl (N.land x 0xFF) 24)
    (N.lor (N.shiftl (N.land (N.shiftr x 8) 0xFF) 16)
       (N.lor (N.shiftl (N.land (N.shiftr x 16) 0xFF) 8)
          (N.land (N.shiftr x 24) 0xFF))).

(** crc.rs:9-13, the conditional in the inner loop *)
Definition crc_bit (poly crc : N) : N :=
  if 0 <? N.land crc 0x80000000 then N.lxor (shl32 crc 1) poly else shl32 crc 1.

(** a [while] loop of [n] rounds, crc.rs:8, 25 *)
Fixpoint iter_n {A} (n : nat) (f : A -> A) (x : A) : A :=
  match n with O => x | S n' => iter_n n' f (f x) end.

(** [while i < 256], crc.rs:5, 22 *)
Definition index256 : list N := map N.of_nat (seq 0 256).

(** crc.rs:4-19: table[0] *)
Definition crc_table0 (poly : N) : list N :=
  map (fun i => swap_bytes (iter_n 8 (crc_bit poly) (shl32 i 24))) index256.

(** [t[i as usize]]; an index is always below 256 here. crc.rs:26, 76. *)
Definition tbl (t : list N) (i : N) : N := nth (N.to_nat i) t 0.

(** crc.rs:26 *)
Definition crc_next (t0 : list N) (crc : N) : N :=
  N.lxor (swap_bytes (tbl t0 (N.shiftr crc 24))) (shl32 crc 8).

(** crc.rs:21-31: table[j] (j = 0..N-1), for each i starting from table[0][i] *)
Definition crc_table_row (t0 : list N) (j : nat) : list N :=
  map (fun x => swap_bytes (iter_n j (crc_next t0) (swap_bytes x))) t0.

(** crc.rs:1-33, with [n] rows *)
Definition gen_crc_table (n : nat) (poly : N) : list (list N) :=
  let t0 := crc_table0 poly in
  map (crc_table_row t0) (seq 0 n).

(** crc.rs:37 *)
Definition CRC_TABLE : list (list N) := gen_crc_table 16 0x04c11db7.

(** [CRC_TABLE[j]], crc.rs:56-71 *)
Definition row (t : list (list N)) (j : nat) : list N := nth j t [].

(** [u32::from_le_bytes] of four bytes, crc.rs:54 *)
Definition le32 (b0 b1 b2 b3 : byte) : N :=
  Byte.to_N b0 + 256 * (Byte.to_N b1 + 256 * (Byte.to_N b2 + 256 * Byte.to_N b3)).

(** crc.rs:75-77: one byte of the tail *)
Definition crc_byte (t : list (list N)) (acc : N) (x : byte) : N :=
  N.lxor (N.shiftr acc 8) (tbl (row t 0) (N.lxor (Byte.to_N x) (N.land acc 0xFF))).

(** crc.rs:53-72 one 16-byte chunk [sl], and crc.rs:74-77 the tail; the two
    folds are fused: while at least 16 bytes remain use the wide step. *)
Fixpoint crc_fold (t : list (list N)) (acc : N) (l : list byte) : N :=
  match l with
  | b0 :: b1 :: b2 :: b3 :: b4 :: b5 :: b6 :: b7 ::
    b8 :: b9 :: b10 :: b11 :: b12 :: b13 :: b14 :: b15 :: rest =>
      let one := N.lxor (le32 b0 b1 b2 b3) acc in
      let acc' :=
        N.lxor (tbl (row t 0) (Byte.to_N b15))
        (N.lxor (tbl (row t 1) (Byte.to_N b14))
        (N.lxor (tbl (row t 2) (Byte.to_N b13))
        (N.lxor (tbl (row t 3) (Byte.to_N b12))
        (N.lxor (tbl (row t 4) (Byte.to_N b11))
        (N.lxor (tbl (row t 5) (Byte.to_N b10))
        (N.lxor (tbl (row t 6) (Byte.to_N b9))
        (N.lxor (tbl (row t 7) (Byte.to_N b8))
        (N.lxor (tbl (row t 8) (Byte.to_N b7))
        (N.lxor (tbl (row t 9) (Byte.to_N b6))
        (N.lxor (tbl (row t 10) (Byte.to_N b5))
        (N.lxor (tbl (row t 11) (Byte.to_N b4))
        (N.lxor (tbl (row t 12) (N.land (N.shiftr one 24) 0xFF))
        (N.lxor (tbl (row t 13) (N.land (N.shiftr one 16) 0xFF))
        (N.lxor (tbl (row t 14) (N.land (N.shiftr one 8) 0xFF))
                (tbl (row t 15) (N.land one 0xFF)))))))))))))))) in
      crc_fold t acc' rest
  | _ => fold_left (crc_byte t) l acc
  end.

(** crc.rs:51-80 *)
Definition calc_crc (data : list byte) : N :=
  let crc := not32 (swap_bytes 0xefcbf201) in
  swap_bytes (not32 (crc_fold CRC_TABLE crc data)).

(** The checksum as the [u32] compared by crc_section (parser.rs:442,450). *)
Definition calc_crcZ (data : list byte) : Z := Z.of_N (calc_crc data).
