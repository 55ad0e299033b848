(** * The checksum: proofs for C07 and C08 *)

From Coq Require Import NArith ZArith List Lia Bool Ring.
From Verif Require Import Base Crc SpecCrc.
Open Scope N_scope.

(** ** Linear functions on bit vectors *)

Definition linear (f : N -> N) := forall a b, f (N.lxor a b) = N.lxor (f a) (f b).

Lemma linear_0 f : linear f -> f 0 = 0.
Proof.
  intros L. pose proof (L 0 0) as H. rewrite N.lxor_0_r in H.
  apply (f_equal (N.lxor (f 0))) in H. rewrite N.lxor_nilpotent, N.lxor_0_r in H.
  symmetry. exact H.
Qed.
Lemma linear_eq f g : (forall x, f x = g x) -> linear g -> linear f.
Proof. intros E G a b. rewrite !E. apply G. Qed.
Lemma linear_comp f g : linear f -> linear g -> linear (fun x => f (g x)).
Proof. intros F G a b. rewrite G, F. reflexivity. Qed.
Lemma linear_xor f g : linear f -> linear g -> linear (fun x => N.lxor (f x) (g x)).
Proof.
  intros F G a b. rewrite F, G.
  rewrite !N.lxor_assoc. f_equal. rewrite <- !N.lxor_assoc. f_equal. apply N.lxor_comm.
Qed.
Lemma linear_iter n f : linear f -> linear (iter_n n f).
Proof. intros F. induction n as [|n IH]; simpl; intros a b; [reflexivity|]. rewrite F. apply IH. Qed.

Ltac bits := apply N.bits_inj; intros ?i;
  repeat rewrite ?N.lxor_spec, ?N.land_spec, ?N.lor_spec.

Lemma linear_shiftr k : linear (fun x => N.shiftr x k).
Proof. intros a b. apply N.shiftr_lxor. Qed.
Lemma linear_shiftl k : linear (fun x => N.shiftl x k).
Proof. intros a b. apply N.shiftl_lxor. Qed.
Lemma linear_land m : linear (fun x => N.land x m).
Proof. intros a b. bits. destruct (N.testbit a i), (N.testbit b i), (N.testbit m i); reflexivity. Qed.
Lemma linear_shl32 k : linear (fun x => shl32 x k).
Proof. exact (linear_comp _ _ (linear_land mask32) (linear_shiftl k)). Qed.

(** Two linear functions that agree on the powers of two agree. *)
Lemma linear_ext f g n : linear f -> linear g ->
  (forall i, i < N.of_nat n -> f (2 ^ i) = g (2 ^ i)) ->
  forall x, x < 2 ^ N.of_nat n -> f x = g x.
Proof.
  intros F G. induction n as [|n IH]; intros H x Hx.
  - simpl in Hx. replace x with 0 by lia. rewrite !linear_0; auto.
  - assert (IHn : forall x, x < 2 ^ N.of_nat n -> f x = g x).
    { apply IH. intros i Hi. apply H. lia. }
    destruct (N.testbit x (N.of_nat n)) eqn:T.
    + set (y := N.lxor x (2 ^ N.of_nat n)).
      assert (E : x = N.lxor y (2 ^ N.of_nat n)).
      { unfold y. rewrite N.lxor_assoc, N.lxor_nilpotent, N.lxor_0_r. reflexivity. }
      rewrite E, F, G, H by lia. f_equal. apply IHn.
      destruct (N.eq_dec y 0) as [->|Ny]; [apply N.neq_0_lt_0, N.pow_nonzero; lia|].
      apply N.log2_lt_pow2; [lia|]. apply N.nle_gt. intros L.
      pose proof (N.bit_log2 y Ny) as Bt. unfold y in Bt at 1. rewrite N.lxor_spec, N.pow2_bits_eqb in Bt.
      destruct (N.eqb_spec (N.of_nat n) (N.log2 y)) as [E'|E'].
      * rewrite <- E', T in Bt. discriminate.
      * rewrite xorb_false_r in Bt.
        assert (N.testbit x (N.log2 y) = false); [|congruence].
        apply N.bits_above_log2. apply N.log2_lt_pow2; [|].
        { assert (x <> 0); [|lia]. intros ->. rewrite N.bits_0 in T. discriminate. }
        eapply N.lt_le_trans; [exact Hx|]. apply N.pow_le_mono_r; lia.
    + apply IHn. destruct (N.eq_dec x 0) as [->|Nx]; [apply N.neq_0_lt_0, N.pow_nonzero; lia|].
      apply N.log2_lt_pow2; [lia|]. apply N.nle_gt. intros L.
      assert (N.log2 x < N.of_nat (S n)) by (apply N.log2_lt_pow2; lia).
      assert (N.log2 x = N.of_nat n) as E by lia.
      pose proof (N.bit_log2 x Nx). rewrite E in *. congruence.
Qed.

Definition powers (n : nat) : list N := map (fun i => 2 ^ N.of_nat i) (seq 0 n).
Lemma linear_check f g n : linear f -> linear g ->
  forallb (fun p => f p =? g p) (powers n) = true ->
  forall x, x < 2 ^ N.of_nat n -> f x = g x.
Proof.
  intros F G H. apply linear_ext; auto. intros i Hi.
  rewrite forallb_forall in H. apply N.eqb_eq, H. unfold powers.
  rewrite in_map_iff. exists (N.to_nat i). rewrite N2Nat.id. split; auto. apply in_seq. lia.
Qed.

Lemma index256_in x : x < 256 -> In x index256.
Proof.
  intros H. unfold index256. rewrite in_map_iff. exists (N.to_nat x).
  rewrite N2Nat.id. split; auto. apply in_seq. lia.
Qed.
Lemma table_check (f g : N -> N) :
  forallb (fun i => f i =? g i) index256 = true -> forall x, x < 256 -> f x = g x.
Proof.
  intros H x Hx. rewrite forallb_forall in H. apply N.eqb_eq, H, index256_in, Hx.
Qed.

(** ** The pieces of the model are linear *)

Lemma linear_swap : linear swap_bytes.
Proof.
  assert (E : forall x, swap_bytes x =
    N.lxor (N.shiftl (N.land x 0xFF) 24)
    (N.lxor (N.shiftl (N.land (N.shiftr x 8) 0xFF) 16)
       (N.lxor (N.shiftl (N.land (N.shiftr x 16) 0xFF) 8)
          (N.land (N.shiftr x 24) 0xFF)))).
  { intros x. unfold swap_bytes.
    assert (L : forall a b, N.land a b = 0 -> N.lor a b = N.lxor a b).
    { intros a b H. rewrite N.lxor_lor; auto. }
    assert (B : forall y j, N.testbit (N.land y 0xFF) j = (N.testbit y j && (j <? 8))%bool).
    { intros y j. rewrite N.land_spec. f_equal. change 0xFF with (N.ones 8).
      destruct (N.ltb_spec j 8); [apply N.ones_spec_low|apply N.ones_spec_high]; auto. }
    assert (SB : forall y k j, N.testbit (N.shiftl y k) j = ((k <=? j) && N.testbit y (j - k))%bool).
    { intros y k j. destruct (N.leb_spec k j).
      - rewrite N.shiftl_spec_high'; auto.
      - rewrite N.shiftl_spec_low; auto. }
    rewrite L; [f_equal|].
    - rewrite L; [f_equal|].
      + rewrite L; [reflexivity|].
        apply N.bits_inj. intros i. rewrite N.land_spec, SB, !B, N.bits_0.
        destruct (N.leb_spec 8 i), (N.ltb_spec i 8); try lia; rewrite ?andb_false_r; auto.
      + apply N.bits_inj. intros i. rewrite N.land_spec, N.lor_spec, !SB, !B, N.bits_0.
        destruct (N.leb_spec 16 i), (N.ltb_spec i 8), (N.ltb_spec (i - 8) 8); try lia;
          rewrite ?andb_false_r; simpl; rewrite ?andb_false_r; auto.
    - apply N.bits_inj. intros i. rewrite N.land_spec, !N.lor_spec, !SB, !B, N.bits_0.
      destruct (N.leb_spec 24 i), (N.ltb_spec i 8), (N.ltb_spec (i - 8) 8), (N.ltb_spec (i - 16) 8);
        try lia; rewrite ?andb_false_r; simpl; rewrite ?andb_false_r; auto. }
  eapply linear_eq; [exact E|].
  refine (linear_xor (fun x => N.shiftl (N.land x 0xFF) 24) _ _ _).
  { exact (linear_comp _ _ (linear_shiftl 24) (linear_land 0xFF)). }
  refine (linear_xor (fun x => N.shiftl (N.land (N.shiftr x 8) 0xFF) 16) _ _ _).
  { exact (linear_comp _ _ (linear_comp _ _ (linear_shiftl 16) (linear_land 0xFF)) (linear_shiftr 8)). }
  refine (linear_xor (fun x => N.shiftl (N.land (N.shiftr x 16) 0xFF) 8) _ _ _).
  { exact (linear_comp _ _ (linear_comp _ _ (linear_shiftl 8) (linear_land 0xFF)) (linear_shiftr 16)). }
  exact (linear_comp _ _ (linear_land 0xFF) (linear_shiftr 24)).
Qed.

Lemma land_top x : (0 <? N.land x 0x80000000) = N.testbit x 31.
Proof.
  change 0x80000000 with (2 ^ 31). destruct (N.testbit x 31) eqn:T.
  - assert (N.land x (2 ^ 31) <> 0); [|apply N.ltb_lt; lia].
    intros H. apply (f_equal (fun y => N.testbit y 31)) in H.
    rewrite N.land_spec, T, N.pow2_bits_true, N.bits_0 in H. discriminate.
  - assert (N.land x (2 ^ 31) = 0) as ->; [|reflexivity].
    bits. rewrite N.bits_0, N.pow2_bits_eqb. destruct (N.eqb_spec 31 i) as [<-|]; [rewrite T|rewrite andb_false_r]; auto.
Qed.

Lemma linear_if c : linear (fun x => if N.testbit x 31 then c else 0).
Proof.
  intros a b. rewrite N.lxor_spec.
  destruct (N.testbit a 31), (N.testbit b 31); simpl; rewrite ?N.lxor_nilpotent, ?N.lxor_0_r; reflexivity.
Qed.
Lemma crc_bit_eq p x : crc_bit p x = N.lxor (shl32 x 1) (if N.testbit x 31 then p else 0).
Proof. unfold crc_bit. rewrite land_top. destruct (N.testbit x 31); rewrite ?N.lxor_0_r; reflexivity. Qed.
Lemma linear_crc_bit p : linear (crc_bit p).
Proof.
  eapply linear_eq; [intros x; apply crc_bit_eq|].
  refine (linear_xor (fun x => shl32 x 1) _ _ _); [apply linear_shl32|apply linear_if].
Qed.

(** Eight steps with zero input bits. *)
Definition eight (x : N) : N := iter_n 8 (crc_bit crc_poly) x.
Lemma linear_eight : linear eight.
Proof. apply linear_iter, linear_crc_bit. Qed.

(** A zero byte on the byte-swapped register. *)
Definition zero_byte (a : N) : N :=
  N.lxor (N.shiftr a 8) (swap_bytes (eight (shl32 (N.land a 0xFF) 24))).
Lemma linear_zero_byte : linear zero_byte.
Proof.
  refine (linear_xor (fun a => N.shiftr a 8) _ _ _); [apply linear_shiftr|].
  exact (linear_comp _ _ linear_swap (linear_comp _ _ linear_eight
    (linear_comp _ _ (linear_shl32 24) (linear_land 0xFF)))).
Qed.

(** ** The table *)

Definition T := Eval vm_compute in CRC_TABLE.
Lemma T_eq : CRC_TABLE = T.
Proof. vm_compute. reflexivity. Qed.

Lemma rows_check :
  forallb (fun j => forallb (fun i => tbl (row T j) i =? iter_n (S j) zero_byte i) index256) (seq 0 16) = true.
Proof. vm_compute. reflexivity. Qed.
Lemma row_spec j x : (j < 16)%nat -> x < 256 -> tbl (row CRC_TABLE j) x = iter_n (S j) zero_byte x.
Proof.
  intros Hj. revert x. rewrite T_eq. apply table_check.
  pose proof rows_check as H. rewrite forallb_forall in H. apply H, in_seq. lia.
Qed.

Lemma byte_bound (b : byte) : Byte.to_N b < 256.
Proof. pose proof (Byte.to_N_bounded b). lia. Qed.
Lemma land_255 x : N.land x 0xFF = x mod 256.
Proof. change 0xFF with (N.ones 8). rewrite N.land_ones. reflexivity. Qed.
Lemma land_255_bound x : N.land x 0xFF < 256.
Proof. rewrite land_255. apply N.mod_lt. lia. Qed.
Lemma byte_land (b : byte) : N.land (Byte.to_N b) 0xFF = Byte.to_N b.
Proof. rewrite land_255. apply N.mod_small, byte_bound. Qed.

Lemma iter_S {A} n (f : A -> A) x : iter_n (S n) f x = f (iter_n n f x).
Proof. revert x. induction n as [|n IH]; intros x; [reflexivity|]. simpl in *. rewrite <- IH. reflexivity. Qed.

Lemma shiftr_byte (b : byte) : N.shiftr (Byte.to_N b) 8 = 0.
Proof. rewrite N.shiftr_div_pow2. apply N.div_small, byte_bound. Qed.

Lemma lxor_byte_land (b : byte) a :
  N.lxor (Byte.to_N b) (N.land a 0xFF) = N.land (N.lxor a (Byte.to_N b)) 0xFF.
Proof. rewrite (linear_land 0xFF), byte_land. apply N.lxor_comm. Qed.

Lemma crc_byte_eq a x : crc_byte CRC_TABLE a x = zero_byte (N.lxor a (Byte.to_N x)).
Proof.
  unfold crc_byte. rewrite lxor_byte_land, row_spec by (lia || apply land_255_bound).
  cbn [iter_n]. unfold zero_byte at 1.
  set (y := N.lxor a (Byte.to_N x)). unfold zero_byte.
  assert (N.shiftr a 8 = N.shiftr y 8) as ->.
  { unfold y. rewrite N.shiftr_lxor, shiftr_byte, N.lxor_0_r. reflexivity. }
  f_equal. rewrite (N.shiftr_div_pow2 (N.land y 255)), N.div_small by apply land_255_bound.
  rewrite N.lxor_0_l. do 3 f_equal. rewrite !land_255. apply N.mod_mod. lia.
Qed.

(** ** Sixteen bytes at a time *)

(** [le32] as a sum of shifted bytes without carries *)
Lemma le32_land0 b0 b1 b2 b3 : N.land (le32 b0 b1 b2 b3) 0xFF = Byte.to_N b0.
Proof.
  rewrite land_255. unfold le32. rewrite N.mul_comm, N.mod_add by lia. apply N.mod_small, byte_bound.
Qed.
Lemma le32_shift b0 b1 b2 b3 :
  N.shiftr (le32 b0 b1 b2 b3) 8 = Byte.to_N b1 + 256 * (Byte.to_N b2 + 256 * Byte.to_N b3).
Proof.
  rewrite N.shiftr_div_pow2. change (2 ^ 8) with 256. unfold le32.
  rewrite N.mul_comm, N.div_add by lia. rewrite N.div_small by apply byte_bound. reflexivity.
Qed.
Lemma le32_land1 b0 b1 b2 b3 : N.land (N.shiftr (le32 b0 b1 b2 b3) 8) 0xFF = Byte.to_N b1.
Proof.
  rewrite le32_shift, land_255. rewrite N.mul_comm, N.mod_add by lia. apply N.mod_small, byte_bound.
Qed.
Lemma le32_land2 b0 b1 b2 b3 : N.land (N.shiftr (le32 b0 b1 b2 b3) 16) 0xFF = Byte.to_N b2.
Proof.
  replace 16 with (8 + 8) by reflexivity. rewrite <- N.shiftr_shiftr, le32_shift, N.shiftr_div_pow2.
  change (2 ^ 8) with 256. rewrite (N.mul_comm 256 (_ + _)), N.div_add by lia.
  rewrite N.div_small by apply byte_bound. rewrite N.add_0_l, land_255, N.mul_comm, N.mod_add by lia.
  apply N.mod_small, byte_bound.
Qed.
Lemma le32_land3 b0 b1 b2 b3 : N.land (N.shiftr (le32 b0 b1 b2 b3) 24) 0xFF = Byte.to_N b3.
Proof.
  replace 24 with (8 + 8 + 8) by reflexivity. rewrite <- !N.shiftr_shiftr, le32_shift, !N.shiftr_div_pow2.
  change (2 ^ 8) with 256. rewrite (N.mul_comm 256 (_ + _)), N.div_add by lia.
  rewrite (N.div_small (Byte.to_N b1)) by apply byte_bound. rewrite N.add_0_l, N.mul_comm, N.div_add by lia.
  rewrite N.div_small by apply byte_bound. rewrite N.add_0_l, land_255. apply N.mod_small, byte_bound.
Qed.

Notation Zk n := (iter_n n zero_byte).
Definition four (x : N) : N :=
  N.lxor (Zk 13 (N.land (N.shiftr x 24) 0xFF))
  (N.lxor (Zk 14 (N.land (N.shiftr x 16) 0xFF))
  (N.lxor (Zk 15 (N.land (N.shiftr x 8) 0xFF)) (Zk 16 (N.land x 0xFF)))).
Lemma four_eq x : four x = N.lxor (Zk 13 (N.land (N.shiftr x 24) 0xFF))
  (N.lxor (Zk 14 (N.land (N.shiftr x 16) 0xFF))
  (N.lxor (Zk 15 (N.land (N.shiftr x 8) 0xFF)) (Zk 16 (N.land x 0xFF)))).
Proof. reflexivity. Qed.
Lemma linear_Zk n : linear (Zk n).
Proof. apply linear_iter, linear_zero_byte. Qed.
Lemma linear_four : linear four.
Proof.
  assert (L : forall n k, linear (fun x => Zk n (N.land (N.shiftr x k) 0xFF))).
  { intros n k. exact (linear_comp _ _ (linear_Zk n) (linear_comp _ _ (linear_land 0xFF) (linear_shiftr k))). }
  refine (linear_xor (fun x => Zk 13 (N.land (N.shiftr x 24) 0xFF)) _ _ _); [apply L|].
  refine (linear_xor (fun x => Zk 14 (N.land (N.shiftr x 16) 0xFF)) _ _ _); [apply L|].
  refine (linear_xor (fun x => Zk 15 (N.land (N.shiftr x 8) 0xFF)) _ _ _); [apply L|].
  exact (linear_comp _ _ (linear_Zk 16) (linear_land 0xFF)).
Qed.
Lemma four_reg a : a < 2 ^ 32 -> four a = Zk 16 a.
Proof.
  apply (linear_check four (Zk 16) 32); [apply linear_four|apply linear_Zk|]. vm_compute. reflexivity.
Qed.

Definition bytes_fold (a : N) (l : list byte) : N :=
  fold_left (fun a x => zero_byte (N.lxor a (Byte.to_N x))) l a.

Lemma zero_byte_bound a : a < 2 ^ 32 -> zero_byte a < 2 ^ 32.
Proof.
  intros H. assert (E : forall x, x < 2 ^ 32 -> zero_byte x = N.land (zero_byte x) mask32).
  { apply (linear_check zero_byte (fun x => N.land (zero_byte x) mask32) 32).
    - apply linear_zero_byte.
    - exact (linear_comp _ _ (linear_land mask32) linear_zero_byte).
    - vm_compute. reflexivity. }
  rewrite E by exact H. change mask32 with (N.ones 32). rewrite N.land_ones. apply N.mod_lt. lia.
Qed.
Lemma lxor_bound n a b : a < 2 ^ n -> b < 2 ^ n -> N.lxor a b < 2 ^ n.
Proof.
  intros A B. assert (P : 0 < 2 ^ n) by (apply N.neq_0_lt_0, N.pow_nonzero; lia).
  destruct (N.eq_dec (N.lxor a b) 0) as [->|H]; [exact P|].
  destruct (N.eq_dec a 0) as [->|A0]; [rewrite N.lxor_0_l; exact B|].
  destruct (N.eq_dec b 0) as [->|B0]; [rewrite N.lxor_0_r; exact A|].
  apply N.log2_lt_pow2; [lia|]. eapply N.le_lt_trans; [apply N.log2_lxor|].
  apply N.log2_lt_pow2 in A; [|lia]. apply N.log2_lt_pow2 in B; [|lia]. lia.
Qed.
Lemma xor_byte_bound a b : a < 2 ^ 32 -> N.lxor a (Byte.to_N b) < 2 ^ 32.
Proof.
  intros H. apply lxor_bound; [exact H|]. eapply N.lt_trans; [apply byte_bound|]. reflexivity.
Qed.
Lemma bytes_fold_bound l : forall a, a < 2 ^ 32 -> bytes_fold a l < 2 ^ 32.
Proof.
  induction l as [|b l IH]; intros a H; [exact H|]. cbn [bytes_fold fold_left].
  apply IH, zero_byte_bound, xor_byte_bound, H.
Qed.

(** The register after a list of bytes, as a sum of contributions. *)
Fixpoint contributions (l : list byte) : N :=
  match l with
  | [] => 0
  | b :: t => N.lxor (Zk (length l) (Byte.to_N b)) (contributions t)
  end.
Lemma iter_unfold {A} n (f : A -> A) x : iter_n (S n) f x = iter_n n f (f x).
Proof. reflexivity. Qed.
Lemma bytes_fold_cons a b l : bytes_fold a (b :: l) = bytes_fold (zero_byte (N.lxor a (Byte.to_N b))) l.
Proof. reflexivity. Qed.
Lemma fold_sum l : forall a, bytes_fold a l = N.lxor (Zk (length l) a) (contributions l).
Proof.
  induction l as [|b l IH]; intros a.
  - unfold bytes_fold. cbn [fold_left length contributions iter_n]. rewrite N.lxor_0_r. reflexivity.
  - rewrite bytes_fold_cons, IH. cbn [contributions length].
    rewrite <- iter_unfold, linear_Zk, N.lxor_assoc. reflexivity.
Qed.

Lemma one_spec b0 b1 b2 b3 a : a < 2 ^ 32 ->
  N.lxor (tbl (row CRC_TABLE 12) (N.land (N.shiftr (N.lxor (le32 b0 b1 b2 b3) a) 24) 0xFF))
        (N.lxor (tbl (row CRC_TABLE 13) (N.land (N.shiftr (N.lxor (le32 b0 b1 b2 b3) a) 16) 0xFF))
        (N.lxor (tbl (row CRC_TABLE 14) (N.land (N.shiftr (N.lxor (le32 b0 b1 b2 b3) a) 8) 0xFF))
                (tbl (row CRC_TABLE 15) (N.land (N.lxor (le32 b0 b1 b2 b3) a) 0xFF)))) =
  N.lxor (Zk 13 (Byte.to_N b3)) (N.lxor (Zk 14 (Byte.to_N b2)) (N.lxor (Zk 15 (Byte.to_N b1))
    (N.lxor (Zk 16 (Byte.to_N b0)) (Zk 16 a)))).
Proof.
  intros Ha. rewrite !row_spec by (lia || apply land_255_bound).
  rewrite <- four_eq.
  rewrite linear_four, (four_reg a) by exact Ha. unfold four.
  rewrite le32_land0, le32_land1, le32_land2, le32_land3. rewrite !N.lxor_assoc. reflexivity.
Qed.

Lemma crc_tail l a : fold_left (crc_byte CRC_TABLE) l a = bytes_fold a l.
Proof.
  revert a. induction l as [|b l IH]; intros a; [reflexivity|]. cbn [fold_left bytes_fold].
  rewrite IH, crc_byte_eq. reflexivity.
Qed.

(** The wide step of the model, for any table. *)
Definition wide (t : list (list N)) (a : N) (b0 b1 b2 b3 b4 b5 b6 b7 b8 b9 b10 b11 b12 b13 b14 b15 : byte) : N :=
        N.lxor (tbl (row t 0) (Byte.to_N b15))
        (N.lxor (tbl (row t 1) (Byte.to_N b14))
        (N.lxor (tbl (row t 2) (Byte.to_N b13))
        (N.lxor (tbl (row t 3) (Byte.to_N b12))
        (N.lxor (tbl (row t 4) (Byte.to_N b11))
        (N.lxor (tbl (row t 5) (Byte.to_N b10))
        (N.lxor (tbl (row t 6) (Byte.to_N b9))
        (N.lxor (tbl (row t 7) (Byte.to_N b8))
        (N.lxor (tbl (row t 8) (Byte.to_N b7))
        (N.lxor (tbl (row t 9) (Byte.to_N b6))
        (N.lxor (tbl (row t 10) (Byte.to_N b5))
        (N.lxor (tbl (row t 11) (Byte.to_N b4))
        (N.lxor (tbl (row t 12) (N.land (N.shiftr (N.lxor (le32 b0 b1 b2 b3) a) 24) 0xFF))
        (N.lxor (tbl (row t 13) (N.land (N.shiftr (N.lxor (le32 b0 b1 b2 b3) a) 16) 0xFF))
        (N.lxor (tbl (row t 14) (N.land (N.shiftr (N.lxor (le32 b0 b1 b2 b3) a) 8) 0xFF))
                (tbl (row t 15) (N.land (N.lxor (le32 b0 b1 b2 b3) a) 0xFF)))))))))))))))).

Lemma crc_fold_wide t a b0 b1 b2 b3 b4 b5 b6 b7 b8 b9 b10 b11 b12 b13 b14 b15 l :
  crc_fold t a (b0 :: b1 :: b2 :: b3 :: b4 :: b5 :: b6 :: b7 :: b8 :: b9 :: b10 :: b11 :: b12 :: b13
    :: b14 :: b15 :: l) = crc_fold t (wide t a b0 b1 b2 b3 b4 b5 b6 b7 b8 b9 b10 b11 b12 b13 b14 b15) l.
Proof. reflexivity. Qed.
Lemma crc_fold_short t a l : (length l < 16)%nat -> crc_fold t a l = fold_left (crc_byte t) l a.
Proof.
  intros H. do 16 (destruct l as [|? l]; [reflexivity|]). exfalso. cbn [length] in H. lia.
Qed.

Lemma wide_spec a b0 b1 b2 b3 b4 b5 b6 b7 b8 b9 b10 b11 b12 b13 b14 b15 : a < 2 ^ 32 ->
  wide CRC_TABLE a b0 b1 b2 b3 b4 b5 b6 b7 b8 b9 b10 b11 b12 b13 b14 b15 =
  bytes_fold a [b0; b1; b2; b3; b4; b5; b6; b7; b8; b9; b10; b11; b12; b13; b14; b15].
Proof.
  intros Ha. unfold wide. rewrite one_spec by exact Ha.
  rewrite !row_spec by (lia || apply byte_bound).
  rewrite fold_sum. cbn [length contributions].
  repeat match goal with |- context [iter_n ?k zero_byte ?x] =>
    generalize (iter_n k zero_byte x); intro end.
  apply N.bits_inj. intros i. rewrite !N.lxor_spec, N.bits_0.
  repeat match goal with |- context [N.testbit ?x i] => generalize (N.testbit x i); intro end.
  rewrite xorb_false_r. ring.
Qed.

Lemma bytes_fold_app a l1 l2 : bytes_fold a (l1 ++ l2) = bytes_fold (bytes_fold a l1) l2.
Proof. apply fold_left_app. Qed.

Lemma crc_fold_eq n : forall l a, (length l <= n)%nat -> a < 2 ^ 32 ->
  crc_fold CRC_TABLE a l = bytes_fold a l.
Proof.
  induction n as [|n IH]; intros l a Hl Ha.
  { rewrite crc_fold_short by lia. apply crc_tail. }
  destruct (PeanoNat.Nat.lt_ge_cases (length l) 16) as [S|S].
  { rewrite crc_fold_short by exact S. apply crc_tail. }
  do 16 (destruct l as [|? l]; [exfalso; cbn [length] in S; lia|]).
  rewrite crc_fold_wide, wide_spec, IH.
  - rewrite <- bytes_fold_app. reflexivity.
  - cbn [length] in Hl. lia.
  - apply bytes_fold_bound, Ha.
  - exact Ha.
Qed.

(** ** The bitwise register *)

Definition top (b : bool) : N := if b then 2 ^ 31 else 0.

Lemma shl32_1 r : shl32 r 1 = (2 * r) mod 2 ^ 32.
Proof.
  unfold shl32. change mask32 with (N.ones 32). rewrite N.land_ones, N.shiftl_mul_pow2.
  change (2 ^ 1) with 2. rewrite N.mul_comm. reflexivity.
Qed.
Lemma shift_in_bit r b : shift_in r b = crc_bit crc_poly (N.lxor r (top b)).
Proof.
  rewrite linear_crc_bit. unfold shift_in. rewrite crc_bit_eq, <- shl32_1.
  destruct b; cbn [top].
  - change (crc_bit crc_poly (2 ^ 31)) with crc_poly. rewrite xorb_true_r.
    destruct (N.testbit r 31); cbn [negb].
    + rewrite N.lxor_assoc, N.lxor_nilpotent, N.lxor_0_r. reflexivity.
    + rewrite N.lxor_0_r. reflexivity.
  - change (crc_bit crc_poly 0) with 0. rewrite xorb_false_r, N.lxor_0_r.
    destruct (N.testbit r 31); rewrite ?N.lxor_0_r; reflexivity.
Qed.

(** The register is affine in its start value. *)
Lemma register_linear bits : forall a b,
  crc_register bits (N.lxor a b) =
  N.lxor (iter_n (length bits) (crc_bit crc_poly) a) (crc_register bits b).
Proof.
  induction bits as [|x bits IH]; intros a b; [reflexivity|].
  unfold crc_register in *. cbn [fold_left length]. rewrite iter_unfold, <- IH. f_equal.
  rewrite !shift_in_bit, N.lxor_assoc. apply linear_crc_bit.
Qed.

Lemma register_byte_0 (b : byte) : crc_register (byte_bits b) 0 = eight (shl32 (Byte.to_N b) 24).
Proof. destruct b; vm_compute; reflexivity. Qed.
Lemma register_byte b r :
  crc_register (byte_bits b) r = eight (N.lxor r (shl32 (Byte.to_N b) 24)).
Proof.
  rewrite <- (N.lxor_0_r r) at 1. rewrite register_linear, register_byte_0.
  rewrite linear_eight. reflexivity.
Qed.

Lemma swap_swap x : x < 2 ^ 32 -> swap_bytes (swap_bytes x) = x.
Proof.
  apply (linear_check (fun x => swap_bytes (swap_bytes x)) (fun x => x) 32).
  - exact (linear_comp _ _ linear_swap linear_swap).
  - intros a b. reflexivity.
  - vm_compute. reflexivity.
Qed.
Lemma swap_zero_reg r : r < 2 ^ 32 -> zero_byte (swap_bytes r) = swap_bytes (eight r).
Proof.
  apply (linear_check (fun r => zero_byte (swap_bytes r)) (fun r => swap_bytes (eight r)) 32).
  - exact (linear_comp _ _ linear_zero_byte linear_swap).
  - exact (linear_comp _ _ linear_swap linear_eight).
  - vm_compute. reflexivity.
Qed.
Lemma swap_zero_byte (b : byte) :
  zero_byte (Byte.to_N b) = swap_bytes (eight (shl32 (Byte.to_N b) 24)).
Proof. destruct b; vm_compute; reflexivity. Qed.

Lemma eight_bound x : eight x < 2 ^ 32.
Proof.
  unfold eight. rewrite iter_S. rewrite crc_bit_eq. apply lxor_bound.
  - rewrite shl32_1. apply N.mod_lt. lia.
  - destruct (N.testbit _ _); reflexivity.
Qed.
Lemma crc_bit_bound x : crc_bit crc_poly x < 2 ^ 32.
Proof.
  rewrite crc_bit_eq. apply lxor_bound.
  - rewrite shl32_1. apply N.mod_lt. lia.
  - destruct (N.testbit _ _); reflexivity.
Qed.
Lemma register_bound bits : forall r, r < 2 ^ 32 -> crc_register bits r < 2 ^ 32.
Proof.
  induction bits as [|x bits IH]; intros r H; [exact H|]. unfold crc_register in *.
  cbn [fold_left]. apply IH. rewrite shift_in_bit. apply crc_bit_bound.
Qed.

Lemma register_app l1 l2 r : crc_register (l1 ++ l2) r = crc_register l2 (crc_register l1 r).
Proof. apply fold_left_app. Qed.

Lemma bytes_fold_register l : forall r, r < 2 ^ 32 ->
  bytes_fold (swap_bytes r) l = swap_bytes (crc_register (data_bits l) r).
Proof.
  induction l as [|b l IH]; intros r H; [reflexivity|].
  rewrite bytes_fold_cons, linear_zero_byte, swap_zero_reg, swap_zero_byte by exact H.
  rewrite <- linear_swap, <- linear_eight, <- register_byte, IH.
  - cbn [data_bits flat_map]. fold (data_bits l). rewrite register_app. reflexivity.
  - rewrite register_byte. apply eight_bound.
Qed.

Lemma calc_crc_spec data : calc_crc data = crc32_unreal data.
Proof.
  unfold calc_crc. change (not32 (swap_bytes 0xefcbf201)) with (swap_bytes crc_init).
  rewrite (crc_fold_eq (length data)) by (lia || reflexivity).
  rewrite bytes_fold_register by reflexivity. unfold crc32_unreal, not32.
  rewrite linear_swap, swap_swap.
  - reflexivity.
  - apply register_bound. reflexivity.
Qed.

(** ** Detection *)

Lemma crc_bit_inj0 x : x < 2 ^ 32 -> crc_bit crc_poly x = 0 -> x = 0.
Proof.
  rewrite crc_bit_eq, shl32_1. intros H E.
  assert (T0 : N.testbit x 31 = false).
  { apply (f_equal (fun y => N.testbit y 0)) in E. rewrite N.lxor_spec, N.bits_0 in E.
    rewrite N.mod_pow2_bits_low, N.testbit_even_0 in E by lia.
    destruct (N.testbit x 31); [discriminate E|reflexivity]. }
  rewrite T0, N.lxor_0_r in E.
  apply N.bits_inj. intros i. rewrite N.bits_0.
  destruct (N.lt_ge_cases i 31) as [L|L].
  - apply (f_equal (fun y => N.testbit y (N.succ i))) in E.
    rewrite N.mod_pow2_bits_low, N.double_bits_succ, N.bits_0 in E by lia. exact E.
  - destruct (N.eq_dec i 31) as [->|Ni]; [exact T0|].
    destruct (N.eq_dec x 0) as [->|Nx]; [apply N.bits_0|].
    apply N.bits_above_log2. apply N.log2_lt_pow2 in H; lia.
Qed.
Lemma lxor_eq_0 a b : N.lxor a b = 0 -> a = b.
Proof. apply N.lxor_eq. Qed.
Lemma crc_bits_inj n : forall x y, x < 2 ^ 32 -> y < 2 ^ 32 ->
  iter_n n (crc_bit crc_poly) x = iter_n n (crc_bit crc_poly) y -> x = y.
Proof.
  induction n as [|n IH]; intros x y Hx Hy E; [exact E|]. rewrite !iter_unfold in E.
  apply IH in E; try apply crc_bit_bound. apply N.lxor_eq, crc_bit_inj0; [apply lxor_bound; auto|].
  rewrite linear_crc_bit, E. apply N.lxor_nilpotent.
Qed.
Lemma register_inj bits x y : x < 2 ^ 32 -> y < 2 ^ 32 ->
  crc_register bits x = crc_register bits y -> x = y.
Proof.
  intros Hx Hy E. rewrite <- (N.lxor_0_r x), <- (N.lxor_0_r y), !register_linear in E.
  apply (crc_bits_inj (length bits)); auto.
  apply (f_equal (fun z => N.lxor z (crc_register bits 0))) in E.
  rewrite !N.lxor_assoc, !N.lxor_nilpotent, !N.lxor_0_r in E. exact E.
Qed.

(** The first [length bits] bits of a register, from the top. *)
Fixpoint word (bits : list bool) : N :=
  match bits with
  | [] => 0
  | b :: t => N.lxor (top b) (N.shiftr (word t) 1)
  end.
Lemma shiftr_bound x k n : x < 2 ^ n -> N.shiftr x k < 2 ^ n.
Proof.
  intros H. rewrite N.shiftr_div_pow2. eapply N.le_lt_trans; [|exact H].
  apply N.div_le_upper_bound; [apply N.pow_nonzero; lia|].
  rewrite <- (N.mul_1_l x) at 1. apply N.mul_le_mono_r.
  assert (2 ^ k <> 0) by (apply N.pow_nonzero; lia). lia.
Qed.
Lemma word_bound bits : word bits < 2 ^ 32.
Proof.
  induction bits as [|b bits IH]; [reflexivity|]. cbn [word]. apply lxor_bound.
  - destruct b; reflexivity.
  - apply shiftr_bound, IH.
Qed.
Lemma word_low bits : forall i, i + N.of_nat (length bits) < 32 -> N.testbit (word bits) i = false.
Proof.
  induction bits as [|b bits IH]; intros i H; [apply N.bits_0|]. cbn [word length] in *.
  rewrite N.lxor_spec, N.shiftr_spec', IH by lia. rewrite xorb_false_r.
  destruct b; cbn [top]; [apply N.pow2_bits_false; lia|apply N.bits_0].
Qed.
Lemma crc_bit_shiftr x : x < 2 ^ 32 -> N.testbit x 0 = false -> crc_bit crc_poly (N.shiftr x 1) = x.
Proof.
  intros H L. rewrite crc_bit_eq, shl32_1, N.shiftr_spec'.
  assert (Hi : forall i, 32 <= i -> N.testbit x i = false).
  { intros i Hi. destruct (N.eq_dec x 0) as [->|Nx]; [apply N.bits_0|].
    apply N.bits_above_log2. apply N.log2_lt_pow2 in H; lia. }
  rewrite Hi, N.lxor_0_r by lia. apply N.bits_inj. intros i.
  destruct (N.lt_ge_cases i 32) as [Li|Li].
  - rewrite N.mod_pow2_bits_low by lia. destruct (N.eq_dec i 0) as [->|Ni].
    + rewrite N.testbit_even_0, L. reflexivity.
    + replace i with (N.succ (i - 1)) by lia. rewrite N.double_bits_succ, N.shiftr_spec'.
      f_equal. lia.
  - rewrite N.mod_pow2_bits_high, Hi by lia. reflexivity.
Qed.
Lemma register_word bits : (length bits <= 32)%nat -> forall r,
  crc_register bits r = iter_n (length bits) (crc_bit crc_poly) (N.lxor r (word bits)).
Proof.
  induction bits as [|b bits IH]; intros Hl r.
  - cbn. rewrite N.lxor_0_r. reflexivity.
  - cbn [length] in *. unfold crc_register in *. cbn [fold_left]. rewrite IH by lia.
    rewrite iter_unfold. f_equal. rewrite shift_in_bit. cbn [word].
    rewrite <- N.lxor_assoc, (linear_crc_bit crc_poly (N.lxor r (top b))).
    rewrite crc_bit_shiftr; [reflexivity|apply word_bound|]. apply word_low. lia.
Qed.
Lemma word_inj l1 : forall l2, length l1 = length l2 -> (length l1 <= 32)%nat -> word l1 = word l2 -> l1 = l2.
Proof.
  induction l1 as [|b1 l1 IH]; intros [|b2 l2] L Hl E; try discriminate L; [reflexivity|].
  cbn [word length] in *.
  assert (B : forall l, N.testbit (N.shiftr (word l) 1) 31 = false).
  { intros l. rewrite N.shiftr_spec'. destruct (N.eq_dec (word l) 0) as [->|Nx]; [apply N.bits_0|].
    apply N.bits_above_log2. pose proof (word_bound l) as W. apply N.log2_lt_pow2 in W; lia. }
  assert (b1 = b2) as ->.
  { apply (f_equal (fun x => N.testbit x 31)) in E. rewrite !N.lxor_spec, !B, !xorb_false_r in E.
    destruct b1, b2; try reflexivity; discriminate E. }
  f_equal. apply IH; [lia|lia|].
  assert (E' : N.shiftr (word l1) 1 = N.shiftr (word l2) 1).
  { apply (f_equal (N.lxor (top b2))) in E.
    rewrite <- !N.lxor_assoc, !N.lxor_nilpotent, !N.lxor_0_l in E. exact E. }
  apply N.bits_inj. intros i. destruct (N.eq_dec i 0) as [->|Ni].
  - rewrite !word_low by lia. reflexivity.
  - replace i with (i - 1 + 1) by lia. rewrite <- !N.shiftr_spec', E'. reflexivity.
Qed.

(** Bursts of at most 32 bits. *)
Lemma burst_detected d1 d2 p w1 w2 s :
  data_bits d1 = p ++ w1 ++ s -> data_bits d2 = p ++ w2 ++ s ->
  length w1 = length w2 -> (length w1 <= 32)%nat -> w1 <> w2 ->
  calc_crc d1 <> calc_crc d2.
Proof.
  intros H1 H2 L Hl D E. apply D. rewrite !calc_crc_spec in E. unfold crc32_unreal in E.
  apply (f_equal (fun z => N.lxor z crc_xorout)) in E.
  rewrite !N.lxor_assoc, !N.lxor_nilpotent, !N.lxor_0_r in E.
  rewrite H1, H2, !register_app in E.
  assert (B : crc_register p crc_init < 2 ^ 32) by (apply register_bound; reflexivity).
  apply register_inj in E; try (apply register_bound; exact B).
  rewrite (register_word w1), (register_word w2) in E by lia. rewrite <- L in E.
  apply crc_bits_inj in E; try (apply lxor_bound; [exact B|apply word_bound]).
  apply word_inj; auto. apply (f_equal (N.lxor (crc_register p crc_init))) in E.
  rewrite <- !N.lxor_assoc, !N.lxor_nilpotent, !N.lxor_0_l in E. exact E.
Qed.

Lemma byte_bits_inj b1 b2 : byte_bits b1 = byte_bits b2 -> b1 = b2.
Proof.
  intros H. assert (I : forall b, Byte.of_N (fold_left (fun a (x : bool) => 2 * a + (if x then 1 else 0)) (byte_bits b) 0) = Some b)
    by (intros []; reflexivity).
  pose proof (I b1) as E. rewrite H, I in E. injection E as E. auto.
Qed.
Lemma data_bits_app a b : data_bits (a ++ b) = data_bits a ++ data_bits b.
Proof. apply flat_map_app. Qed.
Lemma data_bits_length l : length (data_bits l) = (8 * length l)%nat.
Proof.
  induction l as [|b l IH]; [reflexivity|]. cbn [data_bits flat_map length]. fold (data_bits l).
  rewrite app_length, IH. cbn [byte_bits map length]. lia.
Qed.
Lemma data_bits_inj a : forall b, data_bits a = data_bits b -> a = b.
Proof.
  induction a as [|x a IH]; intros [|y b] H; try reflexivity; try discriminate H.
  cbn [data_bits flat_map] in H. fold (data_bits a) in H. fold (data_bits b) in H.
  assert (byte_bits x = byte_bits y /\ data_bits a = data_bits b) as [E1 E2].
  { unfold byte_bits in *. cbn [map app] in *. injection H as H7 H6 H5 H4 H3 H2 H1 H0 H. split; [|exact H].
    rewrite H7, H6, H5, H4, H3, H2, H1, H0. reflexivity. }
  f_equal; auto using byte_bits_inj.
Qed.

Lemma window_detected p w1 w2 s :
  length w1 = length w2 -> (length w1 <= 4)%nat -> w1 <> w2 ->
  calc_crc (p ++ w1 ++ s) <> calc_crc (p ++ w2 ++ s).
Proof.
  intros L Hl D. eapply burst_detected with (w1 := data_bits w1) (w2 := data_bits w2);
    rewrite ?data_bits_app; try reflexivity; rewrite ?data_bits_length; try lia.
  intros E. apply D, data_bits_inj, E.
Qed.

Lemma calc_crc_bound d : calc_crc d < 2 ^ 32.
Proof.
  rewrite calc_crc_spec. apply lxor_bound; [apply register_bound|]; reflexivity.
Qed.
