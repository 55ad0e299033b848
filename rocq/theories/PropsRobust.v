(** * Property theorems: damaged and skipped data, sizes (C55 - C60) *)

From Coq Require Import ZArith NArith List Bool Lia.
From Verif Require Import Base NetTypes Errors Core Header Body BitReader ObjectIndex Network Parser Crc
  SpecCrc SpecFile SpecReplay SpecTruncate SpecSize SpecTable BitLemmas CoreLogic FormatProofs FileFacts TruncateProofs SizeProofs
  CrcOrder OpaqueProofs CacheProofs GrowthProofs Samples.
Open Scope Z_scope.

(** ** C55 *)

Theorem C55_truncated : forall B ho c n data r, bitter_ok B -> hash_order_ok ho -> lenZ data < 2 ^ 31 ->
  parse_with B ho c n data = Ok r ->
  exists need : nat, (need <= length data)%nat /\
    8 + r_header_size r <= Z.of_nat need /\ 16 + r_content_size r <= Z.of_nat need /\
    forall k, ((need <= k)%nat -> parse_with B ho c n (firstn k data) = Ok r) /\
              ((k < need)%nat -> exists e, parse_with B ho c n (firstn k data) = Err e /\ runs_out e).
Proof. exact (fun B ho c n data r HB Hho => truncated B HB ho Hho c n data r). Qed.
Print Assumptions C55_truncated.

(** the sample needs all of its bytes, and none of those appended to it *)
Example C55_ex : exists r e,
  parse_with std_bitter key_order CrcAlways NetAlways (sample ++ [x01; x02]) = Ok r /\
  parse_with std_bitter key_order CrcAlways NetAlways (firstn (length sample) (sample ++ [x01; x02])) = Ok r /\
  parse_with std_bitter key_order CrcAlways NetAlways (firstn (length sample - 1) (sample ++ [x01; x02])) = Err e /\
  runs_out e.
Proof.
  eexists _, _. split; [vm_compute; reflexivity|]. split; [vm_compute; reflexivity|].
  split; [vm_compute; reflexivity|]. exact I.
Qed.

(** ** C56 *)

Theorem C56_size : forall B ho c n data r, bitter_ok B -> hash_order_ok ho -> lenZ data < 2 ^ 31 ->
  parse_with B ho c n data = Ok r -> replay_size r <= 8 * lenZ data.
Proof. exact (fun B ho c n data r HB Hho => replay_paid B HB ho Hho c n data r). Qed.
Print Assumptions C56_size.

Example C56_ex : exists r, parse_with std_bitter key_order CrcAlways NetAlways sample = Ok r /\
  200 <= replay_size r <= lenZ sample.
Proof. eexists. split; [vm_compute; reflexivity|]. vm_compute. split; discriminate. Qed.

(** ** C57 *)

Theorem C57_two_bits : forall d1 d2, two_flips d1 d2 -> calc_crc d1 <> calc_crc d2.
Proof. exact two_flips_detected. Qed.
Print Assumptions C57_two_bits.

(** with the checksum of the header checked *)
Theorem C57_header : forall B ho data n r pre cov cov' rest, lenZ data < 2 ^ 31 ->
  parse_with B ho CrcAlways n data = Ok r ->
  data = pre ++ cov ++ rest -> length pre = 8%nat -> Z.of_nat (length cov) = r_header_size r ->
  two_flips cov cov' ->
  parse_with B ho CrcAlways n (pre ++ cov' ++ rest) =
    Err (ECrcMismatch (r_header_crc r) (Z.of_N (crc32_unreal cov'))).
Proof. exact flips_header. Qed.
Print Assumptions C57_header.

(** with the checksum of the body checked *)
Theorem C57_content : forall B ho data n r pre hb h pre2 cov cov' rest, lenZ data < 2 ^ 31 ->
  parse_with B ho CrcAlways n data = Ok r ->
  data = pre ++ hb ++ pre2 ++ cov ++ rest -> length pre = 8%nat ->
  f_header hb h [] -> r_header_size r <= Z.of_nat (length hb) -> length pre2 = 8%nat ->
  Z.of_nat (length cov) = r_content_size r ->
  two_flips cov cov' ->
  parse_with B ho CrcAlways n (pre ++ hb ++ pre2 ++ cov' ++ rest) =
    Err (ECrcMismatch (r_content_crc r) (Z.of_N (crc32_unreal cov'))).
Proof. exact flips_content. Qed.
Print Assumptions C57_content.

(** the first bit of the first and of the last byte of the body of the sample *)
Example C57_ex : exists r cov' e,
  parse_with std_bitter key_order CrcAlways NetAlways sample = Ok r /\
  Z.of_nat (length sample_body) = r_content_size r /\
  two_flips sample_body cov' /\
  parse_with std_bitter key_order CrcAlways NetAlways (sample_prefix ++ sample_header ++ sample_middle ++ cov') = Err e.
Proof.
  pose (flip := fun b => match Byte.of_N (N.lxor 128 (Byte.to_N b)) with Some b' => b' | None => b end).
  pose (m := (length sample_body - 1)%nat).
  pose (cov' := flip (hd x00 sample_body) :: firstn (m - 1) (skipn 1 sample_body) ++ [flip (last sample_body x00)]).
  eexists _, cov', _. split; [vm_compute; reflexivity|]. split; [vm_compute; reflexivity|]. split.
  - exists [], (hd false (data_bits sample_body)), (firstn (8 * m - 1) (skipn 1 (data_bits sample_body))),
      (nth (8 * m) (data_bits sample_body) false), (skipn (8 * m + 1) (data_bits sample_body)).
    split; [vm_compute; reflexivity|]. split; vm_compute; reflexivity.
  - vm_compute. reflexivity.
Qed.

(** ** C58 *)

Theorem C58_opaque : forall B ho data r, lenZ data < 2 ^ 31 ->
  parse_with B ho CrcNever NetNever data = Ok r ->
  exists before net after, data = before ++ net ++ after /\
    forall net', length net' = length net ->
      parse_with B ho CrcNever NetNever (before ++ net' ++ after) = Ok r /\
      exists h b rest, f_file (before ++ net' ++ after) (h, b) rest /\ b_network_data (sec_value b) = net'.
Proof. exact network_opaque. Qed.
Print Assumptions C58_opaque.

(** The network data of the sample, and as many other bytes: the frames are lost,
    a replay without frames is as before. *)
Example C58_ex : exists r e before net after, sample = before ++ net ++ after /\
  length net = 39%nat /\
  parse_with std_bitter key_order CrcNever NetNever sample = Ok r /\
  parse_with std_bitter key_order CrcNever NetNever (before ++ repeat x55 39 ++ after) = Ok r /\
  parse_with std_bitter key_order CrcNever NetAlways (before ++ repeat x55 39 ++ after) = Err e.
Proof.
  eexists _, _, (sample_prefix ++ sample_header ++ sample_middle ++ firstn 36 sample_body),
    (firstn 39 (skipn 36 sample_body)), (skipn 75 sample_body).
  split; [vm_compute; reflexivity|]. split; [reflexivity|].
  split; [vm_compute; reflexivity|]. split; vm_compute; reflexivity.
Qed.

(** ** C59 *)

Theorem C59_tables : forall ho objects caches v, hash_order_ok ho -> lenZ objects <= 2 ^ 31 -> net_cache_ok caches ->
  compute_caches ho (object_index_new objects) objects caches = Ok v ->
  tables_size v <= lenZ objects * properties_listed caches.
Proof. exact tables_bound. Qed.
Print Assumptions C59_tables.

Theorem C59_file : forall ho data h b rest v, hash_order_ok ho -> f_file data (h, b) rest ->
  compute_caches ho (object_index_new (b_objects (sec_value b))) (b_objects (sec_value b)) (b_net_cache (sec_value b)) = Ok v ->
  8 * tables_size v <= 25000 * lenZ data.
Proof. exact tables_bound_file. Qed.
Print Assumptions C59_file.

(** two instances of a class and the class itself: the bound is reached *)
Definition few_names : list str :=
  map lit ["TAGame.CrowdActor_TA"; "TheWorld:PersistentLevel.CrowdActor_TA_0"; "TheWorld:PersistentLevel.CrowdActor_TA_1"]%string.
Definition few_caches : list class_net_cache :=
  [mkNetCache 0 0 0 [mkCacheProp 0 7; mkCacheProp 2 100]; mkNetCache 0 0 0 [mkCacheProp 1 63]].
Example C59_ex : exists v, compute_caches key_order (object_index_new few_names) few_names few_caches = Ok v /\
  tables_size v = 9 /\ lenZ few_names * properties_listed few_caches = 9 /\ net_cache_ok few_caches.
Proof.
  eexists. split; [vm_compute; reflexivity|]. split; [reflexivity|]. split; [reflexivity|].
  unfold net_cache_ok. repeat constructor; cbn; discriminate.
Qed.

(** ** C60 *)

(** [n] objects and [m] properties, [48 n + 8 m + 118] bytes: [n * m] entries *)
Theorem C60_growth : forall n m, 0 <= n < 25000 -> 0 <= m <= 25000 -> exists data h b rest,
  f_file data (h, b) rest /\ lenZ data = 48 * n + 8 * m + 118 /\
  forall B ho, hash_order_ok ho ->
    (exists r, parse_with B ho CrcOnError NetIgnoreOnError data = Ok r) /\
    exists v, compute_caches ho (object_index_new (b_objects (sec_value b))) (b_objects (sec_value b))
                (b_net_cache (sec_value b)) = Ok v /\ n * m <= tables_size v.
Proof. exact tables_grow. Qed.
Print Assumptions C60_growth.

(** the tables are not bounded like the replay (C56): more than 400 entries for
    every byte of the file *)
Theorem C60_proportional_refuted : exists data h b rest, f_file data (h, b) rest /\ lenZ data < 2 ^ 31 /\
  forall B ho, hash_order_ok ho ->
    (exists r, parse_with B ho CrcOnError NetIgnoreOnError data = Ok r) /\
    exists v, compute_caches ho (object_index_new (b_objects (sec_value b))) (b_objects (sec_value b))
                (b_net_cache (sec_value b)) = Ok v /\ 400 * lenZ data < tables_size v.
Proof. exact tables_refuted. Qed.
Print Assumptions C60_proportional_refuted.

(** a small file of this kind, run *)
Example C60_ex : exists r, parse_with std_bitter key_order CrcOnError NetIgnoreOnError (crowd_file 3 2) = Ok r /\
  lenZ (crowd_file 3 2) = 278 /\ r_network_frames r = Some [] /\ length (r_objects r) = 4%nat.
Proof. eexists. split; [vm_compute; reflexivity|]. repeat split. Qed.
