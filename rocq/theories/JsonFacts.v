(** * Proofs: consequences of the round trips *)

From Coq Require Import ZArith List Bool Lia.
From Verif Require Import Base F32 NetTypes Text Errors Header Body BitReader ObjectIndex Parser Json JsonNet JsonReplay
  TextProofs ReaderLogic BitLemmas SpecBasic SpecFacts SpecReplay SpecDecimal SpecJson CacheProofs JsonLogic JsonProofs TypedProofs Samples.
Open Scope Z_scope.

Lemma signed_text x : is_i64 x -> exists s, ser_i64s x = JStr s /\ decimal x s /\ de_i64s (JStr s) = Some x.
Proof.
  intros H. exists (display_Z x). split; [reflexivity|]. assert (D : decimal x (display_Z x)) by (apply display_decimal; unfold is_i64 in H; lia).
  split; [exact D|]. unfold is_i64 in H. apply parse_decimal; [exact D|lia|reflexivity].
Qed.

Lemma unsigned_text x : is_u64 x -> exists s, ser_u64s x = JStr s /\ decimal x s /\ de_u64s (JStr s) = Some x.
Proof.
  intros H. exists (display_Z x). split; [reflexivity|]. assert (D : decimal x (display_Z x)) by (apply display_decimal; unfold is_u64 in H; lia).
  split; [exact D|]. unfold is_u64 in H. apply parse_decimal; [exact D|lia|lia].
Qed.

(** any bounds that contain the number *)
Lemma decimal_unique x y s : decimal x s -> decimal y s -> x = y.
Proof.
  intros Hx Hy. set (m := Z.max (Z.abs x) (Z.abs y)).
  pose proof (parse_decimal true (- m) m x s Hx ltac:(lia) ltac:(reflexivity)) as P.
  rewrite (parse_decimal true (- m) m y s Hy ltac:(lia) ltac:(reflexivity)) in P. congruence.
Qed.

Lemma qword_text x : is_u64 x -> exists s, ser_header_prop (HQWord x) = JStr s /\ decimal x s /\
  forall y, decimal y s -> y = x.
Proof.
  intros H. exists (display_Z x). split; [reflexivity|].
  assert (D : decimal x (display_Z x)) by (apply display_decimal; unfold is_u64 in H; lia).
  split; [exact D|]. intros y Hy. eapply decimal_unique; eauto.
Qed.

(** the bounds only filter *)
Lemma parse_int_bounds signed lo hi lo' hi' s x : parse_int signed lo hi s = Some x ->
  lo <= x <= hi /\ (lo' <= x <= hi' -> parse_int signed lo' hi' s = Some x).
Proof.
  unfold parse_int. destruct s as [|b t]; [discriminate|].
  assert (C : forall o, match o with Some y => if ((lo <=? y) && (y <=? hi))%bool then Some y else None | None => None end = Some x ->
    lo <= x <= hi /\ (lo' <= x <= hi' ->
      match o with Some y => if ((lo' <=? y) && (y <=? hi'))%bool then Some y else None | None => None end = Some x)).
  { intros [y|]; [|discriminate]. destruct (Z.leb_spec lo y), (Z.leb_spec y hi); cbn [andb]; try discriminate.
    intros [= <-]. split; [lia|]. intros Hb. destruct (Z.leb_spec lo' y), (Z.leb_spec y hi'); try lia. reflexivity. }
  destruct (byteZ b =? 43); [destruct t; [discriminate|apply C]|].
  destruct ((byteZ b =? 45) && signed)%bool; [destruct t; [discriminate|apply C]|apply C].
Qed.

(** an unsigned type does not accept a minus sign, which only negative numbers have *)
Lemma parse_unsigned lo hi s x : parse_int false lo hi s = Some x -> parse_int true lo hi s = Some x.
Proof.
  unfold parse_int. destruct s as [|b t]; [discriminate|]. destruct (byteZ b =? 43); [auto|].
  rewrite andb_false_r, andb_true_r. destruct (Z.eqb_spec (byteZ b) 45) as [Eb|]; [|auto].
  cbn [parse_digits]. unfold digit_value. rewrite Eb. cbn. discriminate.
Qed.

Lemma too_large x s : decimal x s ->
  (~ is_i64 x -> de_i64s (JStr s) = None) /\ (~ is_u64 x -> de_u64s (JStr s) = None).
Proof.
  intros D. pose (m := Z.max (Z.abs x) (2 ^ 64)).
  assert (P : parse_int true (- m) m s = Some x) by (apply parse_decimal; [exact D|lia|reflexivity]).
  split; intros N; unfold de_i64s, de_u64s.
  - destruct (parse_int true (- 2 ^ 63) (2 ^ 63 - 1) s) as [y|] eqn:E; [|reflexivity]. exfalso. apply N.
    destruct (parse_int_bounds _ _ _ (- m) m _ _ E) as [R K]. rewrite K in P by lia. injection P as <-. unfold is_i64. lia.
  - destruct (parse_int false 0 (2 ^ 64 - 1) s) as [y|] eqn:E; [|reflexivity]. exfalso. apply N. apply parse_unsigned in E.
    destruct (parse_int_bounds _ _ _ (- m) m _ _ E) as [R K]. rewrite K in P by lia. injection P as <-. unfold is_u64. lia.
Qed.

Lemma decoded_frames B ho c n data r fs : bitter_ok B -> hash_order_ok ho -> lenZ data < 2 ^ 31 ->
  parse_with B ho c n data = Ok r -> r_network_frames r = Some fs ->
  Forall typed_frame fs /\
  (de_vec de_frame (ser_vec ser_frame fs) = Some fs <-> Forall finite (flat_map floats_frame fs)).
Proof.
  intros HB Hho L E Ef. pose proof (frames_typed B HB ho Hho c n data r fs L E Ef) as T. split; [exact T|].
  apply (rt_vec _ _ _ _ rt_frame fs T).
Qed.

Lemma unreadable : exists data r fs,
  parse_with std_bitter key_order CrcAlways NetAlways data = Ok r /\ r_network_frames r = Some fs /\
  de_vec de_frame (ser_vec ser_frame fs) = None.
Proof.
  exists odd_sample. eexists _, _. split; [vm_compute; reflexivity|]. split; [reflexivity|]. vm_compute. reflexivity.
Qed.

Lemma changed : exists data r fs fs',
  parse_with std_bitter key_order CrcAlways NetAlways data = Ok r /\ r_network_frames r = Some fs /\
  de_vec de_frame (ser_vec ser_frame fs) = Some fs' /\ fs' <> fs.
Proof.
  exists cam_sample. eexists _, _, _. split; [vm_compute; reflexivity|]. split; [reflexivity|].
  split; [vm_compute; reflexivity|]. intros H. injection H. discriminate.
Qed.
