(** * Property theorems: bit-level formats (C15 - C19, C38, C44) *)

From Coq Require Import ZArith List Bool Lia.
From Verif Require Import Base Text F32 NetTypes Errors BitReader NetModels Attributes
  BitLemmas Wire SpecReader VectorProofs TextWireProofs AttrProofs LeafProofs ReaderLogic WireFacts.
Open Scope Z_scope.

(** A reader over some bytes, three bits into the first of them, with a dirty
    scratch buffer: used by the examples. *)
Definition sample_reader (l : list byte) : rs :=
  mkRs (skipn 3 (bytes_bits (firstn 1 l))) (skipn 1 l) (repeat xff 1024).

(** ** C15 *)

(** the reading variant implements the bounded integer format *)
Theorem C15_bounded_integer : forall B, bitter_ok B -> forall max, 1 <= max ->
  implements (read_bits_max_computed B (Z.to_nat (Z.log2 max)) max) (w_bounded max).
Proof. exact read_bounded_impl. Qed.
Print Assumptions C15_bounded_integer.

(** so does the peeking variant when enough bits are buffered *)
Theorem C15_bounded_integer_peek : forall E max r, 1 <= max -> Z.log2 max <= 55 -> reader_ok r ->
  Z.log2 max + 1 <= Z.of_nat (length (lk r)) ->
  exists v r', @peek_bits_max_computed E (Z.to_nat (Z.log2 max)) max r = (Ok v, r') /\
    w_bounded max (flat r) v (flat r') /\ reader_ok r'.
Proof. exact @peek_bounded_impl. Qed.
Print Assumptions C15_bounded_integer_peek.

(** width of the encoding *)
Theorem C15_bounded_width : forall max x, 1 <= max -> 0 <= x < max ->
  Z.of_nat (length (enc_bounded max x)) = Z.log2 max \/
  Z.of_nat (length (enc_bounded max x)) = Z.log2 max + 1.
Proof. exact enc_bounded_length. Qed.
Print Assumptions C15_bounded_width.

(** encodings are unique and prefix free *)
Theorem C15_bounded_unique : forall max x y t u, 1 <= max -> 0 <= x < max -> 0 <= y < max ->
  enc_bounded max x ++ t = enc_bounded max y ++ u -> x = y /\ t = u.
Proof. exact enc_bounded_prefix_free. Qed.
Print Assumptions C15_bounded_unique.

Example C15_ex : reader_ok (sample_reader [xab; xcd; xef]) /\
  fst (read_bits_max_computed std_bitter 9 1000 (sample_reader [xab; xcd; xef])) = Ok 437 /\
  w_bounded 1000 (flat (sample_reader [xab; xcd; xef])) 437
    (flat (snd (read_bits_max_computed std_bitter 9 1000 (sample_reader [xab; xcd; xef])))).
Proof. split; [split; vm_compute; auto; lia|]. vm_compute. repeat split; congruence. Qed.

(** ** C16 *)

Theorem C16_vector3i : forall B, bitter_ok B -> forall net,
  implements (vector3i_decode B net) (w_vec3i net).
Proof. intros B HB net. exact (acc_implements _ _ (acc_vec3i B HB net)). Qed.
Print Assumptions C16_vector3i.

Theorem C16_vector3f : forall B, bitter_ok B -> forall net,
  implements (vector3f_decode B net) (w_vec3f net).
Proof. intros B HB net. exact (acc_implements _ _ (acc_vec3f B HB net)). Qed.
Print Assumptions C16_vector3f.

Theorem C16_vector_range : forall net i v o, w_vec3i net i v o ->
  exists s, 0 <= s < vec_bound net /\
    - 2 ^ (s + 1) <= v3i_x v < 2 ^ (s + 1) /\
    - 2 ^ (s + 1) <= v3i_y v < 2 ^ (s + 1) /\
    - 2 ^ (s + 1) <= v3i_z v < 2 ^ (s + 1).
Proof. exact w_vec3i_range. Qed.
Print Assumptions C16_vector_range.

(** the same vector once with and once without sixteen bytes behind it (fast and
    slow path), at an odd alignment *)
Example C16_ex :
  let v := fst (vector3i_decode std_bitter 10 (sample_reader [x2b; xcd; xef; x12])) in
  v = Ok (mkV3i 13 31 11) /\
  v = fst (vector3i_decode std_bitter 10 (sample_reader ([x2b; xcd; xef; x12] ++ repeat xaa 40))) /\
  fst (vector3i_decode std_bitter 10 (sample_reader [x2b; xcd; xef])) = Err tt.
Proof. vm_compute. auto. Qed.

(** ** C17 *)

Theorem C17_rotation : forall B, bitter_ok B -> implements (rotation_decode B) w_rotation.
Proof. intros B HB. exact (acc_implements _ _ (acc_rotation B HB)). Qed.
Print Assumptions C17_rotation.

Theorem C17_quaternion : forall B, bitter_ok B -> implements (quat_decode B) w_quat_new.
Proof. intros B HB. exact (acc_implements _ _ (acc_quat_decode B HB)). Qed.
Print Assumptions C17_quaternion.

Theorem C17_quaternion_compressed : forall B, bitter_ok B ->
  implements (quat_decode_compressed B) w_quat_old.
Proof. intros B HB. exact (acc_implements _ _ (acc_quat_old B HB)). Qed.
Print Assumptions C17_quaternion_compressed.

(** a rotation needing nine bits of a stream with only nineteen left (slow path),
    and a quaternion *)
Example C17_ex :
  fst (rotation_decode std_bitter (sample_reader [xa8; xff; x00])) =
    Ok (mkRot (Some (-6)) (Some 7) None) /\
  fst (quat_decode std_bitter (sample_reader [xa8; xff; x00; x12; x34; x56; x78; x9a])) <> Err tt /\
  fst (quat_decode std_bitter (sample_reader [xa8; xff; x00; x12; x34; x56; x78])) = Err tt.
Proof. vm_compute. repeat split; congruence. Qed.

(** ** C18 *)

Theorem C18_attribute : forall B, bitter_ok B -> forall D tag,
  implements (decode_attribute B D tag) (w_attribute D tag).
Proof. intros B HB D tag. exact (acc_implements _ _ (acc_attribute B HB D tag)). Qed.
Print Assumptions C18_attribute.

Definition sample_decoder : attribute_decoder :=
  mkAttrDecoder (mkVersion 868 32 10) (mkProductDecoder (mkVersion 868 32 10) 1 2 3 4 5) true.

(** a unique id (Epic, text "ab") and a reservation with a split screen name *)
Example C18_ex_unique :
  fst (decode_attribute std_bitter sample_decoder TUniqueId
         (reader_new [x0b; x03; x00; x00; x00; x61; x62; x00; x07; xff] (repeat xff 1024)))
  = Ok (AUniqueId (mkUniqueId 11 (REpic (lit "ab")) 7)).
Proof. vm_compute. reflexivity. Qed.
Example C18_ex_loadout :
  fst (decode_attribute std_bitter sample_decoder TLoadout
         (reader_new (x0a :: repeat x01 28) (repeat xff 1024)))
  = Ok (ALoadout (mkLoadout 10 16843009 16843009 16843009 16843009 16843009 16843009 16843009
          None None None None None None)).
Proof. vm_compute. reflexivity. Qed.

(** ** C19 *)

(** A non-sleeping rigid body without velocities: the network data ends one byte
    after its rotation. *)
Theorem C19_rigid_body_velocities_refuted : exists r r' rb, reader_ok r /\
  decode_attribute std_bitter sample_decoder TRigidBody r = (Ok (ARigidBody rb), r') /\
  rb_sleeping rb = false /\ rb_linear_velocity rb = None /\ rb_angular_velocity rb = None.
Proof.
  exists (reader_new (x00 :: repeat x11 8) (repeat x00 1024)).
  eexists _, _. split; [split; vm_compute; auto; lia|]. split; [vm_compute; reflexivity|]. auto.
Qed.
Print Assumptions C19_rigid_body_velocities_refuted.

(** It can only happen at the end of the data: with 69 bits left after the
    attribute both velocities are there. *)
Theorem C19_rigid_body_velocities : forall B, bitter_ok B -> forall D r r' rb, reader_ok r ->
  decode_attribute B D TRigidBody r = (Ok (ARigidBody rb), r') ->
  rb_sleeping rb = false -> (69 <= length (flat r'))%nat ->
  rb_linear_velocity rb <> None /\ rb_angular_velocity rb <> None.
Proof.
  intros B HB D r r' rb W H. destruct (acc_implements _ _ (acc_attribute B HB D TRigidBody) r W) as [I _].
  assert (w_attribute D TRigidBody (flat r) (ARigidBody rb) (flat r')) as K.
  { pose proof (acc_attribute B HB D TRigidBody r W) as A. rewrite H in A. apply A; auto. }
  exact (w_rigid_velocities D _ _ _ rb K eq_refl).
Qed.
Print Assumptions C19_rigid_body_velocities.

Example C19_ex : exists r' rb,
  decode_attribute std_bitter sample_decoder TRigidBody
    (reader_new (x00 :: repeat x11 40) (repeat x00 1024)) = (Ok (ARigidBody rb), r') /\
  rb_sleeping rb = false /\ (69 <= length (flat r'))%nat.
Proof. eexists _, _. split; [vm_compute; reflexivity|]. split; [reflexivity|]. vm_compute. lia. Qed.

(** ** C38 *)

Theorem C38_text : forall B, bitter_ok B -> implements (decode_text B) w_text.
Proof. intros B HB. exact (acc_implements _ _ (acc_text B HB)). Qed.
Print Assumptions C38_text.

(** A size [n] that asks for more than 1024 bytes, or for more than are left,
    is reported as such; without a size the text is missing. *)
Theorem C38_too_big : forall B, bitter_ok B -> forall r n after, reader_ok r ->
  - 2 ^ 31 <= n < 2 ^ 31 -> n <> 0 -> flat r = enc_bits 32 n ++ after ->
  (let need := if n <? 0 then 2 * - n else n in
   1024 < need \/ Z.of_nat (length after) < 8 * need) ->
  fst (decode_text B r) = Err (ATooBigString n).
Proof. exact text_too_big. Qed.
Print Assumptions C38_too_big.
Theorem C38_no_size : forall B, bitter_ok B -> forall r, reader_ok r ->
  (length (flat r) < 32)%nat -> fst (decode_text B r) = Err (ANotEnoughDataFor "text string").
Proof. exact text_no_size. Qed.
Print Assumptions C38_no_size.

(** the second read of a shorter string does not show the first one *)
Example C38_ex :
  let m := bind (decode_text std_bitter) (fun a => bind (decode_text std_bitter) (fun b => ret (a, b))) in
  fst (m (reader_new ([x05; x00; x00; x00; x48; x45; x4c; x4f; x00]
                       ++ [xfe; xff; xff; xff; x42; x00; x00; x00]) (repeat xff 1024)))
  = Ok (lit "HELO", lit "B") /\
  fst (decode_text std_bitter (reader_new [x00; x00; x00; x80; x00] (repeat xff 1024)))
  = Err (ATooBigString (- 2 ^ 31)).
Proof. vm_compute. auto. Qed.

(** ** C44 *)

Theorem C44_unit_quaternion_refuted : exists r q r', reader_ok r /\
  quat_decode std_bitter r = (Ok q, r') /\ sf_of_bits (q_w q) = SpecFloat.S754_nan.
Proof.
  exists (reader_new (repeat xff 8) (repeat x00 1024)). eexists _, _.
  split; [split; vm_compute; auto; lia|]. split; [vm_compute; reflexivity|]. vm_compute. reflexivity.
Qed.
Print Assumptions C44_unit_quaternion_refuted.
