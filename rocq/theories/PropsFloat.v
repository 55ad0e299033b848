(** * Property theorems: floats of decoded vectors and quaternions (C45, C54) *)

From Coq Require Import ZArith List Bool Lia.
From Verif Require Import Base F32 NetTypes Errors BitReader NetModels BitLemmas Wire SpecReader SpecFacts SpecRound SpecQuat
  VectorProofs RoundProofs FloatFacts QuatProofs.
Open Scope Z_scope.

(** ** C45 *)

(** the integers on the wire, and the numbers nearest to their hundredths *)
Theorem C45_nearest : forall B, bitter_ok B -> forall net r v r', reader_ok r ->
  vector3f_decode B net r = (Ok v, r') ->
  exists u, w_vec3i net (flat r) u (flat r') /\
    (Z.abs (v3i_x u) <= 2 ^ 22 /\ nearest (v3f_x v) (v3i_x u) 100) /\
    (Z.abs (v3i_y u) <= 2 ^ 22 /\ nearest (v3f_y v) (v3i_y u) 100) /\
    (Z.abs (v3i_z u) <= 2 ^ 22 /\ nearest (v3f_z v) (v3i_z u) 100).
Proof. exact vector_nearest. Qed.
Print Assumptions C45_nearest.

(** The integers can be recovered: no two of them have the same nearest number,
    so equal decoded vectors come from equal integers. *)
Theorem C45_injective : forall x m n, Z.abs m <= 2 ^ 22 -> Z.abs n <= 2 ^ 22 ->
  nearest x m 100 -> nearest x n 100 -> m = n.
Proof. exact nearest_injective. Qed.
Print Assumptions C45_injective.

Theorem C45_recoverable : forall B, bitter_ok B -> forall net net' r q v r' q', reader_ok r -> reader_ok q ->
  vector3f_decode B net r = (Ok v, r') -> vector3f_decode B net' q = (Ok v, q') ->
  exists u, w_vec3i net (flat r) u (flat r') /\ w_vec3i net' (flat q) u (flat q').
Proof. exact vector_injective. Qed.
Print Assumptions C45_recoverable.

(** -3.17: the bits of the nearest number; the integer on the wire was -317 *)
Example C45_ex : exists r v r', reader_ok r /\ vector3f_decode std_bitter 10 r = (Ok v, r') /\
  v3f_x v = 0xC04AE148 /\ nearest (v3f_x v) (-317) 100 /\ ~ nearest (v3f_x v + 1) (-317) 100.
Proof. exact nearest_example. Qed.

(** ** C54 *)

(** Every decoded quaternion: three components near the values their integers
    stand for, the fourth making the length one. *)
Theorem C54_components : forall B, bitter_ok B -> forall r q r', reader_ok r -> quat_decode B r = (Ok q, r') ->
  exists k a b c, w_quad (flat r) (k, a, b, c) (flat r') /\ quaternion_near k a b c q.
Proof. exact quat_near. Qed.
Print Assumptions C54_components.

Theorem C54_unit_length : forall B, bitter_ok B -> forall r q r', reader_ok r -> quat_decode B r = (Ok q, r') ->
  f32_scaled (q_x q) <> None -> f32_scaled (q_y q) <> None -> f32_scaled (q_z q) <> None -> f32_scaled (q_w q) <> None ->
  unit_length q.
Proof. exact quat_unit. Qed.
Print Assumptions C54_unit_length.

(** the format of older replays: three components, the fourth zero *)
Theorem C54_compressed : forall B, bitter_ok B -> forall r q r', reader_ok r -> quat_decode_compressed B r = (Ok q, r') ->
  exists a b c, w_triple (flat r) (a, b, c) (flat r') /\
    old_near a (q_x q) /\ old_near b (q_y q) /\ old_near c (q_z q) /\ q_w q = 0.
Proof. exact quat_old_near. Qed.
Print Assumptions C54_compressed.

(** the integers can be recovered from the floats *)
Theorem C54_recoverable : forall B, bitter_ok B -> forall r q r' s s', reader_ok r -> reader_ok s ->
  quat_decode B r = (Ok q, r') -> quat_decode B s = (Ok q, s') ->
  exists k a b c k' a' b' c', w_quad (flat r) (k, a, b, c) (flat r') /\ w_quad (flat s) (k', a', b', c') (flat s') /\
    (k = k' -> a = a' /\ b = b' /\ c = c').
Proof. exact quat_recoverable. Qed.
Print Assumptions C54_recoverable.

Theorem C54_recoverable_compressed : forall B, bitter_ok B -> forall r q r' s s', reader_ok r -> reader_ok s ->
  quat_decode_compressed B r = (Ok q, r') -> quat_decode_compressed B s = (Ok q, s') ->
  exists t, w_triple (flat r) t (flat r') /\ w_triple (flat s) t (flat s').
Proof. exact quat_old_recoverable. Qed.
Print Assumptions C54_recoverable_compressed.

(** One with its third component left out: 0.2, 0.3, (0.806...) and -0.47.  Eight
    units in the last place of the third are too much, and the first is not near
    the value of the next integer. *)
Example C54_ex : exists r q r', reader_ok r /\ quat_decode std_bitter r = (Ok q, r') /\
  q = mkQuat 0x3E4CCCA1 0x3E99994D 0x3F4E4053 0xBEF0A3BA /\ unit_length q /\
  ~ unit_length (mkQuat 0x3E4CCCA1 0x3E99994D (0x3F4E4053 + 8) 0xBEF0A3BA) /\
  part_near 168144 (q_x q) /\ ~ part_near 168145 (q_x q) /\
  fst (quat_decode_compressed std_bitter r) = Ok (mkQuat 0xBEF2F9E6 0x3E1C5139 0x3F57DBB0 0).
Proof. exact quat_example. Qed.
