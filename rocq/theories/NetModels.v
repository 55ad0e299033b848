(** * Vectors, rotations, trajectories, object names

    Models the functions of /repo/src/network/models.rs. *)

From Coq Require Import ZArith List Bool Floats.SpecFloat.
From Verif Require Import Base F32 NetTypes BitReader.
Open Scope Z_scope.

Section NetModels.
Context (B : bitter).

(** [if net_version >= 7 { 22 } else { 20 }], network/models.rs:42, 65 *)
Definition size_limit (net_version : Z) : Z := if 7 <=? net_version then 22 else 20.

(** network/models.rs:46-54 and 72-84: the end of both decoders.  [assert] is
    the [debug_assert!] of line 76, present in [eof_decode] only. *)
Definition vector3i_tail (bias : Z) (bit_limit : nat) (assert : bool) : rd unit vector3i :=
  let* dx := peek_and_consume bit_limit in
  let* _ := refill B in
  let* la := lookahead_bits in
  let* _ := (if assert && (la <? Z.of_nat bit_limit * 2)
             then panics PanicAssert else ret tt) in
  let* dy := peek_and_consume bit_limit in
  let* dz := peek_and_consume bit_limit in
  ret (mkV3i (as_i32 dx - bias) (as_i32 dy - bias) (as_i32 dz - bias)).

(** network/models.rs:58-85 *)
Definition vector3i_eof_decode (net_version : Z) : rd unit vector3i :=
  let* _ := refill B in
  let* la := lookahead_bits in
  if la <? 5 then fail tt
  else
    let* size_bits := peek_bits_max_computed 4 (size_limit net_version) in
    let bias := 2 ^ (size_bits + 1) in
    let bit_limit := Z.to_nat (size_bits + 2) in
    let* enough := has_bits_remaining (3 * bit_limit) in
    if negb enough then fail tt else vector3i_tail bias bit_limit true.

(** network/models.rs:33-56 *)
Definition vector3i_decode (net_version : Z) : rd unit vector3i :=
  let* fast := unbuffered_at_least 16 in
  if fast : bool then
    let* _ := refill B in
    let* size_bits := peek_bits_max_computed 4 (size_limit net_version) in
    let bias := 2 ^ (size_bits + 1) in
    let bit_limit := Z.to_nat (size_bits + 2) in
    vector3i_tail bias bit_limit false
  else vector3i_eof_decode net_version.

(** [(v as f32) / 100.0], network/models.rs:16-18 *)
Definition centi (v : Z) : f32 := bits_of_sf (sf_div (sf_of_Z v) (sf_of_Z 100)).

(** network/models.rs:14-20 *)
Definition vector3f_decode (net_version : Z) : rd unit vector3f :=
  fmap (fun v => mkV3f (centi (v3i_x v)) (centi (v3i_y v)) (centi (v3i_z v)))
       (vector3i_decode net_version).

(** the literal [0.5]. network/models.rs:101. *)
Definition sf_half : spec_float := sf_div (sf_of_Z 1) (sf_of_Z 2).

(** network/models.rs:98-103 *)
Definition quat_unpack (val : Z) : spec_float :=
  let pos_range := sf_div (sf_of_Z val) (sf_of_Z (2 ^ 18 - 1)) in
  let range := sf_mul (sf_sub pos_range sf_half) (sf_of_Z 2) in
  sf_mul range (sf_of_bits f32_frac_1_sqrt_2).

(** network/models.rs:106-122: [(res - 32768) as f32 * (32767 as f32).recip()] *)
Definition quat_compressed_value (res : Z) : spec_float :=
  sf_mul (sf_of_Z (res - 32768)) (sf_div (sf_of_Z 1) (sf_of_Z 32767)).
(** network/models.rs:106-122 *)
Definition quat_compressed_f32 : rd unit f32 :=
  let* res := peek_and_consume 16 in ret (bits_of_sf (quat_compressed_value res)).

(** network/models.rs:124-134 *)
Definition quat_decode_compressed : rd unit quaternion :=
  let* _ := refill B in
  let* la := lookahead_bits in
  if 3 * 16 <=? la then
    let* x := quat_compressed_f32 in
    let* y := quat_compressed_f32 in
    let* z := quat_compressed_f32 in
    ret (mkQuat x y z f32_zero)
  else fail tt.

(** network/models.rs:146: [(c.mul_add(-c, b.mul_add(-b, a.mul_add(-a, 1.0)))).sqrt()] *)
Definition quat_extra (a b c : spec_float) : spec_float :=
  sf_sqrt (sf_fma c (SFopp c) (sf_fma b (SFopp b) (sf_fma a (SFopp a) (sf_of_Z 1)))).

(** network/models.rs:147-173 *)
Definition quat_arrange (largest : Z) (a b c extra : f32) : rd unit quaternion :=
  if largest =? 0 then ret (mkQuat extra a b c)
  else if largest =? 1 then ret (mkQuat a extra b c)
  else if largest =? 2 then ret (mkQuat a b extra c)
  else if largest =? 3 then ret (mkQuat a b c extra)
  else panics PanicUnreachable.

(** network/models.rs:136-174 *)
Definition quat_decode : rd unit quaternion :=
  let* _ := refill B in
  let* la := lookahead_bits in
  if la <? 2 + 3 * 18 then fail tt
  else
    let* largest := peek_and_consume 2 in
    let* va := peek_and_consume 18 in
    let* vb := peek_and_consume 18 in
    let* vc := peek_and_consume 18 in
    let a := quat_unpack va in
    let b := quat_unpack vb in
    let c := quat_unpack vc in
    quat_arrange largest (bits_of_sf a) (bits_of_sf b) (bits_of_sf c)
                 (bits_of_sf (quat_extra a b c)).

(** network/models.rs:189-190 and the two following pairs of lines:
    [peek_and_consume(1)] then [peek_and_consume(has << 3) as i8] *)
Definition rotation_part : rd unit (option Z) :=
  let* has := peek_and_consume 1 in
  let* v := peek_and_consume (Z.to_nat (has * 8)) in
  ret (if negb (has =? 0) then Some (as_i8 v) else None).

(** network/models.rs:186-206 *)
Definition rotation_decode : rd unit rotation :=
  let* _ := refill B in
  let* la := lookahead_bits in
  if 3 * 9 <=? la then
    let* yaw := rotation_part in
    let* pitch := rotation_part in
    let* roll := rotation_part in
    ret (mkRot yaw pitch roll)
  else
    let* yaw := if_get B (read_i8 B) in
    let* pitch := if_get B (read_i8 B) in
    let* roll := if_get B (read_i8 B) in
    ret (mkRot yaw pitch roll).

(** network/models.rs:351-376 *)
Definition trajectory_from_spawn (sp : spawn_trajectory) (net_version : Z) : rd unit trajectory :=
  match sp with
  | SpNone => ret (mkTraj None None)
  | SpLocation =>
      fmap (fun v => mkTraj (Some v) None) (vector3i_decode net_version)
  | SpLocationAndRotation =>
      let* v := vector3i_decode net_version in
      let* r := rotation_decode in
      ret (mkTraj (Some v) (Some r))
  end.

End NetModels.

(** network/models.rs:385 *)
Definition world_prefix : str := lit "TheWorld:PersistentLevel.".

(** network/models.rs:384-414 *)
Definition normalize_object (name : str) : str :=
  if lenZ name <=? lenZ (lit "TheWorld:PersistentLevel.CrowdActor_TA") then name
  else
    let stripped :=
      match strip_prefix world_prefix name with
      | Some r => Some r
      | None =>
          match after_first "."%byte name with
          | Some suffix => strip_prefix world_prefix suffix
          | None => None
          end
      end in
    match stripped with
    | None => name
    | Some r =>
        if starts_with (lit "CrowdActor_TA") r
        then lit "TheWorld:PersistentLevel.CrowdActor_TA"
        else if starts_with (lit "CrowdManager_TA") r
        then lit "TheWorld:PersistentLevel.CrowdManager_TA"
        else if starts_with (lit "VehiclePickup_Boost_TA") r
        then lit "TheWorld:PersistentLevel.VehiclePickup_Boost_TA"
        else if starts_with (lit "InMapScoreboard_TA") r
        then lit "TheWorld:PersistentLevel.InMapScoreboard_TA"
        else if starts_with (lit "BreakOutActor_Platform_TA") r
        then lit "TheWorld:PersistentLevel.BreakOutActor_Platform_TA"
        else if starts_with (lit "PlayerStart_Platform_TA") r
        then lit "TheWorld:PersistentLevel.PlayerStart_Platform_TA"
        else name
    end.
