(** * Specification: network values in which all that is not a number is the same,
    and the texts of network values

    Generated by /verif/tools/gen_debug.py from the type declarations of
    /repo/src/network.  [one_nan_x v]: [v] with all NaN replaced by one of them.
    [texts_x v]: all texts in [v]. *)

From Coq Require Import ZArith List.
From Verif Require Import Base F32 NetTypes SpecBasic.
Open Scope Z_scope.

(** exponent 255 and a fraction that is not zero *)
Definition one_nan (x : f32) : f32 := if 0x7f800000 <? x mod 2 ^ 31 then 0x7fc00000 else x.
Definition one_text (s : str) : list str := [s].
Definition opt_texts {A} (f : A -> list str) (o : option A) : list str := match o with Some x => f x | None => [] end.
Definition vec_texts {A} (f : A -> list str) (l : list A) : list str := flat_map f l.

Definition one_nan_vector3f (v : vector3f) : vector3f :=
  match v with
  | mkV3f a0 a1 a2 => mkV3f (one_nan a0) (one_nan a1) (one_nan a2)
  end.

Definition one_nan_quaternion (v : quaternion) : quaternion :=
  match v with
  | mkQuat a0 a1 a2 a3 => mkQuat (one_nan a0) (one_nan a1) (one_nan a2) (one_nan a3)
  end.

Definition one_nan_cam_settings (v : cam_settings) : cam_settings :=
  match v with
  | mkCam a0 a1 a2 a3 a4 a5 a6 => mkCam (one_nan a0) (one_nan a1) (one_nan a2) (one_nan a3) (one_nan a4) (one_nan a5) ((option_map one_nan) a6)
  end.

Definition one_nan_applied_damage (v : applied_damage) : applied_damage :=
  match v with
  | mkApplied a0 a1 a2 a3 => mkApplied a0 (one_nan_vector3f a1) a2 a3
  end.

Definition one_nan_damage_state (v : damage_state) : damage_state :=
  match v with
  | mkDamage a0 a1 a2 a3 a4 a5 => mkDamage a0 a1 a2 (one_nan_vector3f a3) a4 a5
  end.

Definition one_nan_demolish (v : demolish) : demolish :=
  match v with
  | mkDemolish a0 a1 a2 a3 a4 a5 => mkDemolish a0 a1 a2 a3 (one_nan_vector3f a4) (one_nan_vector3f a5)
  end.

Definition one_nan_demolish_extended (v : demolish_extended) : demolish_extended :=
  match v with
  | mkDemolishExt a0 a1 a2 a3 a4 a5 a6 a7 => mkDemolishExt a0 a1 a2 a3 a4 a5 (one_nan_vector3f a6) (one_nan_vector3f a7)
  end.

Definition one_nan_demolish_fx (v : demolish_fx) : demolish_fx :=
  match v with
  | mkDemolishFx a0 a1 a2 a3 a4 a5 a6 a7 => mkDemolishFx a0 a1 a2 a3 a4 a5 (one_nan_vector3f a6) (one_nan_vector3f a7)
  end.

Definition one_nan_explosion (v : explosion) : explosion :=
  match v with
  | mkExplosion a0 a1 a2 => mkExplosion a0 a1 (one_nan_vector3f a2)
  end.

Definition one_nan_extended_explosion (v : extended_explosion) : extended_explosion :=
  match v with
  | mkExtExplosion a0 a1 a2 => mkExtExplosion (one_nan_explosion a0) a1 a2
  end.

Definition one_nan_welded (v : welded) : welded :=
  match v with
  | mkWelded a0 a1 a2 a3 a4 => mkWelded a0 a1 (one_nan_vector3f a2) (one_nan a3) a4
  end.

Definition one_nan_rigid_body (v : rigid_body) : rigid_body :=
  match v with
  | mkRigid a0 a1 a2 a3 a4 => mkRigid a0 (one_nan_vector3f a1) (one_nan_quaternion a2) ((option_map one_nan_vector3f) a3) ((option_map one_nan_vector3f) a4)
  end.

Definition texts_remote_id (v : remote_id) : list str :=
  match v with
  | RPlayStation _ a1 _ => one_text a1
  | REpic a0 => one_text a0
  | _ => []
  end.

Definition texts_unique_id (v : unique_id) : list str :=
  match v with
  | mkUniqueId _ a1 _ => texts_remote_id a1
  end.

Definition texts_reservation (v : reservation) : list str :=
  match v with
  | mkReservation _ a1 a2 _ _ _ => texts_unique_id a1 ++ (opt_texts one_text) a2
  end.

Definition texts_private_match (v : private_match) : list str :=
  match v with
  | mkPrivateMatch a0 _ _ a3 a4 _ => one_text a0 ++ one_text a3 ++ one_text a4
  end.

Definition texts_product_value (v : product_value) : list str :=
  match v with
  | PVTitle a0 => one_text a0
  | _ => []
  end.

Definition texts_product (v : product) : list str :=
  match v with
  | mkProduct _ _ a2 => texts_product_value a2
  end.

Definition texts_loadouts_online (v : loadouts_online) : list str :=
  match v with
  | mkLoadoutsOnline a0 a1 _ _ => (vec_texts (vec_texts texts_product)) a0 ++ (vec_texts (vec_texts texts_product)) a1
  end.

Definition texts_rep_stat_title (v : rep_stat_title) : list str :=
  match v with
  | mkRepStat _ a1 _ _ _ => one_text a1
  end.

Definition one_nan_impulse (v : impulse) : impulse :=
  match v with
  | mkImpulse a0 a1 => mkImpulse a0 (one_nan a1)
  end.

Definition one_nan_attribute (v : attribute) : attribute :=
  match v with
  | AAppliedDamage a0 => AAppliedDamage (one_nan_applied_damage a0)
  | ADamageState a0 => ADamageState (one_nan_damage_state a0)
  | ACamSettings a0 => ACamSettings (one_nan_cam_settings a0)
  | ADemolish a0 => ADemolish (one_nan_demolish a0)
  | ADemolishExtended a0 => ADemolishExtended (one_nan_demolish_extended a0)
  | ADemolishFx a0 => ADemolishFx (one_nan_demolish_fx a0)
  | AExplosion a0 => AExplosion (one_nan_explosion a0)
  | AExtendedExplosion a0 => AExtendedExplosion (one_nan_extended_explosion a0)
  | AFloat a0 => AFloat (one_nan a0)
  | ALocation a0 => ALocation (one_nan_vector3f a0)
  | AWelded a0 => AWelded (one_nan_welded a0)
  | ARigidBody a0 => ARigidBody (one_nan_rigid_body a0)
  | AImpulse a0 => AImpulse (one_nan_impulse a0)
  | _ => v
  end.

Definition texts_attribute (v : attribute) : list str :=
  match v with
  | AString a0 => one_text a0
  | AUniqueId a0 => texts_unique_id a0
  | AReservation a0 => texts_reservation a0
  | APartyLeader a0 => (opt_texts texts_unique_id) a0
  | APrivateMatch a0 => texts_private_match a0
  | ALoadoutOnline a0 => (vec_texts (vec_texts texts_product)) a0
  | ALoadoutsOnline a0 => texts_loadouts_online a0
  | ARepStatTitle a0 => texts_rep_stat_title a0
  | _ => []
  end.

Definition one_nan_updated_attribute (v : updated_attribute) : updated_attribute :=
  match v with
  | mkUpdated a0 a1 a2 a3 => mkUpdated a0 a1 a2 (one_nan_attribute a3)
  end.

Definition texts_updated_attribute (v : updated_attribute) : list str :=
  match v with
  | mkUpdated _ _ _ a3 => texts_attribute a3
  end.

Definition one_nan_frame (v : frame) : frame :=
  match v with
  | mkFrame a0 a1 a2 a3 a4 => mkFrame (one_nan a0) (one_nan a1) a2 a3 ((map one_nan_updated_attribute) a4)
  end.

Definition texts_frame (v : frame) : list str :=
  match v with
  | mkFrame _ _ _ _ a4 => (vec_texts texts_updated_attribute) a4
  end.
