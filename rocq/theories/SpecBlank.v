(** * Specification: network values without their floats

    Generated by /verif/tools/gen_eq.py from the type declarations of
    /repo/src/network.  [blank_x v]: [v] with all [f32] replaced by one. *)

From Coq Require Import ZArith List.
From Verif Require Import Base F32 NetTypes SpecBasic.
Open Scope Z_scope.

Definition blank_f32 (x : f32) : f32 := 0.

Definition blank_vector3f (v : vector3f) : vector3f :=
  match v with
  | mkV3f a0 a1 a2 => mkV3f (blank_f32 a0) (blank_f32 a1) (blank_f32 a2)
  end.

Definition blank_quaternion (v : quaternion) : quaternion :=
  match v with
  | mkQuat a0 a1 a2 a3 => mkQuat (blank_f32 a0) (blank_f32 a1) (blank_f32 a2) (blank_f32 a3)
  end.

Definition blank_cam_settings (v : cam_settings) : cam_settings :=
  match v with
  | mkCam a0 a1 a2 a3 a4 a5 a6 => mkCam (blank_f32 a0) (blank_f32 a1) (blank_f32 a2) (blank_f32 a3) (blank_f32 a4) (blank_f32 a5) ((option_map blank_f32) a6)
  end.

Definition blank_applied_damage (v : applied_damage) : applied_damage :=
  match v with
  | mkApplied a0 a1 a2 a3 => mkApplied a0 (blank_vector3f a1) a2 a3
  end.

Definition blank_damage_state (v : damage_state) : damage_state :=
  match v with
  | mkDamage a0 a1 a2 a3 a4 a5 => mkDamage a0 a1 a2 (blank_vector3f a3) a4 a5
  end.

Definition blank_demolish (v : demolish) : demolish :=
  match v with
  | mkDemolish a0 a1 a2 a3 a4 a5 => mkDemolish a0 a1 a2 a3 (blank_vector3f a4) (blank_vector3f a5)
  end.

Definition blank_demolish_extended (v : demolish_extended) : demolish_extended :=
  match v with
  | mkDemolishExt a0 a1 a2 a3 a4 a5 a6 a7 => mkDemolishExt a0 a1 a2 a3 a4 a5 (blank_vector3f a6) (blank_vector3f a7)
  end.

Definition blank_demolish_fx (v : demolish_fx) : demolish_fx :=
  match v with
  | mkDemolishFx a0 a1 a2 a3 a4 a5 a6 a7 => mkDemolishFx a0 a1 a2 a3 a4 a5 (blank_vector3f a6) (blank_vector3f a7)
  end.

Definition blank_explosion (v : explosion) : explosion :=
  match v with
  | mkExplosion a0 a1 a2 => mkExplosion a0 a1 (blank_vector3f a2)
  end.

Definition blank_extended_explosion (v : extended_explosion) : extended_explosion :=
  match v with
  | mkExtExplosion a0 a1 a2 => mkExtExplosion (blank_explosion a0) a1 a2
  end.

Definition blank_welded (v : welded) : welded :=
  match v with
  | mkWelded a0 a1 a2 a3 a4 => mkWelded a0 a1 (blank_vector3f a2) (blank_f32 a3) a4
  end.

Definition blank_rigid_body (v : rigid_body) : rigid_body :=
  match v with
  | mkRigid a0 a1 a2 a3 a4 => mkRigid a0 (blank_vector3f a1) (blank_quaternion a2) ((option_map blank_vector3f) a3) ((option_map blank_vector3f) a4)
  end.

Definition blank_impulse (v : impulse) : impulse :=
  match v with
  | mkImpulse a0 a1 => mkImpulse a0 (blank_f32 a1)
  end.

Definition blank_attribute (v : attribute) : attribute :=
  match v with
  | AAppliedDamage a0 => AAppliedDamage (blank_applied_damage a0)
  | ADamageState a0 => ADamageState (blank_damage_state a0)
  | ACamSettings a0 => ACamSettings (blank_cam_settings a0)
  | ADemolish a0 => ADemolish (blank_demolish a0)
  | ADemolishExtended a0 => ADemolishExtended (blank_demolish_extended a0)
  | ADemolishFx a0 => ADemolishFx (blank_demolish_fx a0)
  | AExplosion a0 => AExplosion (blank_explosion a0)
  | AExtendedExplosion a0 => AExtendedExplosion (blank_extended_explosion a0)
  | AFloat a0 => AFloat (blank_f32 a0)
  | ALocation a0 => ALocation (blank_vector3f a0)
  | AWelded a0 => AWelded (blank_welded a0)
  | ARigidBody a0 => ARigidBody (blank_rigid_body a0)
  | AImpulse a0 => AImpulse (blank_impulse a0)
  | _ => v
  end.

Definition blank_updated_attribute (v : updated_attribute) : updated_attribute :=
  match v with
  | mkUpdated a0 a1 a2 a3 => mkUpdated a0 a1 a2 (blank_attribute a3)
  end.

Definition blank_frame (v : frame) : frame :=
  match v with
  | mkFrame a0 a1 a2 a3 a4 => mkFrame (blank_f32 a0) (blank_f32 a1) a2 a3 ((map blank_updated_attribute) a4)
  end.
