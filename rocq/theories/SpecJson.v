(** * Specification: values of the Rust types of the network data

    Generated by /verif/tools/gen_json.py from the type declarations of
    /repo/src/network.  [typed_x v]: the integers in [v] are within their Rust
    types.  [floats_x v]: all [f32] in [v]. *)

From Coq Require Import ZArith List.
From Verif Require Import Base F32 NetTypes SpecBasic SpecFacts.
Open Scope Z_scope.

Definition is_u8 (x : Z) : Prop := 0 <= x < 2 ^ 8.
Definition is_u16 (x : Z) : Prop := 0 <= x < 2 ^ 16.
Definition is_u32 (x : Z) : Prop := 0 <= x < 2 ^ 32.
Definition is_u64 (x : Z) : Prop := 0 <= x < 2 ^ 64.
Definition is_i8 (x : Z) : Prop := - 2 ^ 7 <= x < 2 ^ 7.
Definition is_i64 (x : Z) : Prop := - 2 ^ 63 <= x < 2 ^ 63.
Definition all_opt {A} (P : A -> Prop) (o : option A) : Prop := match o with Some x => P x | None => True end.
Definition all_vec {A} (P : A -> Prop) (l : list A) : Prop := Forall P l.

(** neither infinite nor not a number *)
Definition finite (x : f32) : Prop := f32_scaled x <> None.
Definition one_float (x : f32) : list f32 := [x].
Definition opt_floats {A} (f : A -> list f32) (o : option A) : list f32 :=
  match o with Some x => f x | None => [] end.
Definition vec_floats {A} (f : A -> list f32) (l : list A) : list f32 := flat_map f l.

Definition floats_vector3f (v : vector3f) : list f32 :=
  match v with
  | mkV3f fv0 fv1 fv2 => one_float fv0 ++ one_float fv1 ++ one_float fv2
  end.

Definition typed_vector3i (v : vector3i) : Prop :=
  match v with
  | mkV3i fv0 fv1 fv2 => is_i32 fv0 /\ is_i32 fv1 /\ is_i32 fv2
  end.

Definition floats_quaternion (v : quaternion) : list f32 :=
  match v with
  | mkQuat fv0 fv1 fv2 fv3 => one_float fv0 ++ one_float fv1 ++ one_float fv2 ++ one_float fv3
  end.

Definition typed_rotation (v : rotation) : Prop :=
  match v with
  | mkRot fv0 fv1 fv2 => all_opt is_i8 fv0 /\ all_opt is_i8 fv1 /\ all_opt is_i8 fv2
  end.

Definition typed_trajectory (v : trajectory) : Prop :=
  match v with
  | mkTraj fv0 fv1 => all_opt typed_vector3i fv0 /\ all_opt typed_rotation fv1
  end.

Definition typed_new_actor (v : new_actor) : Prop :=
  match v with
  | mkNew fv0 fv1 fv2 fv3 => is_i32 fv0 /\ all_opt is_i32 fv1 /\ is_i32 fv2 /\ typed_trajectory fv3
  end.

Definition typed_active_actor (v : active_actor) : Prop :=
  match v with
  | mkActive _ fv1 => is_i32 fv1
  end.

Definition floats_cam_settings (v : cam_settings) : list f32 :=
  match v with
  | mkCam fv0 fv1 fv2 fv3 fv4 fv5 fv6 => one_float fv0 ++ one_float fv1 ++ one_float fv2 ++ one_float fv3 ++ one_float fv4 ++ one_float fv5 ++ opt_floats one_float fv6
  end.

Definition typed_club_colors (v : club_colors) : Prop :=
  match v with
  | mkClub _ fv1 _ fv3 => is_u8 fv1 /\ is_u8 fv3
  end.

Definition typed_applied_damage (v : applied_damage) : Prop :=
  match v with
  | mkApplied fv0 _ fv2 fv3 => is_u8 fv0 /\ is_i32 fv2 /\ is_i32 fv3
  end.
Definition floats_applied_damage (v : applied_damage) : list f32 :=
  match v with
  | mkApplied _ fv1 _ _ => floats_vector3f fv1
  end.

Definition typed_damage_state (v : damage_state) : Prop :=
  match v with
  | mkDamage fv0 _ fv2 _ _ _ => is_u8 fv0 /\ is_i32 fv2
  end.
Definition floats_damage_state (v : damage_state) : list f32 :=
  match v with
  | mkDamage _ _ _ fv3 _ _ => floats_vector3f fv3
  end.

Definition typed_demolish (v : demolish) : Prop :=
  match v with
  | mkDemolish _ fv1 _ fv3 _ _ => is_i32 fv1 /\ is_i32 fv3
  end.
Definition floats_demolish (v : demolish) : list f32 :=
  match v with
  | mkDemolish _ _ _ _ fv4 fv5 => floats_vector3f fv4 ++ floats_vector3f fv5
  end.

Definition typed_demolish_extended (v : demolish_extended) : Prop :=
  match v with
  | mkDemolishExt fv0 fv1 _ fv3 fv4 fv5 _ _ => typed_active_actor fv0 /\ typed_active_actor fv1 /\ typed_active_actor fv3 /\ typed_active_actor fv4 /\ typed_active_actor fv5
  end.
Definition floats_demolish_extended (v : demolish_extended) : list f32 :=
  match v with
  | mkDemolishExt _ _ _ _ _ _ fv6 fv7 => floats_vector3f fv6 ++ floats_vector3f fv7
  end.

Definition typed_demolish_fx (v : demolish_fx) : Prop :=
  match v with
  | mkDemolishFx _ fv1 _ fv3 _ fv5 _ _ => is_i32 fv1 /\ is_i32 fv3 /\ is_i32 fv5
  end.
Definition floats_demolish_fx (v : demolish_fx) : list f32 :=
  match v with
  | mkDemolishFx _ _ _ _ _ _ fv6 fv7 => floats_vector3f fv6 ++ floats_vector3f fv7
  end.

Definition typed_explosion (v : explosion) : Prop :=
  match v with
  | mkExplosion _ fv1 _ => is_i32 fv1
  end.
Definition floats_explosion (v : explosion) : list f32 :=
  match v with
  | mkExplosion _ _ fv2 => floats_vector3f fv2
  end.

Definition typed_extended_explosion (v : extended_explosion) : Prop :=
  match v with
  | mkExtExplosion fv0 _ fv2 => typed_explosion fv0 /\ is_i32 fv2
  end.
Definition floats_extended_explosion (v : extended_explosion) : list f32 :=
  match v with
  | mkExtExplosion fv0 _ _ => floats_explosion fv0
  end.

Definition typed_loadout (v : loadout) : Prop :=
  match v with
  | mkLoadout fv0 fv1 fv2 fv3 fv4 fv5 fv6 fv7 fv8 fv9 fv10 fv11 fv12 fv13 => is_u8 fv0 /\ is_u32 fv1 /\ is_u32 fv2 /\ is_u32 fv3 /\ is_u32 fv4 /\ is_u32 fv5 /\ is_u32 fv6 /\ is_u32 fv7 /\ all_opt is_u32 fv8 /\ all_opt is_u32 fv9 /\ all_opt is_u32 fv10 /\ all_opt is_u32 fv11 /\ all_opt is_u32 fv12 /\ all_opt is_u32 fv13
  end.

Definition typed_team_loadout (v : team_loadout) : Prop :=
  match v with
  | mkTeamLoadout fv0 fv1 => typed_loadout fv0 /\ typed_loadout fv1
  end.

Definition typed_stat_event (v : stat_event) : Prop :=
  match v with
  | mkStat _ fv1 => is_i32 fv1
  end.

Definition typed_music_stinger (v : music_stinger) : Prop :=
  match v with
  | mkStinger _ fv1 fv2 => is_u32 fv1 /\ is_u8 fv2
  end.

Definition typed_pickup (v : pickup) : Prop :=
  match v with
  | mkPickup fv0 _ => all_opt is_i32 fv0
  end.

Definition typed_pickup_new (v : pickup_new) : Prop :=
  match v with
  | mkPickupNew fv0 fv1 => all_opt is_i32 fv0 /\ is_u8 fv1
  end.

Definition typed_welded (v : welded) : Prop :=
  match v with
  | mkWelded _ fv1 _ _ fv4 => is_i32 fv1 /\ typed_rotation fv4
  end.
Definition floats_welded (v : welded) : list f32 :=
  match v with
  | mkWelded _ _ fv2 fv3 _ => floats_vector3f fv2 ++ one_float fv3
  end.

Definition typed_team_paint (v : team_paint) : Prop :=
  match v with
  | mkTeamPaint fv0 fv1 fv2 fv3 fv4 => is_u8 fv0 /\ is_u8 fv1 /\ is_u8 fv2 /\ is_u32 fv3 /\ is_u32 fv4
  end.

Definition floats_rigid_body (v : rigid_body) : list f32 :=
  match v with
  | mkRigid _ fv1 fv2 fv3 fv4 => floats_vector3f fv1 ++ floats_quaternion fv2 ++ opt_floats floats_vector3f fv3 ++ opt_floats floats_vector3f fv4
  end.

Definition typed_remote_id (v : remote_id) : Prop :=
  match v with
  | RPlayStation fv0 _ _ => is_u64 fv0
  | RPsyNet fv0 _ => is_u64 fv0
  | RSplitScreen x => is_u32 x
  | RSteam x => is_u64 x
  | RSwitch fv0 _ => is_u64 fv0
  | RXbox x => is_u64 x
  | RQQ x => is_u64 x
  | REpic _ => True
  end.

Definition typed_unique_id (v : unique_id) : Prop :=
  match v with
  | mkUniqueId fv0 fv1 fv2 => is_u8 fv0 /\ typed_remote_id fv1 /\ is_u8 fv2
  end.

Definition typed_reservation (v : reservation) : Prop :=
  match v with
  | mkReservation fv0 fv1 _ _ _ fv5 => is_u32 fv0 /\ typed_unique_id fv1 /\ all_opt is_u8 fv5
  end.

Definition typed_private_match (v : private_match) : Prop :=
  match v with
  | mkPrivateMatch _ fv1 fv2 _ _ _ => is_u32 fv1 /\ is_u32 fv2
  end.

Definition typed_product_value (v : product_value) : Prop :=
  match v with
  | PVNoColor => True
  | PVAbsent => True
  | PVOldColor x => is_u32 x
  | PVNewColor x => is_u32 x
  | PVOldPaint x => is_u32 x
  | PVNewPaint x => is_u32 x
  | PVTitle _ => True
  | PVSpecialEdition x => is_u32 x
  | PVOldTeamEdition x => is_u32 x
  | PVNewTeamEdition x => is_u32 x
  end.

Definition typed_product (v : product) : Prop :=
  match v with
  | mkProduct _ fv1 fv2 => is_i32 fv1 /\ typed_product_value fv2
  end.

Definition typed_loadouts_online (v : loadouts_online) : Prop :=
  match v with
  | mkLoadoutsOnline fv0 fv1 _ _ => all_vec (all_vec typed_product) fv0 /\ all_vec (all_vec typed_product) fv1
  end.

Definition typed_rep_stat_title (v : rep_stat_title) : Prop :=
  match v with
  | mkRepStat _ _ _ fv3 fv4 => is_u32 fv3 /\ is_u32 fv4
  end.

Definition typed_pickup_info (v : pickup_info) : Prop :=
  match v with
  | mkPickupInfo fv0_0 fv0_1 fv0_2 _ => typed_active_actor fv0_0 /\ typed_active_actor fv0_1 /\ typed_active_actor fv0_2
  end.

Definition typed_impulse (v : impulse) : Prop :=
  match v with
  | mkImpulse fv0 _ => is_i32 fv0
  end.
Definition floats_impulse (v : impulse) : list f32 :=
  match v with
  | mkImpulse _ fv1 => one_float fv1
  end.

Definition typed_replicated_boost (v : replicated_boost) : Prop :=
  match v with
  | mkBoost fv0 fv1 fv2 fv3 => is_u8 fv0 /\ is_u8 fv1 /\ is_u8 fv2 /\ is_u8 fv3
  end.

Definition typed_logo_data (v : logo_data) : Prop :=
  match v with
  | mkLogo fv0 _ => is_u32 fv0
  end.

Definition typed_attribute (v : attribute) : Prop :=
  match v with
  | ABoolean _ => True
  | AByte x => is_u8 x
  | AAppliedDamage x => typed_applied_damage x
  | ADamageState x => typed_damage_state x
  | ACamSettings _ => True
  | AClubColors x => typed_club_colors x
  | ADemolish x => typed_demolish x
  | ADemolishExtended x => typed_demolish_extended x
  | ADemolishFx x => typed_demolish_fx x
  | AEnum x => is_u16 x
  | AExplosion x => typed_explosion x
  | AExtendedExplosion x => typed_extended_explosion x
  | AFlaggedByte _ fv1 => is_u8 fv1
  | AActiveActor x => typed_active_actor x
  | AFloat _ => True
  | AGameMode fv0 fv1 => is_u8 fv0 /\ is_u8 fv1
  | AInt x => is_i32 x
  | AInt64 x => is_i64 x
  | ALoadout x => typed_loadout x
  | ATeamLoadout x => typed_team_loadout x
  | ALocation _ => True
  | AMusicStinger x => typed_music_stinger x
  | APlayerHistoryKey x => is_u16 x
  | APickup x => typed_pickup x
  | APickupNew x => typed_pickup_new x
  | AQWord x => is_u64 x
  | AWelded x => typed_welded x
  | ATitle _ _ fv2 fv3 fv4 fv5 fv6 _ => is_u32 fv2 /\ is_u32 fv3 /\ is_u32 fv4 /\ is_u32 fv5 /\ is_u32 fv6
  | ATeamPaint x => typed_team_paint x
  | ARigidBody _ => True
  | AString _ => True
  | AUniqueId x => typed_unique_id x
  | AReservation x => typed_reservation x
  | APartyLeader x => all_opt typed_unique_id x
  | APrivateMatch x => typed_private_match x
  | ALoadoutOnline x => all_vec (all_vec typed_product) x
  | ALoadoutsOnline x => typed_loadouts_online x
  | AStatEvent x => typed_stat_event x
  | ARotation x => typed_rotation x
  | ARepStatTitle x => typed_rep_stat_title x
  | APickupInfo x => typed_pickup_info x
  | AImpulse x => typed_impulse x
  | AReplicatedBoost x => typed_replicated_boost x
  | ALogoData x => typed_logo_data x
  end.
Definition floats_attribute (v : attribute) : list f32 :=
  match v with
  | ABoolean _ => []
  | AByte _ => []
  | AAppliedDamage x => floats_applied_damage x
  | ADamageState x => floats_damage_state x
  | ACamSettings x => floats_cam_settings x
  | AClubColors _ => []
  | ADemolish x => floats_demolish x
  | ADemolishExtended x => floats_demolish_extended x
  | ADemolishFx x => floats_demolish_fx x
  | AEnum _ => []
  | AExplosion x => floats_explosion x
  | AExtendedExplosion x => floats_extended_explosion x
  | AFlaggedByte _ _ => []
  | AActiveActor _ => []
  | AFloat x => one_float x
  | AGameMode _ _ => []
  | AInt _ => []
  | AInt64 _ => []
  | ALoadout _ => []
  | ATeamLoadout _ => []
  | ALocation x => floats_vector3f x
  | AMusicStinger _ => []
  | APlayerHistoryKey _ => []
  | APickup _ => []
  | APickupNew _ => []
  | AQWord _ => []
  | AWelded x => floats_welded x
  | ATitle _ _ _ _ _ _ _ _ => []
  | ATeamPaint _ => []
  | ARigidBody x => floats_rigid_body x
  | AString _ => []
  | AUniqueId _ => []
  | AReservation _ => []
  | APartyLeader _ => []
  | APrivateMatch _ => []
  | ALoadoutOnline _ => []
  | ALoadoutsOnline _ => []
  | AStatEvent _ => []
  | ARotation _ => []
  | ARepStatTitle _ => []
  | APickupInfo _ => []
  | AImpulse x => floats_impulse x
  | AReplicatedBoost _ => []
  | ALogoData _ => []
  end.

Definition typed_updated_attribute (v : updated_attribute) : Prop :=
  match v with
  | mkUpdated fv0 fv1 fv2 fv3 => is_i32 fv0 /\ is_i32 fv1 /\ is_i32 fv2 /\ typed_attribute fv3
  end.
Definition floats_updated_attribute (v : updated_attribute) : list f32 :=
  match v with
  | mkUpdated _ _ _ fv3 => floats_attribute fv3
  end.

Definition typed_frame (v : frame) : Prop :=
  match v with
  | mkFrame _ _ fv2 fv3 fv4 => all_vec typed_new_actor fv2 /\ all_vec is_i32 fv3 /\ all_vec typed_updated_attribute fv4
  end.
Definition floats_frame (v : frame) : list f32 :=
  match v with
  | mkFrame fv0 fv1 _ _ fv4 => one_float fv0 ++ one_float fv1 ++ vec_floats floats_updated_attribute fv4
  end.
