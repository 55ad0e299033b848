(** * Comparison of the network types

    Generated by /verif/tools/gen_eq.py from the type declarations of
    /repo/src/network: for every type the comparison that
    [#[derive(PartialEq)]] produces. *)

From Coq Require Import ZArith List Bool.
From Verif Require Import Base F32 Text NetTypes.

(** [Option] of compared values. e.g. network/models.rs:344-347 *)
Definition eq_opt {A} (e : A -> A -> bool) (x y : option A) : bool :=
  match x, y with Some a, Some b => e a b | None, None => true | _, _ => false end.
(** [Vec] of compared values. e.g. network/models.rs:236-252 *)
Section EqVec.
Context {A : Type} (e : A -> A -> bool).
(** e.g. network/models.rs:236-252 *)
Fixpoint eq_vec (l m : list A) : bool :=
  match l, m with [], [] => true | a :: l', b :: m' => e a b && eq_vec l' m' | _, _ => false end.
End EqVec.

(** network/models.rs:6-10 *)
Definition eq_vector3f (v w : vector3f) : bool :=
  match v, w with
  | mkV3f a0 a1 a2, mkV3f b0 b1 b2 => f32_eq a0 b0 && f32_eq a1 b1 && f32_eq a2 b2
  end.

(** network/models.rs:25-29 *)
Definition eq_vector3i (v w : vector3i) : bool :=
  match v, w with
  | mkV3i a0 a1 a2, mkV3i b0 b1 b2 => Z.eqb a0 b0 && Z.eqb a1 b1 && Z.eqb a2 b2
  end.

(** network/models.rs:89-94 *)
Definition eq_quaternion (v w : quaternion) : bool :=
  match v, w with
  | mkQuat a0 a1 a2 a3, mkQuat b0 b1 b2 b3 => f32_eq a0 b0 && f32_eq a1 b1 && f32_eq a2 b2 && f32_eq a3 b3
  end.

(** network/models.rs:179-183 *)
Definition eq_rotation (v w : rotation) : bool :=
  match v, w with
  | mkRot a0 a1 a2, mkRot b0 b1 b2 => (eq_opt Z.eqb) a0 b0 && (eq_opt Z.eqb) a1 b1 && (eq_opt Z.eqb) a2 b2
  end.

(** network/models.rs:345-348 *)
Definition eq_trajectory (v w : trajectory) : bool :=
  match v, w with
  | mkTraj a0 a1, mkTraj b0 b1 => (eq_opt eq_vector3i) a0 b0 && (eq_opt eq_rotation) a1 b1
  end.

(** network/models.rs:329-341 *)
Definition eq_new_actor (v w : new_actor) : bool :=
  match v, w with
  | mkNew a0 a1 a2 a3, mkNew b0 b1 b2 b3 => Z.eqb a0 b0 && (eq_opt Z.eqb) a1 b1 && Z.eqb a2 b2 && eq_trajectory a3 b3
  end.

(** network/attributes.rs:123-126 *)
Definition eq_active_actor (v w : active_actor) : bool :=
  match v, w with
  | mkActive a0 a1, mkActive b0 b1 => Bool.eqb a0 b0 && Z.eqb a1 b1
  end.

(** network/attributes.rs:129-137 *)
Definition eq_cam_settings (v w : cam_settings) : bool :=
  match v, w with
  | mkCam a0 a1 a2 a3 a4 a5 a6, mkCam b0 b1 b2 b3 b4 b5 b6 => f32_eq a0 b0 && f32_eq a1 b1 && f32_eq a2 b2 && f32_eq a3 b3 && f32_eq a4 b4 && f32_eq a5 b5 && (eq_opt f32_eq) a6 b6
  end.

(** network/attributes.rs:140-145 *)
Definition eq_club_colors (v w : club_colors) : bool :=
  match v, w with
  | mkClub a0 a1 a2 a3, mkClub b0 b1 b2 b3 => Bool.eqb a0 b0 && Z.eqb a1 b1 && Bool.eqb a2 b2 && Z.eqb a3 b3
  end.

(** network/attributes.rs:148-153 *)
Definition eq_applied_damage (v w : applied_damage) : bool :=
  match v, w with
  | mkApplied a0 a1 a2 a3, mkApplied b0 b1 b2 b3 => Z.eqb a0 b0 && eq_vector3f a1 b1 && Z.eqb a2 b2 && Z.eqb a3 b3
  end.

(** network/attributes.rs:156-172 *)
Definition eq_damage_state (v w : damage_state) : bool :=
  match v, w with
  | mkDamage a0 a1 a2 a3 a4 a5, mkDamage b0 b1 b2 b3 b4 b5 => Z.eqb a0 b0 && Bool.eqb a1 b1 && Z.eqb a2 b2 && eq_vector3f a3 b3 && Bool.eqb a4 b4 && Bool.eqb a5 b5
  end.

(** network/attributes.rs:175-182 *)
Definition eq_demolish (v w : demolish) : bool :=
  match v, w with
  | mkDemolish a0 a1 a2 a3 a4 a5, mkDemolish b0 b1 b2 b3 b4 b5 => Bool.eqb a0 b0 && Z.eqb a1 b1 && Bool.eqb a2 b2 && Z.eqb a3 b3 && eq_vector3f a4 b4 && eq_vector3f a5 b5
  end.

(** network/attributes.rs:185-194 *)
Definition eq_demolish_extended (v w : demolish_extended) : bool :=
  match v, w with
  | mkDemolishExt a0 a1 a2 a3 a4 a5 a6 a7, mkDemolishExt b0 b1 b2 b3 b4 b5 b6 b7 => eq_active_actor a0 b0 && eq_active_actor a1 b1 && Bool.eqb a2 b2 && eq_active_actor a3 b3 && eq_active_actor a4 b4 && eq_active_actor a5 b5 && eq_vector3f a6 b6 && eq_vector3f a7 b7
  end.

(** network/attributes.rs:197-206 *)
Definition eq_demolish_fx (v w : demolish_fx) : bool :=
  match v, w with
  | mkDemolishFx a0 a1 a2 a3 a4 a5 a6 a7, mkDemolishFx b0 b1 b2 b3 b4 b5 b6 b7 => Bool.eqb a0 b0 && Z.eqb a1 b1 && Bool.eqb a2 b2 && Z.eqb a3 b3 && Bool.eqb a4 b4 && Z.eqb a5 b5 && eq_vector3f a6 b6 && eq_vector3f a7 b7
  end.

(** network/attributes.rs:209-213 *)
Definition eq_explosion (v w : explosion) : bool :=
  match v, w with
  | mkExplosion a0 a1 a2, mkExplosion b0 b1 b2 => Bool.eqb a0 b0 && Z.eqb a1 b1 && eq_vector3f a2 b2
  end.

(** network/attributes.rs:216-220 *)
Definition eq_extended_explosion (v w : extended_explosion) : bool :=
  match v, w with
  | mkExtExplosion a0 a1 a2, mkExtExplosion b0 b1 b2 => eq_explosion a0 b0 && Bool.eqb a1 b1 && Z.eqb a2 b2
  end.

(** network/attributes.rs:223-238 *)
Definition eq_loadout (v w : loadout) : bool :=
  match v, w with
  | mkLoadout a0 a1 a2 a3 a4 a5 a6 a7 a8 a9 a10 a11 a12 a13, mkLoadout b0 b1 b2 b3 b4 b5 b6 b7 b8 b9 b10 b11 b12 b13 => Z.eqb a0 b0 && Z.eqb a1 b1 && Z.eqb a2 b2 && Z.eqb a3 b3 && Z.eqb a4 b4 && Z.eqb a5 b5 && Z.eqb a6 b6 && Z.eqb a7 b7 && (eq_opt Z.eqb) a8 b8 && (eq_opt Z.eqb) a9 b9 && (eq_opt Z.eqb) a10 b10 && (eq_opt Z.eqb) a11 b11 && (eq_opt Z.eqb) a12 b12 && (eq_opt Z.eqb) a13 b13
  end.

(** network/attributes.rs:241-244 *)
Definition eq_team_loadout (v w : team_loadout) : bool :=
  match v, w with
  | mkTeamLoadout a0 a1, mkTeamLoadout b0 b1 => eq_loadout a0 b0 && eq_loadout a1 b1
  end.

(** network/attributes.rs:247-250 *)
Definition eq_stat_event (v w : stat_event) : bool :=
  match v, w with
  | mkStat a0 a1, mkStat b0 b1 => Bool.eqb a0 b0 && Z.eqb a1 b1
  end.

(** network/attributes.rs:253-257 *)
Definition eq_music_stinger (v w : music_stinger) : bool :=
  match v, w with
  | mkStinger a0 a1 a2, mkStinger b0 b1 b2 => Bool.eqb a0 b0 && Z.eqb a1 b1 && Z.eqb a2 b2
  end.

(** network/attributes.rs:260-263 *)
Definition eq_pickup (v w : pickup) : bool :=
  match v, w with
  | mkPickup a0 a1, mkPickup b0 b1 => (eq_opt Z.eqb) a0 b0 && Bool.eqb a1 b1
  end.

(** network/attributes.rs:266-269 *)
Definition eq_pickup_new (v w : pickup_new) : bool :=
  match v, w with
  | mkPickupNew a0 a1, mkPickupNew b0 b1 => (eq_opt Z.eqb) a0 b0 && Z.eqb a1 b1
  end.

(** network/attributes.rs:272-278 *)
Definition eq_welded (v w : welded) : bool :=
  match v, w with
  | mkWelded a0 a1 a2 a3 a4, mkWelded b0 b1 b2 b3 b4 => Bool.eqb a0 b0 && Z.eqb a1 b1 && eq_vector3f a2 b2 && f32_eq a3 b3 && eq_rotation a4 b4
  end.

(** network/attributes.rs:281-287 *)
Definition eq_team_paint (v w : team_paint) : bool :=
  match v, w with
  | mkTeamPaint a0 a1 a2 a3 a4, mkTeamPaint b0 b1 b2 b3 b4 => Z.eqb a0 b0 && Z.eqb a1 b1 && Z.eqb a2 b2 && Z.eqb a3 b3 && Z.eqb a4 b4
  end.

(** network/attributes.rs:290-296 *)
Definition eq_rigid_body (v w : rigid_body) : bool :=
  match v, w with
  | mkRigid a0 a1 a2 a3 a4, mkRigid b0 b1 b2 b3 b4 => Bool.eqb a0 b0 && eq_vector3f a1 b1 && eq_quaternion a2 b2 && (eq_opt eq_vector3f) a3 b3 && (eq_opt eq_vector3f) a4 b4
  end.

(** network/attributes.rs:337-361 *)
Definition eq_remote_id (v w : remote_id) : bool :=
  match v, w with
  | RPlayStation a0 a1 a2, RPlayStation b0 b1 b2 => Z.eqb a0 b0 && str_eqb a1 b1 && str_eqb a2 b2
  | RPsyNet a0 a1, RPsyNet b0 b1 => Z.eqb a0 b0 && str_eqb a1 b1
  | RSplitScreen a0, RSplitScreen b0 => Z.eqb a0 b0
  | RSteam a0, RSteam b0 => Z.eqb a0 b0
  | RSwitch a0 a1, RSwitch b0 b1 => Z.eqb a0 b0 && str_eqb a1 b1
  | RXbox a0, RXbox b0 => Z.eqb a0 b0
  | RQQ a0, RQQ b0 => Z.eqb a0 b0
  | REpic a0, REpic b0 => str_eqb a0 b0
  | _, _ => false
  end.

(** network/attributes.rs:299-303 *)
Definition eq_unique_id (v w : unique_id) : bool :=
  match v, w with
  | mkUniqueId a0 a1 a2, mkUniqueId b0 b1 b2 => Z.eqb a0 b0 && eq_remote_id a1 b1 && Z.eqb a2 b2
  end.

(** network/attributes.rs:364-371 *)
Definition eq_reservation (v w : reservation) : bool :=
  match v, w with
  | mkReservation a0 a1 a2 a3 a4 a5, mkReservation b0 b1 b2 b3 b4 b5 => Z.eqb a0 b0 && eq_unique_id a1 b1 && (eq_opt str_eqb) a2 b2 && Bool.eqb a3 b3 && Bool.eqb a4 b4 && (eq_opt Z.eqb) a5 b5
  end.

(** network/attributes.rs:374-381 *)
Definition eq_private_match (v w : private_match) : bool :=
  match v, w with
  | mkPrivateMatch a0 a1 a2 a3 a4 a5, mkPrivateMatch b0 b1 b2 b3 b4 b5 => str_eqb a0 b0 && Z.eqb a1 b1 && Z.eqb a2 b2 && str_eqb a3 b3 && str_eqb a4 b4 && Bool.eqb a5 b5
  end.

(** network/attributes.rs:399-410 *)
Definition eq_product_value (v w : product_value) : bool :=
  match v, w with
  | PVNoColor, PVNoColor => true
  | PVAbsent, PVAbsent => true
  | PVOldColor a0, PVOldColor b0 => Z.eqb a0 b0
  | PVNewColor a0, PVNewColor b0 => Z.eqb a0 b0
  | PVOldPaint a0, PVOldPaint b0 => Z.eqb a0 b0
  | PVNewPaint a0, PVNewPaint b0 => Z.eqb a0 b0
  | PVTitle a0, PVTitle b0 => str_eqb a0 b0
  | PVSpecialEdition a0, PVSpecialEdition b0 => Z.eqb a0 b0
  | PVOldTeamEdition a0, PVOldTeamEdition b0 => Z.eqb a0 b0
  | PVNewTeamEdition a0, PVNewTeamEdition b0 => Z.eqb a0 b0
  | _, _ => false
  end.

(** network/attributes.rs:384-388 *)
Definition eq_product (v w : product) : bool :=
  match v, w with
  | mkProduct a0 a1 a2, mkProduct b0 b1 b2 => Bool.eqb a0 b0 && Z.eqb a1 b1 && eq_product_value a2 b2
  end.

(** network/attributes.rs:391-396 *)
Definition eq_loadouts_online (v w : loadouts_online) : bool :=
  match v, w with
  | mkLoadoutsOnline a0 a1 a2 a3, mkLoadoutsOnline b0 b1 b2 b3 => (eq_vec (eq_vec eq_product)) a0 b0 && (eq_vec (eq_vec eq_product)) a1 b1 && Bool.eqb a2 b2 && Bool.eqb a3 b3
  end.

(** network/attributes.rs:413-419 *)
Definition eq_rep_stat_title (v w : rep_stat_title) : bool :=
  match v, w with
  | mkRepStat a0 a1 a2 a3 a4, mkRepStat b0 b1 b2 b3 b4 => Bool.eqb a0 b0 && str_eqb a1 b1 && Bool.eqb a2 b2 && Z.eqb a3 b3 && Z.eqb a4 b4
  end.

(** network/attributes.rs:422-425 *)
Definition eq_pickup_info (v w : pickup_info) : bool :=
  match v, w with
  | mkPickupInfo a0 a1 a2 a3, mkPickupInfo b0 b1 b2 b3 => eq_active_actor a0 b0 && eq_active_actor a1 b1 && eq_active_actor a2 b2 && Bool.eqb a3 b3
  end.

(** network/attributes.rs:428-431 *)
Definition eq_impulse (v w : impulse) : bool :=
  match v, w with
  | mkImpulse a0 a1, mkImpulse b0 b1 => Z.eqb a0 b0 && f32_eq a1 b1
  end.

(** network/attributes.rs:434-439 *)
Definition eq_replicated_boost (v w : replicated_boost) : bool :=
  match v, w with
  | mkBoost a0 a1 a2 a3, mkBoost b0 b1 b2 b3 => Z.eqb a0 b0 && Z.eqb a1 b1 && Z.eqb a2 b2 && Z.eqb a3 b3
  end.

(** network/attributes.rs:442-445 *)
Definition eq_logo_data (v w : logo_data) : bool :=
  match v, w with
  | mkLogo a0 a1, mkLogo b0 b1 => Z.eqb a0 b0 && Bool.eqb a1 b1
  end.

(** network/attributes.rs:65-120 *)
Definition eq_attribute (v w : attribute) : bool :=
  match v, w with
  | ABoolean a0, ABoolean b0 => Bool.eqb a0 b0
  | AByte a0, AByte b0 => Z.eqb a0 b0
  | AAppliedDamage a0, AAppliedDamage b0 => eq_applied_damage a0 b0
  | ADamageState a0, ADamageState b0 => eq_damage_state a0 b0
  | ACamSettings a0, ACamSettings b0 => eq_cam_settings a0 b0
  | AClubColors a0, AClubColors b0 => eq_club_colors a0 b0
  | ADemolish a0, ADemolish b0 => eq_demolish a0 b0
  | ADemolishExtended a0, ADemolishExtended b0 => eq_demolish_extended a0 b0
  | ADemolishFx a0, ADemolishFx b0 => eq_demolish_fx a0 b0
  | AEnum a0, AEnum b0 => Z.eqb a0 b0
  | AExplosion a0, AExplosion b0 => eq_explosion a0 b0
  | AExtendedExplosion a0, AExtendedExplosion b0 => eq_extended_explosion a0 b0
  | AFlaggedByte a0 a1, AFlaggedByte b0 b1 => Bool.eqb a0 b0 && Z.eqb a1 b1
  | AActiveActor a0, AActiveActor b0 => eq_active_actor a0 b0
  | AFloat a0, AFloat b0 => f32_eq a0 b0
  | AGameMode a0 a1, AGameMode b0 b1 => Z.eqb a0 b0 && Z.eqb a1 b1
  | AInt a0, AInt b0 => Z.eqb a0 b0
  | AInt64 a0, AInt64 b0 => Z.eqb a0 b0
  | ALoadout a0, ALoadout b0 => eq_loadout a0 b0
  | ATeamLoadout a0, ATeamLoadout b0 => eq_team_loadout a0 b0
  | ALocation a0, ALocation b0 => eq_vector3f a0 b0
  | AMusicStinger a0, AMusicStinger b0 => eq_music_stinger a0 b0
  | APlayerHistoryKey a0, APlayerHistoryKey b0 => Z.eqb a0 b0
  | APickup a0, APickup b0 => eq_pickup a0 b0
  | APickupNew a0, APickupNew b0 => eq_pickup_new a0 b0
  | AQWord a0, AQWord b0 => Z.eqb a0 b0
  | AWelded a0, AWelded b0 => eq_welded a0 b0
  | ATitle a0 a1 a2 a3 a4 a5 a6 a7, ATitle b0 b1 b2 b3 b4 b5 b6 b7 => Bool.eqb a0 b0 && Bool.eqb a1 b1 && Z.eqb a2 b2 && Z.eqb a3 b3 && Z.eqb a4 b4 && Z.eqb a5 b5 && Z.eqb a6 b6 && Bool.eqb a7 b7
  | ATeamPaint a0, ATeamPaint b0 => eq_team_paint a0 b0
  | ARigidBody a0, ARigidBody b0 => eq_rigid_body a0 b0
  | AString a0, AString b0 => str_eqb a0 b0
  | AUniqueId a0, AUniqueId b0 => eq_unique_id a0 b0
  | AReservation a0, AReservation b0 => eq_reservation a0 b0
  | APartyLeader a0, APartyLeader b0 => (eq_opt eq_unique_id) a0 b0
  | APrivateMatch a0, APrivateMatch b0 => eq_private_match a0 b0
  | ALoadoutOnline a0, ALoadoutOnline b0 => (eq_vec (eq_vec eq_product)) a0 b0
  | ALoadoutsOnline a0, ALoadoutsOnline b0 => eq_loadouts_online a0 b0
  | AStatEvent a0, AStatEvent b0 => eq_stat_event a0 b0
  | ARotation a0, ARotation b0 => eq_rotation a0 b0
  | ARepStatTitle a0, ARepStatTitle b0 => eq_rep_stat_title a0 b0
  | APickupInfo a0, APickupInfo b0 => eq_pickup_info a0 b0
  | AImpulse a0, AImpulse b0 => eq_impulse a0 b0
  | AReplicatedBoost a0, AReplicatedBoost b0 => eq_replicated_boost a0 b0
  | ALogoData a0, ALogoData b0 => eq_logo_data a0 b0
  | _, _ => false
  end.

(** network/models.rs:221-233 *)
Definition eq_updated_attribute (v w : updated_attribute) : bool :=
  match v, w with
  | mkUpdated a0 a1 a2 a3, mkUpdated b0 b1 b2 b3 => Z.eqb a0 b0 && Z.eqb a1 b1 && Z.eqb a2 b2 && eq_attribute a3 b3
  end.

(** network/models.rs:237-252 *)
Definition eq_frame (v w : frame) : bool :=
  match v, w with
  | mkFrame a0 a1 a2 a3 a4, mkFrame b0 b1 b2 b3 b4 => f32_eq a0 b0 && f32_eq a1 b1 && (eq_vec eq_new_actor) a2 b2 && (eq_vec Z.eqb) a3 b3 && (eq_vec eq_updated_attribute) a4 b4
  end.
