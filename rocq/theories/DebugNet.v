(** * [Debug] of the network types

    Generated by /verif/tools/gen_debug.py from the type declarations of
    /repo/src/network: for every type what [#[derive(Debug)]] shows. *)

From Coq Require Import ZArith List.
From Verif Require Import Base F32 NetTypes Debug.

(** [Option]. e.g. network/models.rs:344-347 *)
Definition dbg_opt {A} (f : A -> dbg) (o : option A) : dbg :=
  match o with Some x => DTuple (lit "Some") [f x] | None => DName (lit "None") end.
(** [Vec]. e.g. network/models.rs:236-252 *)
Definition dbg_vec {A} (f : A -> dbg) (l : list A) : dbg := DList (map f l).
(** [Vec<u8>]. e.g. network/attributes.rs:312 *)
Definition dbg_bytes (l : list byte) : dbg := DList (map (fun b => DInt (byteZ b)) l).
(** network/models.rs:257-260 *)
Definition dbg_object_id (x : Z) : dbg := DTuple (lit "ObjectId") [DInt x].
(** network/models.rs:283-284 *)
Definition dbg_stream_id (x : Z) : dbg := DTuple (lit "StreamId") [DInt x].
(** network/models.rs:306-307 *)
Definition dbg_actor_id (x : Z) : dbg := DTuple (lit "ActorId") [DInt x].

(** network/models.rs:6-10 *)
Definition dbg_vector3f (v : vector3f) : dbg :=
  match v with
  | mkV3f a0 a1 a2 => DStruct (lit "Vector3f")
       [(lit "x", DF32 a0);
        (lit "y", DF32 a1);
        (lit "z", DF32 a2)]
  end.

(** network/models.rs:25-29 *)
Definition dbg_vector3i (v : vector3i) : dbg :=
  match v with
  | mkV3i a0 a1 a2 => DStruct (lit "Vector3i")
       [(lit "x", DInt a0);
        (lit "y", DInt a1);
        (lit "z", DInt a2)]
  end.

(** network/models.rs:89-94 *)
Definition dbg_quaternion (v : quaternion) : dbg :=
  match v with
  | mkQuat a0 a1 a2 a3 => DStruct (lit "Quaternion")
       [(lit "x", DF32 a0);
        (lit "y", DF32 a1);
        (lit "z", DF32 a2);
        (lit "w", DF32 a3)]
  end.

(** network/models.rs:179-183 *)
Definition dbg_rotation (v : rotation) : dbg :=
  match v with
  | mkRot a0 a1 a2 => DStruct (lit "Rotation")
       [(lit "yaw", (dbg_opt DInt) a0);
        (lit "pitch", (dbg_opt DInt) a1);
        (lit "roll", (dbg_opt DInt) a2)]
  end.

(** network/models.rs:345-348 *)
Definition dbg_trajectory (v : trajectory) : dbg :=
  match v with
  | mkTraj a0 a1 => DStruct (lit "Trajectory")
       [(lit "location", (dbg_opt dbg_vector3i) a0);
        (lit "rotation", (dbg_opt dbg_rotation) a1)]
  end.

(** network/models.rs:329-341 *)
Definition dbg_new_actor (v : new_actor) : dbg :=
  match v with
  | mkNew a0 a1 a2 a3 => DStruct (lit "NewActor")
       [(lit "actor_id", dbg_actor_id a0);
        (lit "name_id", (dbg_opt DInt) a1);
        (lit "object_id", dbg_object_id a2);
        (lit "initial_trajectory", dbg_trajectory a3)]
  end.

(** network/attributes.rs:123-126 *)
Definition dbg_active_actor (v : active_actor) : dbg :=
  match v with
  | mkActive a0 a1 => DStruct (lit "ActiveActor")
       [(lit "active", DBool a0);
        (lit "actor", dbg_actor_id a1)]
  end.

(** network/attributes.rs:129-137 *)
Definition dbg_cam_settings (v : cam_settings) : dbg :=
  match v with
  | mkCam a0 a1 a2 a3 a4 a5 a6 => DStruct (lit "CamSettings")
       [(lit "fov", DF32 a0);
        (lit "height", DF32 a1);
        (lit "angle", DF32 a2);
        (lit "distance", DF32 a3);
        (lit "stiffness", DF32 a4);
        (lit "swivel", DF32 a5);
        (lit "transition", (dbg_opt DF32) a6)]
  end.

(** network/attributes.rs:140-145 *)
Definition dbg_club_colors (v : club_colors) : dbg :=
  match v with
  | mkClub a0 a1 a2 a3 => DStruct (lit "ClubColors")
       [(lit "blue_flag", DBool a0);
        (lit "blue_color", DInt a1);
        (lit "orange_flag", DBool a2);
        (lit "orange_color", DInt a3)]
  end.

(** network/attributes.rs:148-153 *)
Definition dbg_applied_damage (v : applied_damage) : dbg :=
  match v with
  | mkApplied a0 a1 a2 a3 => DStruct (lit "AppliedDamage")
       [(lit "id", DInt a0);
        (lit "position", dbg_vector3f a1);
        (lit "damage_index", DInt a2);
        (lit "total_damage", DInt a3)]
  end.

(** network/attributes.rs:156-172 *)
Definition dbg_damage_state (v : damage_state) : dbg :=
  match v with
  | mkDamage a0 a1 a2 a3 a4 a5 => DStruct (lit "DamageState")
       [(lit "tile_state", DInt a0);
        (lit "damaged", DBool a1);
        (lit "offender", dbg_actor_id a2);
        (lit "ball_position", dbg_vector3f a3);
        (lit "direct_hit", DBool a4);
        (lit "unknown1", DBool a5)]
  end.

(** network/attributes.rs:175-182 *)
Definition dbg_demolish (v : demolish) : dbg :=
  match v with
  | mkDemolish a0 a1 a2 a3 a4 a5 => DStruct (lit "Demolish")
       [(lit "attacker_flag", DBool a0);
        (lit "attacker", dbg_actor_id a1);
        (lit "victim_flag", DBool a2);
        (lit "victim", dbg_actor_id a3);
        (lit "attack_velocity", dbg_vector3f a4);
        (lit "victim_velocity", dbg_vector3f a5)]
  end.

(** network/attributes.rs:185-194 *)
Definition dbg_demolish_extended (v : demolish_extended) : dbg :=
  match v with
  | mkDemolishExt a0 a1 a2 a3 a4 a5 a6 a7 => DStruct (lit "DemolishExtended")
       [(lit "attacker_pri", dbg_active_actor a0);
        (lit "self_demo", dbg_active_actor a1);
        (lit "self_demolish", DBool a2);
        (lit "goal_explosion_owner", dbg_active_actor a3);
        (lit "attacker", dbg_active_actor a4);
        (lit "victim", dbg_active_actor a5);
        (lit "attacker_velocity", dbg_vector3f a6);
        (lit "victim_velocity", dbg_vector3f a7)]
  end.

(** network/attributes.rs:197-206 *)
Definition dbg_demolish_fx (v : demolish_fx) : dbg :=
  match v with
  | mkDemolishFx a0 a1 a2 a3 a4 a5 a6 a7 => DStruct (lit "DemolishFx")
       [(lit "custom_demo_flag", DBool a0);
        (lit "custom_demo_id", DInt a1);
        (lit "attacker_flag", DBool a2);
        (lit "attacker", dbg_actor_id a3);
        (lit "victim_flag", DBool a4);
        (lit "victim", dbg_actor_id a5);
        (lit "attack_velocity", dbg_vector3f a6);
        (lit "victim_velocity", dbg_vector3f a7)]
  end.

(** network/attributes.rs:209-213 *)
Definition dbg_explosion (v : explosion) : dbg :=
  match v with
  | mkExplosion a0 a1 a2 => DStruct (lit "Explosion")
       [(lit "flag", DBool a0);
        (lit "actor", dbg_actor_id a1);
        (lit "location", dbg_vector3f a2)]
  end.

(** network/attributes.rs:216-220 *)
Definition dbg_extended_explosion (v : extended_explosion) : dbg :=
  match v with
  | mkExtExplosion a0 a1 a2 => DStruct (lit "ExtendedExplosion")
       [(lit "explosion", dbg_explosion a0);
        (lit "unknown1", DBool a1);
        (lit "secondary_actor", dbg_actor_id a2)]
  end.

(** network/attributes.rs:223-238 *)
Definition dbg_loadout (v : loadout) : dbg :=
  match v with
  | mkLoadout a0 a1 a2 a3 a4 a5 a6 a7 a8 a9 a10 a11 a12 a13 => DStruct (lit "Loadout")
       [(lit "version", DInt a0);
        (lit "body", DInt a1);
        (lit "decal", DInt a2);
        (lit "wheels", DInt a3);
        (lit "rocket_trail", DInt a4);
        (lit "antenna", DInt a5);
        (lit "topper", DInt a6);
        (lit "unknown1", DInt a7);
        (lit "unknown2", (dbg_opt DInt) a8);
        (lit "engine_audio", (dbg_opt DInt) a9);
        (lit "trail", (dbg_opt DInt) a10);
        (lit "goal_explosion", (dbg_opt DInt) a11);
        (lit "banner", (dbg_opt DInt) a12);
        (lit "product_id", (dbg_opt DInt) a13)]
  end.

(** network/attributes.rs:241-244 *)
Definition dbg_team_loadout (v : team_loadout) : dbg :=
  match v with
  | mkTeamLoadout a0 a1 => DStruct (lit "TeamLoadout")
       [(lit "blue", dbg_loadout a0);
        (lit "orange", dbg_loadout a1)]
  end.

(** network/attributes.rs:247-250 *)
Definition dbg_stat_event (v : stat_event) : dbg :=
  match v with
  | mkStat a0 a1 => DStruct (lit "StatEvent")
       [(lit "unknown1", DBool a0);
        (lit "object_id", DInt a1)]
  end.

(** network/attributes.rs:253-257 *)
Definition dbg_music_stinger (v : music_stinger) : dbg :=
  match v with
  | mkStinger a0 a1 a2 => DStruct (lit "MusicStinger")
       [(lit "flag", DBool a0);
        (lit "cue", DInt a1);
        (lit "trigger", DInt a2)]
  end.

(** network/attributes.rs:260-263 *)
Definition dbg_pickup (v : pickup) : dbg :=
  match v with
  | mkPickup a0 a1 => DStruct (lit "Pickup")
       [(lit "instigator", (dbg_opt dbg_actor_id) a0);
        (lit "picked_up", DBool a1)]
  end.

(** network/attributes.rs:266-269 *)
Definition dbg_pickup_new (v : pickup_new) : dbg :=
  match v with
  | mkPickupNew a0 a1 => DStruct (lit "PickupNew")
       [(lit "instigator", (dbg_opt dbg_actor_id) a0);
        (lit "picked_up", DInt a1)]
  end.

(** network/attributes.rs:272-278 *)
Definition dbg_welded (v : welded) : dbg :=
  match v with
  | mkWelded a0 a1 a2 a3 a4 => DStruct (lit "Welded")
       [(lit "active", DBool a0);
        (lit "actor", dbg_actor_id a1);
        (lit "offset", dbg_vector3f a2);
        (lit "mass", DF32 a3);
        (lit "rotation", dbg_rotation a4)]
  end.

(** network/attributes.rs:281-287 *)
Definition dbg_team_paint (v : team_paint) : dbg :=
  match v with
  | mkTeamPaint a0 a1 a2 a3 a4 => DStruct (lit "TeamPaint")
       [(lit "team", DInt a0);
        (lit "primary_color", DInt a1);
        (lit "accent_color", DInt a2);
        (lit "primary_finish", DInt a3);
        (lit "accent_finish", DInt a4)]
  end.

(** network/attributes.rs:290-296 *)
Definition dbg_rigid_body (v : rigid_body) : dbg :=
  match v with
  | mkRigid a0 a1 a2 a3 a4 => DStruct (lit "RigidBody")
       [(lit "sleeping", DBool a0);
        (lit "location", dbg_vector3f a1);
        (lit "rotation", dbg_quaternion a2);
        (lit "linear_velocity", (dbg_opt dbg_vector3f) a3);
        (lit "angular_velocity", (dbg_opt dbg_vector3f) a4)]
  end.

(** network/attributes.rs:337-361 *)
Definition dbg_remote_id (v : remote_id) : dbg :=
  match v with
  | RPlayStation a0 a1 a2 => DTuple (lit "PlayStation") [DStruct (lit "Ps4Id") [(lit "online_id", DInt a0);
        (lit "name", DStr a1);
        (lit "unknown1", dbg_bytes a2)]]
  | RPsyNet a0 a1 => DTuple (lit "PsyNet") [DStruct (lit "PsyNetId") [(lit "online_id", DInt a0);
        (lit "unknown1", dbg_bytes a1)]]
  | RSplitScreen a0 => DTuple (lit "SplitScreen") [DInt a0]
  | RSteam a0 => DTuple (lit "Steam") [DInt a0]
  | RSwitch a0 a1 => DTuple (lit "Switch") [DStruct (lit "SwitchId") [(lit "online_id", DInt a0);
        (lit "unknown1", dbg_bytes a1)]]
  | RXbox a0 => DTuple (lit "Xbox") [DInt a0]
  | RQQ a0 => DTuple (lit "QQ") [DInt a0]
  | REpic a0 => DTuple (lit "Epic") [DStr a0]
  end.

(** network/attributes.rs:299-303 *)
Definition dbg_unique_id (v : unique_id) : dbg :=
  match v with
  | mkUniqueId a0 a1 a2 => DStruct (lit "UniqueId")
       [(lit "system_id", DInt a0);
        (lit "remote_id", dbg_remote_id a1);
        (lit "local_id", DInt a2)]
  end.

(** network/attributes.rs:364-371 *)
Definition dbg_reservation (v : reservation) : dbg :=
  match v with
  | mkReservation a0 a1 a2 a3 a4 a5 => DStruct (lit "Reservation")
       [(lit "number", DInt a0);
        (lit "unique_id", dbg_unique_id a1);
        (lit "name", (dbg_opt DStr) a2);
        (lit "unknown1", DBool a3);
        (lit "unknown2", DBool a4);
        (lit "unknown3", (dbg_opt DInt) a5)]
  end.

(** network/attributes.rs:374-381 *)
Definition dbg_private_match (v : private_match) : dbg :=
  match v with
  | mkPrivateMatch a0 a1 a2 a3 a4 a5 => DStruct (lit "PrivateMatchSettings")
       [(lit "mutators", DStr a0);
        (lit "joinable_by", DInt a1);
        (lit "max_players", DInt a2);
        (lit "game_name", DStr a3);
        (lit "password", DStr a4);
        (lit "flag", DBool a5)]
  end.

(** network/attributes.rs:399-410 *)
Definition dbg_product_value (v : product_value) : dbg :=
  match v with
  | PVNoColor => DName (lit "NoColor")
  | PVAbsent => DName (lit "Absent")
  | PVOldColor a0 => DTuple (lit "OldColor") [DInt a0]
  | PVNewColor a0 => DTuple (lit "NewColor") [DInt a0]
  | PVOldPaint a0 => DTuple (lit "OldPaint") [DInt a0]
  | PVNewPaint a0 => DTuple (lit "NewPaint") [DInt a0]
  | PVTitle a0 => DTuple (lit "Title") [DStr a0]
  | PVSpecialEdition a0 => DTuple (lit "SpecialEdition") [DInt a0]
  | PVOldTeamEdition a0 => DTuple (lit "OldTeamEdition") [DInt a0]
  | PVNewTeamEdition a0 => DTuple (lit "NewTeamEdition") [DInt a0]
  end.

(** network/attributes.rs:384-388 *)
Definition dbg_product (v : product) : dbg :=
  match v with
  | mkProduct a0 a1 a2 => DStruct (lit "Product")
       [(lit "unknown", DBool a0);
        (lit "object_ind", dbg_object_id a1);
        (lit "value", dbg_product_value a2)]
  end.

(** network/attributes.rs:391-396 *)
Definition dbg_loadouts_online (v : loadouts_online) : dbg :=
  match v with
  | mkLoadoutsOnline a0 a1 a2 a3 => DStruct (lit "LoadoutsOnline")
       [(lit "blue", (dbg_vec (dbg_vec dbg_product)) a0);
        (lit "orange", (dbg_vec (dbg_vec dbg_product)) a1);
        (lit "unknown1", DBool a2);
        (lit "unknown2", DBool a3)]
  end.

(** network/attributes.rs:413-419 *)
Definition dbg_rep_stat_title (v : rep_stat_title) : dbg :=
  match v with
  | mkRepStat a0 a1 a2 a3 a4 => DStruct (lit "RepStatTitle")
       [(lit "unknown", DBool a0);
        (lit "name", DStr a1);
        (lit "unknown2", DBool a2);
        (lit "index", DInt a3);
        (lit "value", DInt a4)]
  end.

(** network/attributes.rs:422-425 *)
Definition dbg_pickup_info (v : pickup_info) : dbg :=
  match v with
  | mkPickupInfo a0 a1 a2 a3 => DStruct (lit "PickupInfo")
       [(lit "available_pickups", DList [dbg_active_actor a0; dbg_active_actor a1; dbg_active_actor a2]);
        (lit "items_are_preview", DBool a3)]
  end.

(** network/attributes.rs:428-431 *)
Definition dbg_impulse (v : impulse) : dbg :=
  match v with
  | mkImpulse a0 a1 => DStruct (lit "Impulse")
       [(lit "compressed_rotation", DInt a0);
        (lit "speed", DF32 a1)]
  end.

(** network/attributes.rs:434-439 *)
Definition dbg_replicated_boost (v : replicated_boost) : dbg :=
  match v with
  | mkBoost a0 a1 a2 a3 => DStruct (lit "ReplicatedBoost")
       [(lit "grant_count", DInt a0);
        (lit "boost_amount", DInt a1);
        (lit "unused1", DInt a2);
        (lit "unused2", DInt a3)]
  end.

(** network/attributes.rs:442-445 *)
Definition dbg_logo_data (v : logo_data) : dbg :=
  match v with
  | mkLogo a0 a1 => DStruct (lit "LogoData")
       [(lit "logo_id", DInt a0);
        (lit "swap_colors", DBool a1)]
  end.

(** network/attributes.rs:65-120 *)
Definition dbg_attribute (v : attribute) : dbg :=
  match v with
  | ABoolean a0 => DTuple (lit "Boolean") [DBool a0]
  | AByte a0 => DTuple (lit "Byte") [DInt a0]
  | AAppliedDamage a0 => DTuple (lit "AppliedDamage") [dbg_applied_damage a0]
  | ADamageState a0 => DTuple (lit "DamageState") [dbg_damage_state a0]
  | ACamSettings a0 => DTuple (lit "CamSettings") [dbg_cam_settings a0]
  | AClubColors a0 => DTuple (lit "ClubColors") [dbg_club_colors a0]
  | ADemolish a0 => DTuple (lit "Demolish") [dbg_demolish a0]
  | ADemolishExtended a0 => DTuple (lit "DemolishExtended") [dbg_demolish_extended a0]
  | ADemolishFx a0 => DTuple (lit "DemolishFx") [dbg_demolish_fx a0]
  | AEnum a0 => DTuple (lit "Enum") [DInt a0]
  | AExplosion a0 => DTuple (lit "Explosion") [dbg_explosion a0]
  | AExtendedExplosion a0 => DTuple (lit "ExtendedExplosion") [dbg_extended_explosion a0]
  | AFlaggedByte a0 a1 => DTuple (lit "FlaggedByte") [DBool a0; DInt a1]
  | AActiveActor a0 => DTuple (lit "ActiveActor") [dbg_active_actor a0]
  | AFloat a0 => DTuple (lit "Float") [DF32 a0]
  | AGameMode a0 a1 => DTuple (lit "GameMode") [DInt a0; DInt a1]
  | AInt a0 => DTuple (lit "Int") [DInt a0]
  | AInt64 a0 => DTuple (lit "Int64") [DInt a0]
  | ALoadout a0 => DTuple (lit "Loadout") [dbg_loadout a0]
  | ATeamLoadout a0 => DTuple (lit "TeamLoadout") [dbg_team_loadout a0]
  | ALocation a0 => DTuple (lit "Location") [dbg_vector3f a0]
  | AMusicStinger a0 => DTuple (lit "MusicStinger") [dbg_music_stinger a0]
  | APlayerHistoryKey a0 => DTuple (lit "PlayerHistoryKey") [DInt a0]
  | APickup a0 => DTuple (lit "Pickup") [dbg_pickup a0]
  | APickupNew a0 => DTuple (lit "PickupNew") [dbg_pickup_new a0]
  | AQWord a0 => DTuple (lit "QWord") [DInt a0]
  | AWelded a0 => DTuple (lit "Welded") [dbg_welded a0]
  | ATitle a0 a1 a2 a3 a4 a5 a6 a7 => DTuple (lit "Title") [DBool a0; DBool a1; DInt a2; DInt a3; DInt a4; DInt a5; DInt a6; DBool a7]
  | ATeamPaint a0 => DTuple (lit "TeamPaint") [dbg_team_paint a0]
  | ARigidBody a0 => DTuple (lit "RigidBody") [dbg_rigid_body a0]
  | AString a0 => DTuple (lit "String") [DStr a0]
  | AUniqueId a0 => DTuple (lit "UniqueId") [dbg_unique_id a0]
  | AReservation a0 => DTuple (lit "Reservation") [dbg_reservation a0]
  | APartyLeader a0 => DTuple (lit "PartyLeader") [(dbg_opt dbg_unique_id) a0]
  | APrivateMatch a0 => DTuple (lit "PrivateMatch") [dbg_private_match a0]
  | ALoadoutOnline a0 => DTuple (lit "LoadoutOnline") [(dbg_vec (dbg_vec dbg_product)) a0]
  | ALoadoutsOnline a0 => DTuple (lit "LoadoutsOnline") [dbg_loadouts_online a0]
  | AStatEvent a0 => DTuple (lit "StatEvent") [dbg_stat_event a0]
  | ARotation a0 => DTuple (lit "Rotation") [dbg_rotation a0]
  | ARepStatTitle a0 => DTuple (lit "RepStatTitle") [dbg_rep_stat_title a0]
  | APickupInfo a0 => DTuple (lit "PickupInfo") [dbg_pickup_info a0]
  | AImpulse a0 => DTuple (lit "Impulse") [dbg_impulse a0]
  | AReplicatedBoost a0 => DTuple (lit "ReplicatedBoost") [dbg_replicated_boost a0]
  | ALogoData a0 => DTuple (lit "LogoData") [dbg_logo_data a0]
  end.

(** network/models.rs:221-233 *)
Definition dbg_updated_attribute (v : updated_attribute) : dbg :=
  match v with
  | mkUpdated a0 a1 a2 a3 => DStruct (lit "UpdatedAttribute")
       [(lit "actor_id", dbg_actor_id a0);
        (lit "stream_id", dbg_stream_id a1);
        (lit "object_id", dbg_object_id a2);
        (lit "attribute", dbg_attribute a3)]
  end.

(** network/models.rs:237-252 *)
Definition dbg_frame (v : frame) : dbg :=
  match v with
  | mkFrame a0 a1 a2 a3 a4 => DStruct (lit "Frame")
       [(lit "time", DF32 a0);
        (lit "delta", DF32 a1);
        (lit "new_actors", (dbg_vec dbg_new_actor) a2);
        (lit "deleted_actors", (dbg_vec dbg_actor_id) a3);
        (lit "updated_actors", (dbg_vec dbg_updated_attribute) a4)]
  end.
