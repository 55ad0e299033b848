(** * Specification: schemas of the network types

    Generated by /verif/tools/gen_schema.py from the type declarations of
    /repo/src/network. *)

From Coq Require Import ZArith List.
From Verif Require Import Base SpecSchema.
Open Scope Z_scope.

Definition schema_vector3f : schema := SStruct
   [(lit "x", SFloat);
    (lit "y", SFloat);
    (lit "z", SFloat)].

Definition schema_vector3i : schema := SStruct
   [(lit "x", SInt (- 2 ^ 31) (2 ^ 31 - 1));
    (lit "y", SInt (- 2 ^ 31) (2 ^ 31 - 1));
    (lit "z", SInt (- 2 ^ 31) (2 ^ 31 - 1))].

Definition schema_quaternion : schema := SStruct
   [(lit "x", SFloat);
    (lit "y", SFloat);
    (lit "z", SFloat);
    (lit "w", SFloat)].

Definition schema_rotation : schema := SStruct
   [(lit "yaw", SOption (SInt (- 2 ^ 7) (2 ^ 7 - 1)));
    (lit "pitch", SOption (SInt (- 2 ^ 7) (2 ^ 7 - 1)));
    (lit "roll", SOption (SInt (- 2 ^ 7) (2 ^ 7 - 1)))].

Definition schema_trajectory : schema := SStruct
   [(lit "location", SOption schema_vector3i);
    (lit "rotation", SOption schema_rotation)].

Definition schema_new_actor : schema := SStruct
   [(lit "actor_id", SInt (- 2 ^ 31) (2 ^ 31 - 1));
    (lit "name_id", SOption (SInt (- 2 ^ 31) (2 ^ 31 - 1)));
    (lit "object_id", SInt (- 2 ^ 31) (2 ^ 31 - 1));
    (lit "initial_trajectory", schema_trajectory)].

Definition schema_active_actor : schema := SStruct
   [(lit "active", SBool);
    (lit "actor", SInt (- 2 ^ 31) (2 ^ 31 - 1))].

Definition schema_cam_settings : schema := SStruct
   [(lit "fov", SFloat);
    (lit "height", SFloat);
    (lit "angle", SFloat);
    (lit "distance", SFloat);
    (lit "stiffness", SFloat);
    (lit "swivel", SFloat);
    (lit "transition", SOption SFloat)].

Definition schema_club_colors : schema := SStruct
   [(lit "blue_flag", SBool);
    (lit "blue_color", SInt 0 (2 ^ 8 - 1));
    (lit "orange_flag", SBool);
    (lit "orange_color", SInt 0 (2 ^ 8 - 1))].

Definition schema_applied_damage : schema := SStruct
   [(lit "id", SInt 0 (2 ^ 8 - 1));
    (lit "position", schema_vector3f);
    (lit "damage_index", SInt (- 2 ^ 31) (2 ^ 31 - 1));
    (lit "total_damage", SInt (- 2 ^ 31) (2 ^ 31 - 1))].

Definition schema_damage_state : schema := SStruct
   [(lit "tile_state", SInt 0 (2 ^ 8 - 1));
    (lit "damaged", SBool);
    (lit "offender", SInt (- 2 ^ 31) (2 ^ 31 - 1));
    (lit "ball_position", schema_vector3f);
    (lit "direct_hit", SBool);
    (lit "unknown1", SBool)].

Definition schema_demolish : schema := SStruct
   [(lit "attacker_flag", SBool);
    (lit "attacker", SInt (- 2 ^ 31) (2 ^ 31 - 1));
    (lit "victim_flag", SBool);
    (lit "victim", SInt (- 2 ^ 31) (2 ^ 31 - 1));
    (lit "attack_velocity", schema_vector3f);
    (lit "victim_velocity", schema_vector3f)].

Definition schema_demolish_extended : schema := SStruct
   [(lit "attacker_pri", schema_active_actor);
    (lit "self_demo", schema_active_actor);
    (lit "self_demolish", SBool);
    (lit "goal_explosion_owner", schema_active_actor);
    (lit "attacker", schema_active_actor);
    (lit "victim", schema_active_actor);
    (lit "attacker_velocity", schema_vector3f);
    (lit "victim_velocity", schema_vector3f)].

Definition schema_demolish_fx : schema := SStruct
   [(lit "custom_demo_flag", SBool);
    (lit "custom_demo_id", SInt (- 2 ^ 31) (2 ^ 31 - 1));
    (lit "attacker_flag", SBool);
    (lit "attacker", SInt (- 2 ^ 31) (2 ^ 31 - 1));
    (lit "victim_flag", SBool);
    (lit "victim", SInt (- 2 ^ 31) (2 ^ 31 - 1));
    (lit "attack_velocity", schema_vector3f);
    (lit "victim_velocity", schema_vector3f)].

Definition schema_explosion : schema := SStruct
   [(lit "flag", SBool);
    (lit "actor", SInt (- 2 ^ 31) (2 ^ 31 - 1));
    (lit "location", schema_vector3f)].

Definition schema_extended_explosion : schema := SStruct
   [(lit "explosion", schema_explosion);
    (lit "unknown1", SBool);
    (lit "secondary_actor", SInt (- 2 ^ 31) (2 ^ 31 - 1))].

Definition schema_loadout : schema := SStruct
   [(lit "version", SInt 0 (2 ^ 8 - 1));
    (lit "body", SInt 0 (2 ^ 32 - 1));
    (lit "decal", SInt 0 (2 ^ 32 - 1));
    (lit "wheels", SInt 0 (2 ^ 32 - 1));
    (lit "rocket_trail", SInt 0 (2 ^ 32 - 1));
    (lit "antenna", SInt 0 (2 ^ 32 - 1));
    (lit "topper", SInt 0 (2 ^ 32 - 1));
    (lit "unknown1", SInt 0 (2 ^ 32 - 1));
    (lit "unknown2", SOption (SInt 0 (2 ^ 32 - 1)));
    (lit "engine_audio", SOption (SInt 0 (2 ^ 32 - 1)));
    (lit "trail", SOption (SInt 0 (2 ^ 32 - 1)));
    (lit "goal_explosion", SOption (SInt 0 (2 ^ 32 - 1)));
    (lit "banner", SOption (SInt 0 (2 ^ 32 - 1)));
    (lit "product_id", SOption (SInt 0 (2 ^ 32 - 1)))].

Definition schema_team_loadout : schema := SStruct
   [(lit "blue", schema_loadout);
    (lit "orange", schema_loadout)].

Definition schema_stat_event : schema := SStruct
   [(lit "unknown1", SBool);
    (lit "object_id", SInt (- 2 ^ 31) (2 ^ 31 - 1))].

Definition schema_music_stinger : schema := SStruct
   [(lit "flag", SBool);
    (lit "cue", SInt 0 (2 ^ 32 - 1));
    (lit "trigger", SInt 0 (2 ^ 8 - 1))].

Definition schema_pickup : schema := SStruct
   [(lit "instigator", SOption (SInt (- 2 ^ 31) (2 ^ 31 - 1)));
    (lit "picked_up", SBool)].

Definition schema_pickup_new : schema := SStruct
   [(lit "instigator", SOption (SInt (- 2 ^ 31) (2 ^ 31 - 1)));
    (lit "picked_up", SInt 0 (2 ^ 8 - 1))].

Definition schema_welded : schema := SStruct
   [(lit "active", SBool);
    (lit "actor", SInt (- 2 ^ 31) (2 ^ 31 - 1));
    (lit "offset", schema_vector3f);
    (lit "mass", SFloat);
    (lit "rotation", schema_rotation)].

Definition schema_team_paint : schema := SStruct
   [(lit "team", SInt 0 (2 ^ 8 - 1));
    (lit "primary_color", SInt 0 (2 ^ 8 - 1));
    (lit "accent_color", SInt 0 (2 ^ 8 - 1));
    (lit "primary_finish", SInt 0 (2 ^ 32 - 1));
    (lit "accent_finish", SInt 0 (2 ^ 32 - 1))].

Definition schema_rigid_body : schema := SStruct
   [(lit "sleeping", SBool);
    (lit "location", schema_vector3f);
    (lit "rotation", schema_quaternion);
    (lit "linear_velocity", SOption schema_vector3f);
    (lit "angular_velocity", SOption schema_vector3f)].

Definition schema_remote_id : schema := SEnum []
   [(lit "PlayStation", SStruct
      [(lit "online_id", SDecimal false 0 (2 ^ 64 - 1));
       (lit "name", SText);
       (lit "unknown1", SList (SInt 0 (2 ^ 8 - 1)))]);
    (lit "PsyNet", SStruct
      [(lit "online_id", SDecimal false 0 (2 ^ 64 - 1));
       (lit "unknown1", SList (SInt 0 (2 ^ 8 - 1)))]);
    (lit "SplitScreen", SInt 0 (2 ^ 32 - 1));
    (lit "Steam", SDecimal false 0 (2 ^ 64 - 1));
    (lit "Switch", SStruct
      [(lit "online_id", SDecimal false 0 (2 ^ 64 - 1));
       (lit "unknown1", SList (SInt 0 (2 ^ 8 - 1)))]);
    (lit "Xbox", SDecimal false 0 (2 ^ 64 - 1));
    (lit "QQ", SDecimal false 0 (2 ^ 64 - 1));
    (lit "Epic", SText)].

Definition schema_unique_id : schema := SStruct
   [(lit "system_id", SInt 0 (2 ^ 8 - 1));
    (lit "remote_id", schema_remote_id);
    (lit "local_id", SInt 0 (2 ^ 8 - 1))].

Definition schema_reservation : schema := SStruct
   [(lit "number", SInt 0 (2 ^ 32 - 1));
    (lit "unique_id", schema_unique_id);
    (lit "name", SOption SText);
    (lit "unknown1", SBool);
    (lit "unknown2", SBool);
    (lit "unknown3", SOption (SInt 0 (2 ^ 8 - 1)))].

Definition schema_private_match : schema := SStruct
   [(lit "mutators", SText);
    (lit "joinable_by", SInt 0 (2 ^ 32 - 1));
    (lit "max_players", SInt 0 (2 ^ 32 - 1));
    (lit "game_name", SText);
    (lit "password", SText);
    (lit "flag", SBool)].

Definition schema_product_value : schema := SEnum [lit "NoColor"; lit "Absent"]
   [(lit "OldColor", SInt 0 (2 ^ 32 - 1));
    (lit "NewColor", SInt 0 (2 ^ 32 - 1));
    (lit "OldPaint", SInt 0 (2 ^ 32 - 1));
    (lit "NewPaint", SInt 0 (2 ^ 32 - 1));
    (lit "Title", SText);
    (lit "SpecialEdition", SInt 0 (2 ^ 32 - 1));
    (lit "OldTeamEdition", SInt 0 (2 ^ 32 - 1));
    (lit "NewTeamEdition", SInt 0 (2 ^ 32 - 1))].

Definition schema_product : schema := SStruct
   [(lit "unknown", SBool);
    (lit "object_ind", SInt (- 2 ^ 31) (2 ^ 31 - 1));
    (lit "value", schema_product_value)].

Definition schema_loadouts_online : schema := SStruct
   [(lit "blue", SList (SList schema_product));
    (lit "orange", SList (SList schema_product));
    (lit "unknown1", SBool);
    (lit "unknown2", SBool)].

Definition schema_rep_stat_title : schema := SStruct
   [(lit "unknown", SBool);
    (lit "name", SText);
    (lit "unknown2", SBool);
    (lit "index", SInt 0 (2 ^ 32 - 1));
    (lit "value", SInt 0 (2 ^ 32 - 1))].

Definition schema_pickup_info : schema := SStruct
   [(lit "available_pickups", STuple [schema_active_actor; schema_active_actor; schema_active_actor]);
    (lit "items_are_preview", SBool)].

Definition schema_impulse : schema := SStruct
   [(lit "compressed_rotation", SInt (- 2 ^ 31) (2 ^ 31 - 1));
    (lit "speed", SFloat)].

Definition schema_replicated_boost : schema := SStruct
   [(lit "grant_count", SInt 0 (2 ^ 8 - 1));
    (lit "boost_amount", SInt 0 (2 ^ 8 - 1));
    (lit "unused1", SInt 0 (2 ^ 8 - 1));
    (lit "unused2", SInt 0 (2 ^ 8 - 1))].

Definition schema_logo_data : schema := SStruct
   [(lit "logo_id", SInt 0 (2 ^ 32 - 1));
    (lit "swap_colors", SBool)].

Definition schema_attribute : schema := SEnum []
   [(lit "Boolean", SBool);
    (lit "Byte", SInt 0 (2 ^ 8 - 1));
    (lit "AppliedDamage", schema_applied_damage);
    (lit "DamageState", schema_damage_state);
    (lit "CamSettings", schema_cam_settings);
    (lit "ClubColors", schema_club_colors);
    (lit "Demolish", schema_demolish);
    (lit "DemolishExtended", schema_demolish_extended);
    (lit "DemolishFx", schema_demolish_fx);
    (lit "Enum", SInt 0 (2 ^ 16 - 1));
    (lit "Explosion", schema_explosion);
    (lit "ExtendedExplosion", schema_extended_explosion);
    (lit "FlaggedByte", STuple [SBool; SInt 0 (2 ^ 8 - 1)]);
    (lit "ActiveActor", schema_active_actor);
    (lit "Float", SFloat);
    (lit "GameMode", STuple [SInt 0 (2 ^ 8 - 1); SInt 0 (2 ^ 8 - 1)]);
    (lit "Int", SInt (- 2 ^ 31) (2 ^ 31 - 1));
    (lit "Int64", SDecimal true (- 2 ^ 63) (2 ^ 63 - 1));
    (lit "Loadout", schema_loadout);
    (lit "TeamLoadout", schema_team_loadout);
    (lit "Location", schema_vector3f);
    (lit "MusicStinger", schema_music_stinger);
    (lit "PlayerHistoryKey", SInt 0 (2 ^ 16 - 1));
    (lit "Pickup", schema_pickup);
    (lit "PickupNew", schema_pickup_new);
    (lit "QWord", SDecimal false 0 (2 ^ 64 - 1));
    (lit "Welded", schema_welded);
    (lit "Title", STuple [SBool; SBool; SInt 0 (2 ^ 32 - 1); SInt 0 (2 ^ 32 - 1); SInt 0 (2 ^ 32 - 1); SInt 0 (2 ^ 32 - 1); SInt 0 (2 ^ 32 - 1); SBool]);
    (lit "TeamPaint", schema_team_paint);
    (lit "RigidBody", schema_rigid_body);
    (lit "String", SText);
    (lit "UniqueId", schema_unique_id);
    (lit "Reservation", schema_reservation);
    (lit "PartyLeader", SOption schema_unique_id);
    (lit "PrivateMatch", schema_private_match);
    (lit "LoadoutOnline", SList (SList schema_product));
    (lit "LoadoutsOnline", schema_loadouts_online);
    (lit "StatEvent", schema_stat_event);
    (lit "Rotation", schema_rotation);
    (lit "RepStatTitle", schema_rep_stat_title);
    (lit "PickupInfo", schema_pickup_info);
    (lit "Impulse", schema_impulse);
    (lit "ReplicatedBoost", schema_replicated_boost);
    (lit "LogoData", schema_logo_data)].

Definition schema_updated_attribute : schema := SStruct
   [(lit "actor_id", SInt (- 2 ^ 31) (2 ^ 31 - 1));
    (lit "stream_id", SInt (- 2 ^ 31) (2 ^ 31 - 1));
    (lit "object_id", SInt (- 2 ^ 31) (2 ^ 31 - 1));
    (lit "attribute", schema_attribute)].

Definition schema_frame : schema := SStruct
   [(lit "time", SFloat);
    (lit "delta", SFloat);
    (lit "new_actors", SList schema_new_actor);
    (lit "deleted_actors", SList (SInt (- 2 ^ 31) (2 ^ 31 - 1)));
    (lit "updated_actors", SList schema_updated_attribute)].
