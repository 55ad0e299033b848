(** * serde code of the network types

    Generated by /verif/tools/gen_json.py from the type declarations of
    /repo/src/network: for every type the [Serialize] and [Deserialize]
    implementations that [#[derive(..)]] produces, in terms of Json.v. *)

From Coq Require Import ZArith List.
From Verif Require Import Base F32 NetTypes Json.

(** models.rs(network):6-10 *)
Definition ser_vector3f (v : vector3f) : json :=
  match v with
  | mkV3f fv0 fv1 fv2 =>
      JObj [(lit "x", ser_f32 fv0);
        (lit "y", ser_f32 fv1);
        (lit "z", ser_f32 fv2)]
  end.
(** models.rs(network):6-10 *)
Definition de_vector3f (j : json) : option vector3f :=
  de_fields [lit "x"; lit "y"; lit "z"] j (fun fs =>
    need_field (lit "x") de_f32 fs (fun fv0 =>
    need_field (lit "y") de_f32 fs (fun fv1 =>
    need_field (lit "z") de_f32 fs (fun fv2 =>
    Some (mkV3f fv0 fv1 fv2))))).

(** models.rs(network):25-29 *)
Definition ser_vector3i (v : vector3i) : json :=
  match v with
  | mkV3i fv0 fv1 fv2 =>
      JObj [(lit "x", ser_i32 fv0);
        (lit "y", ser_i32 fv1);
        (lit "z", ser_i32 fv2)]
  end.
(** models.rs(network):25-29 *)
Definition de_vector3i (j : json) : option vector3i :=
  de_fields [lit "x"; lit "y"; lit "z"] j (fun fs =>
    need_field (lit "x") de_i32 fs (fun fv0 =>
    need_field (lit "y") de_i32 fs (fun fv1 =>
    need_field (lit "z") de_i32 fs (fun fv2 =>
    Some (mkV3i fv0 fv1 fv2))))).

(** models.rs(network):89-94 *)
Definition ser_quaternion (v : quaternion) : json :=
  match v with
  | mkQuat fv0 fv1 fv2 fv3 =>
      JObj [(lit "x", ser_f32 fv0);
        (lit "y", ser_f32 fv1);
        (lit "z", ser_f32 fv2);
        (lit "w", ser_f32 fv3)]
  end.
(** models.rs(network):89-94 *)
Definition de_quaternion (j : json) : option quaternion :=
  de_fields [lit "x"; lit "y"; lit "z"; lit "w"] j (fun fs =>
    need_field (lit "x") de_f32 fs (fun fv0 =>
    need_field (lit "y") de_f32 fs (fun fv1 =>
    need_field (lit "z") de_f32 fs (fun fv2 =>
    need_field (lit "w") de_f32 fs (fun fv3 =>
    Some (mkQuat fv0 fv1 fv2 fv3)))))).

(** models.rs(network):179-183 *)
Definition ser_rotation (v : rotation) : json :=
  match v with
  | mkRot fv0 fv1 fv2 =>
      JObj [(lit "yaw", (ser_opt ser_i8) fv0);
        (lit "pitch", (ser_opt ser_i8) fv1);
        (lit "roll", (ser_opt ser_i8) fv2)]
  end.
(** models.rs(network):179-183 *)
Definition de_rotation (j : json) : option rotation :=
  de_fields [lit "yaw"; lit "pitch"; lit "roll"] j (fun fs =>
    need_opt_field (lit "yaw") de_i8 fs (fun fv0 =>
    need_opt_field (lit "pitch") de_i8 fs (fun fv1 =>
    need_opt_field (lit "roll") de_i8 fs (fun fv2 =>
    Some (mkRot fv0 fv1 fv2))))).

(** models.rs(network):345-348 *)
Definition ser_trajectory (v : trajectory) : json :=
  match v with
  | mkTraj fv0 fv1 =>
      JObj [(lit "location", (ser_opt ser_vector3i) fv0);
        (lit "rotation", (ser_opt ser_rotation) fv1)]
  end.
(** models.rs(network):345-348 *)
Definition de_trajectory (j : json) : option trajectory :=
  de_fields [lit "location"; lit "rotation"] j (fun fs =>
    need_opt_field (lit "location") de_vector3i fs (fun fv0 =>
    need_opt_field (lit "rotation") de_rotation fs (fun fv1 =>
    Some (mkTraj fv0 fv1)))).

(** models.rs(network):329-341 *)
Definition ser_new_actor (v : new_actor) : json :=
  match v with
  | mkNew fv0 fv1 fv2 fv3 =>
      JObj [(lit "actor_id", ser_i32 fv0);
        (lit "name_id", (ser_opt ser_i32) fv1);
        (lit "object_id", ser_i32 fv2);
        (lit "initial_trajectory", ser_trajectory fv3)]
  end.
(** models.rs(network):329-341 *)
Definition de_new_actor (j : json) : option new_actor :=
  de_fields [lit "actor_id"; lit "name_id"; lit "object_id"; lit "initial_trajectory"] j (fun fs =>
    need_field (lit "actor_id") de_i32 fs (fun fv0 =>
    need_opt_field (lit "name_id") de_i32 fs (fun fv1 =>
    need_field (lit "object_id") de_i32 fs (fun fv2 =>
    need_field (lit "initial_trajectory") de_trajectory fs (fun fv3 =>
    Some (mkNew fv0 fv1 fv2 fv3)))))).

(** attributes.rs:123-126 *)
Definition ser_active_actor (v : active_actor) : json :=
  match v with
  | mkActive fv0 fv1 =>
      JObj [(lit "active", ser_bool fv0);
        (lit "actor", ser_i32 fv1)]
  end.
(** attributes.rs:123-126 *)
Definition de_active_actor (j : json) : option active_actor :=
  de_fields [lit "active"; lit "actor"] j (fun fs =>
    need_field (lit "active") de_bool fs (fun fv0 =>
    need_field (lit "actor") de_i32 fs (fun fv1 =>
    Some (mkActive fv0 fv1)))).

(** attributes.rs:129-137 *)
Definition ser_cam_settings (v : cam_settings) : json :=
  match v with
  | mkCam fv0 fv1 fv2 fv3 fv4 fv5 fv6 =>
      JObj [(lit "fov", ser_f32 fv0);
        (lit "height", ser_f32 fv1);
        (lit "angle", ser_f32 fv2);
        (lit "distance", ser_f32 fv3);
        (lit "stiffness", ser_f32 fv4);
        (lit "swivel", ser_f32 fv5);
        (lit "transition", (ser_opt ser_f32) fv6)]
  end.
(** attributes.rs:129-137 *)
Definition de_cam_settings (j : json) : option cam_settings :=
  de_fields [lit "fov"; lit "height"; lit "angle"; lit "distance"; lit "stiffness"; lit "swivel"; lit "transition"] j (fun fs =>
    need_field (lit "fov") de_f32 fs (fun fv0 =>
    need_field (lit "height") de_f32 fs (fun fv1 =>
    need_field (lit "angle") de_f32 fs (fun fv2 =>
    need_field (lit "distance") de_f32 fs (fun fv3 =>
    need_field (lit "stiffness") de_f32 fs (fun fv4 =>
    need_field (lit "swivel") de_f32 fs (fun fv5 =>
    need_opt_field (lit "transition") de_f32 fs (fun fv6 =>
    Some (mkCam fv0 fv1 fv2 fv3 fv4 fv5 fv6))))))))).

(** attributes.rs:140-145 *)
Definition ser_club_colors (v : club_colors) : json :=
  match v with
  | mkClub fv0 fv1 fv2 fv3 =>
      JObj [(lit "blue_flag", ser_bool fv0);
        (lit "blue_color", ser_u8 fv1);
        (lit "orange_flag", ser_bool fv2);
        (lit "orange_color", ser_u8 fv3)]
  end.
(** attributes.rs:140-145 *)
Definition de_club_colors (j : json) : option club_colors :=
  de_fields [lit "blue_flag"; lit "blue_color"; lit "orange_flag"; lit "orange_color"] j (fun fs =>
    need_field (lit "blue_flag") de_bool fs (fun fv0 =>
    need_field (lit "blue_color") de_u8 fs (fun fv1 =>
    need_field (lit "orange_flag") de_bool fs (fun fv2 =>
    need_field (lit "orange_color") de_u8 fs (fun fv3 =>
    Some (mkClub fv0 fv1 fv2 fv3)))))).

(** attributes.rs:148-153 *)
Definition ser_applied_damage (v : applied_damage) : json :=
  match v with
  | mkApplied fv0 fv1 fv2 fv3 =>
      JObj [(lit "id", ser_u8 fv0);
        (lit "position", ser_vector3f fv1);
        (lit "damage_index", ser_i32 fv2);
        (lit "total_damage", ser_i32 fv3)]
  end.
(** attributes.rs:148-153 *)
Definition de_applied_damage (j : json) : option applied_damage :=
  de_fields [lit "id"; lit "position"; lit "damage_index"; lit "total_damage"] j (fun fs =>
    need_field (lit "id") de_u8 fs (fun fv0 =>
    need_field (lit "position") de_vector3f fs (fun fv1 =>
    need_field (lit "damage_index") de_i32 fs (fun fv2 =>
    need_field (lit "total_damage") de_i32 fs (fun fv3 =>
    Some (mkApplied fv0 fv1 fv2 fv3)))))).

(** attributes.rs:156-172 *)
Definition ser_damage_state (v : damage_state) : json :=
  match v with
  | mkDamage fv0 fv1 fv2 fv3 fv4 fv5 =>
      JObj [(lit "tile_state", ser_u8 fv0);
        (lit "damaged", ser_bool fv1);
        (lit "offender", ser_i32 fv2);
        (lit "ball_position", ser_vector3f fv3);
        (lit "direct_hit", ser_bool fv4);
        (lit "unknown1", ser_bool fv5)]
  end.
(** attributes.rs:156-172 *)
Definition de_damage_state (j : json) : option damage_state :=
  de_fields [lit "tile_state"; lit "damaged"; lit "offender"; lit "ball_position"; lit "direct_hit"; lit "unknown1"] j (fun fs =>
    need_field (lit "tile_state") de_u8 fs (fun fv0 =>
    need_field (lit "damaged") de_bool fs (fun fv1 =>
    need_field (lit "offender") de_i32 fs (fun fv2 =>
    need_field (lit "ball_position") de_vector3f fs (fun fv3 =>
    need_field (lit "direct_hit") de_bool fs (fun fv4 =>
    need_field (lit "unknown1") de_bool fs (fun fv5 =>
    Some (mkDamage fv0 fv1 fv2 fv3 fv4 fv5)))))))).

(** attributes.rs:175-182 *)
Definition ser_demolish (v : demolish) : json :=
  match v with
  | mkDemolish fv0 fv1 fv2 fv3 fv4 fv5 =>
      JObj [(lit "attacker_flag", ser_bool fv0);
        (lit "attacker", ser_i32 fv1);
        (lit "victim_flag", ser_bool fv2);
        (lit "victim", ser_i32 fv3);
        (lit "attack_velocity", ser_vector3f fv4);
        (lit "victim_velocity", ser_vector3f fv5)]
  end.
(** attributes.rs:175-182 *)
Definition de_demolish (j : json) : option demolish :=
  de_fields [lit "attacker_flag"; lit "attacker"; lit "victim_flag"; lit "victim"; lit "attack_velocity"; lit "victim_velocity"] j (fun fs =>
    need_field (lit "attacker_flag") de_bool fs (fun fv0 =>
    need_field (lit "attacker") de_i32 fs (fun fv1 =>
    need_field (lit "victim_flag") de_bool fs (fun fv2 =>
    need_field (lit "victim") de_i32 fs (fun fv3 =>
    need_field (lit "attack_velocity") de_vector3f fs (fun fv4 =>
    need_field (lit "victim_velocity") de_vector3f fs (fun fv5 =>
    Some (mkDemolish fv0 fv1 fv2 fv3 fv4 fv5)))))))).

(** attributes.rs:185-194 *)
Definition ser_demolish_extended (v : demolish_extended) : json :=
  match v with
  | mkDemolishExt fv0 fv1 fv2 fv3 fv4 fv5 fv6 fv7 =>
      JObj [(lit "attacker_pri", ser_active_actor fv0);
        (lit "self_demo", ser_active_actor fv1);
        (lit "self_demolish", ser_bool fv2);
        (lit "goal_explosion_owner", ser_active_actor fv3);
        (lit "attacker", ser_active_actor fv4);
        (lit "victim", ser_active_actor fv5);
        (lit "attacker_velocity", ser_vector3f fv6);
        (lit "victim_velocity", ser_vector3f fv7)]
  end.
(** attributes.rs:185-194 *)
Definition de_demolish_extended (j : json) : option demolish_extended :=
  de_fields [lit "attacker_pri"; lit "self_demo"; lit "self_demolish"; lit "goal_explosion_owner"; lit "attacker"; lit "victim"; lit "attacker_velocity"; lit "victim_velocity"] j (fun fs =>
    need_field (lit "attacker_pri") de_active_actor fs (fun fv0 =>
    need_field (lit "self_demo") de_active_actor fs (fun fv1 =>
    need_field (lit "self_demolish") de_bool fs (fun fv2 =>
    need_field (lit "goal_explosion_owner") de_active_actor fs (fun fv3 =>
    need_field (lit "attacker") de_active_actor fs (fun fv4 =>
    need_field (lit "victim") de_active_actor fs (fun fv5 =>
    need_field (lit "attacker_velocity") de_vector3f fs (fun fv6 =>
    need_field (lit "victim_velocity") de_vector3f fs (fun fv7 =>
    Some (mkDemolishExt fv0 fv1 fv2 fv3 fv4 fv5 fv6 fv7)))))))))).

(** attributes.rs:197-206 *)
Definition ser_demolish_fx (v : demolish_fx) : json :=
  match v with
  | mkDemolishFx fv0 fv1 fv2 fv3 fv4 fv5 fv6 fv7 =>
      JObj [(lit "custom_demo_flag", ser_bool fv0);
        (lit "custom_demo_id", ser_i32 fv1);
        (lit "attacker_flag", ser_bool fv2);
        (lit "attacker", ser_i32 fv3);
        (lit "victim_flag", ser_bool fv4);
        (lit "victim", ser_i32 fv5);
        (lit "attack_velocity", ser_vector3f fv6);
        (lit "victim_velocity", ser_vector3f fv7)]
  end.
(** attributes.rs:197-206 *)
Definition de_demolish_fx (j : json) : option demolish_fx :=
  de_fields [lit "custom_demo_flag"; lit "custom_demo_id"; lit "attacker_flag"; lit "attacker"; lit "victim_flag"; lit "victim"; lit "attack_velocity"; lit "victim_velocity"] j (fun fs =>
    need_field (lit "custom_demo_flag") de_bool fs (fun fv0 =>
    need_field (lit "custom_demo_id") de_i32 fs (fun fv1 =>
    need_field (lit "attacker_flag") de_bool fs (fun fv2 =>
    need_field (lit "attacker") de_i32 fs (fun fv3 =>
    need_field (lit "victim_flag") de_bool fs (fun fv4 =>
    need_field (lit "victim") de_i32 fs (fun fv5 =>
    need_field (lit "attack_velocity") de_vector3f fs (fun fv6 =>
    need_field (lit "victim_velocity") de_vector3f fs (fun fv7 =>
    Some (mkDemolishFx fv0 fv1 fv2 fv3 fv4 fv5 fv6 fv7)))))))))).

(** attributes.rs:209-213 *)
Definition ser_explosion (v : explosion) : json :=
  match v with
  | mkExplosion fv0 fv1 fv2 =>
      JObj [(lit "flag", ser_bool fv0);
        (lit "actor", ser_i32 fv1);
        (lit "location", ser_vector3f fv2)]
  end.
(** attributes.rs:209-213 *)
Definition de_explosion (j : json) : option explosion :=
  de_fields [lit "flag"; lit "actor"; lit "location"] j (fun fs =>
    need_field (lit "flag") de_bool fs (fun fv0 =>
    need_field (lit "actor") de_i32 fs (fun fv1 =>
    need_field (lit "location") de_vector3f fs (fun fv2 =>
    Some (mkExplosion fv0 fv1 fv2))))).

(** attributes.rs:216-220 *)
Definition ser_extended_explosion (v : extended_explosion) : json :=
  match v with
  | mkExtExplosion fv0 fv1 fv2 =>
      JObj [(lit "explosion", ser_explosion fv0);
        (lit "unknown1", ser_bool fv1);
        (lit "secondary_actor", ser_i32 fv2)]
  end.
(** attributes.rs:216-220 *)
Definition de_extended_explosion (j : json) : option extended_explosion :=
  de_fields [lit "explosion"; lit "unknown1"; lit "secondary_actor"] j (fun fs =>
    need_field (lit "explosion") de_explosion fs (fun fv0 =>
    need_field (lit "unknown1") de_bool fs (fun fv1 =>
    need_field (lit "secondary_actor") de_i32 fs (fun fv2 =>
    Some (mkExtExplosion fv0 fv1 fv2))))).

(** attributes.rs:223-238 *)
Definition ser_loadout (v : loadout) : json :=
  match v with
  | mkLoadout fv0 fv1 fv2 fv3 fv4 fv5 fv6 fv7 fv8 fv9 fv10 fv11 fv12 fv13 =>
      JObj [(lit "version", ser_u8 fv0);
        (lit "body", ser_u32 fv1);
        (lit "decal", ser_u32 fv2);
        (lit "wheels", ser_u32 fv3);
        (lit "rocket_trail", ser_u32 fv4);
        (lit "antenna", ser_u32 fv5);
        (lit "topper", ser_u32 fv6);
        (lit "unknown1", ser_u32 fv7);
        (lit "unknown2", (ser_opt ser_u32) fv8);
        (lit "engine_audio", (ser_opt ser_u32) fv9);
        (lit "trail", (ser_opt ser_u32) fv10);
        (lit "goal_explosion", (ser_opt ser_u32) fv11);
        (lit "banner", (ser_opt ser_u32) fv12);
        (lit "product_id", (ser_opt ser_u32) fv13)]
  end.
(** attributes.rs:223-238 *)
Definition de_loadout (j : json) : option loadout :=
  de_fields [lit "version"; lit "body"; lit "decal"; lit "wheels"; lit "rocket_trail"; lit "antenna"; lit "topper"; lit "unknown1"; lit "unknown2"; lit "engine_audio"; lit "trail"; lit "goal_explosion"; lit "banner"; lit "product_id"] j (fun fs =>
    need_field (lit "version") de_u8 fs (fun fv0 =>
    need_field (lit "body") de_u32 fs (fun fv1 =>
    need_field (lit "decal") de_u32 fs (fun fv2 =>
    need_field (lit "wheels") de_u32 fs (fun fv3 =>
    need_field (lit "rocket_trail") de_u32 fs (fun fv4 =>
    need_field (lit "antenna") de_u32 fs (fun fv5 =>
    need_field (lit "topper") de_u32 fs (fun fv6 =>
    need_field (lit "unknown1") de_u32 fs (fun fv7 =>
    need_opt_field (lit "unknown2") de_u32 fs (fun fv8 =>
    need_opt_field (lit "engine_audio") de_u32 fs (fun fv9 =>
    need_opt_field (lit "trail") de_u32 fs (fun fv10 =>
    need_opt_field (lit "goal_explosion") de_u32 fs (fun fv11 =>
    need_opt_field (lit "banner") de_u32 fs (fun fv12 =>
    need_opt_field (lit "product_id") de_u32 fs (fun fv13 =>
    Some (mkLoadout fv0 fv1 fv2 fv3 fv4 fv5 fv6 fv7 fv8 fv9 fv10 fv11 fv12 fv13)))))))))))))))).

(** attributes.rs:241-244 *)
Definition ser_team_loadout (v : team_loadout) : json :=
  match v with
  | mkTeamLoadout fv0 fv1 =>
      JObj [(lit "blue", ser_loadout fv0);
        (lit "orange", ser_loadout fv1)]
  end.
(** attributes.rs:241-244 *)
Definition de_team_loadout (j : json) : option team_loadout :=
  de_fields [lit "blue"; lit "orange"] j (fun fs =>
    need_field (lit "blue") de_loadout fs (fun fv0 =>
    need_field (lit "orange") de_loadout fs (fun fv1 =>
    Some (mkTeamLoadout fv0 fv1)))).

(** attributes.rs:247-250 *)
Definition ser_stat_event (v : stat_event) : json :=
  match v with
  | mkStat fv0 fv1 =>
      JObj [(lit "unknown1", ser_bool fv0);
        (lit "object_id", ser_i32 fv1)]
  end.
(** attributes.rs:247-250 *)
Definition de_stat_event (j : json) : option stat_event :=
  de_fields [lit "unknown1"; lit "object_id"] j (fun fs =>
    need_field (lit "unknown1") de_bool fs (fun fv0 =>
    need_field (lit "object_id") de_i32 fs (fun fv1 =>
    Some (mkStat fv0 fv1)))).

(** attributes.rs:253-257 *)
Definition ser_music_stinger (v : music_stinger) : json :=
  match v with
  | mkStinger fv0 fv1 fv2 =>
      JObj [(lit "flag", ser_bool fv0);
        (lit "cue", ser_u32 fv1);
        (lit "trigger", ser_u8 fv2)]
  end.
(** attributes.rs:253-257 *)
Definition de_music_stinger (j : json) : option music_stinger :=
  de_fields [lit "flag"; lit "cue"; lit "trigger"] j (fun fs =>
    need_field (lit "flag") de_bool fs (fun fv0 =>
    need_field (lit "cue") de_u32 fs (fun fv1 =>
    need_field (lit "trigger") de_u8 fs (fun fv2 =>
    Some (mkStinger fv0 fv1 fv2))))).

(** attributes.rs:260-263 *)
Definition ser_pickup (v : pickup) : json :=
  match v with
  | mkPickup fv0 fv1 =>
      JObj [(lit "instigator", (ser_opt ser_i32) fv0);
        (lit "picked_up", ser_bool fv1)]
  end.
(** attributes.rs:260-263 *)
Definition de_pickup (j : json) : option pickup :=
  de_fields [lit "instigator"; lit "picked_up"] j (fun fs =>
    need_opt_field (lit "instigator") de_i32 fs (fun fv0 =>
    need_field (lit "picked_up") de_bool fs (fun fv1 =>
    Some (mkPickup fv0 fv1)))).

(** attributes.rs:266-269 *)
Definition ser_pickup_new (v : pickup_new) : json :=
  match v with
  | mkPickupNew fv0 fv1 =>
      JObj [(lit "instigator", (ser_opt ser_i32) fv0);
        (lit "picked_up", ser_u8 fv1)]
  end.
(** attributes.rs:266-269 *)
Definition de_pickup_new (j : json) : option pickup_new :=
  de_fields [lit "instigator"; lit "picked_up"] j (fun fs =>
    need_opt_field (lit "instigator") de_i32 fs (fun fv0 =>
    need_field (lit "picked_up") de_u8 fs (fun fv1 =>
    Some (mkPickupNew fv0 fv1)))).

(** attributes.rs:272-278 *)
Definition ser_welded (v : welded) : json :=
  match v with
  | mkWelded fv0 fv1 fv2 fv3 fv4 =>
      JObj [(lit "active", ser_bool fv0);
        (lit "actor", ser_i32 fv1);
        (lit "offset", ser_vector3f fv2);
        (lit "mass", ser_f32 fv3);
        (lit "rotation", ser_rotation fv4)]
  end.
(** attributes.rs:272-278 *)
Definition de_welded (j : json) : option welded :=
  de_fields [lit "active"; lit "actor"; lit "offset"; lit "mass"; lit "rotation"] j (fun fs =>
    need_field (lit "active") de_bool fs (fun fv0 =>
    need_field (lit "actor") de_i32 fs (fun fv1 =>
    need_field (lit "offset") de_vector3f fs (fun fv2 =>
    need_field (lit "mass") de_f32 fs (fun fv3 =>
    need_field (lit "rotation") de_rotation fs (fun fv4 =>
    Some (mkWelded fv0 fv1 fv2 fv3 fv4))))))).

(** attributes.rs:281-287 *)
Definition ser_team_paint (v : team_paint) : json :=
  match v with
  | mkTeamPaint fv0 fv1 fv2 fv3 fv4 =>
      JObj [(lit "team", ser_u8 fv0);
        (lit "primary_color", ser_u8 fv1);
        (lit "accent_color", ser_u8 fv2);
        (lit "primary_finish", ser_u32 fv3);
        (lit "accent_finish", ser_u32 fv4)]
  end.
(** attributes.rs:281-287 *)
Definition de_team_paint (j : json) : option team_paint :=
  de_fields [lit "team"; lit "primary_color"; lit "accent_color"; lit "primary_finish"; lit "accent_finish"] j (fun fs =>
    need_field (lit "team") de_u8 fs (fun fv0 =>
    need_field (lit "primary_color") de_u8 fs (fun fv1 =>
    need_field (lit "accent_color") de_u8 fs (fun fv2 =>
    need_field (lit "primary_finish") de_u32 fs (fun fv3 =>
    need_field (lit "accent_finish") de_u32 fs (fun fv4 =>
    Some (mkTeamPaint fv0 fv1 fv2 fv3 fv4))))))).

(** attributes.rs:290-296 *)
Definition ser_rigid_body (v : rigid_body) : json :=
  match v with
  | mkRigid fv0 fv1 fv2 fv3 fv4 =>
      JObj [(lit "sleeping", ser_bool fv0);
        (lit "location", ser_vector3f fv1);
        (lit "rotation", ser_quaternion fv2);
        (lit "linear_velocity", (ser_opt ser_vector3f) fv3);
        (lit "angular_velocity", (ser_opt ser_vector3f) fv4)]
  end.
(** attributes.rs:290-296 *)
Definition de_rigid_body (j : json) : option rigid_body :=
  de_fields [lit "sleeping"; lit "location"; lit "rotation"; lit "linear_velocity"; lit "angular_velocity"] j (fun fs =>
    need_field (lit "sleeping") de_bool fs (fun fv0 =>
    need_field (lit "location") de_vector3f fs (fun fv1 =>
    need_field (lit "rotation") de_quaternion fs (fun fv2 =>
    need_opt_field (lit "linear_velocity") de_vector3f fs (fun fv3 =>
    need_opt_field (lit "angular_velocity") de_vector3f fs (fun fv4 =>
    Some (mkRigid fv0 fv1 fv2 fv3 fv4))))))).

(** attributes.rs:337-361 *)
Definition ser_remote_id (v : remote_id) : json :=
  match v with
  | RPlayStation fv0 fv1 fv2 => JObj [(lit "PlayStation", JObj [(lit "online_id", ser_u64s fv0);
        (lit "name", ser_str fv1);
        (lit "unknown1", ser_bytes fv2)])]
  | RPsyNet fv0 fv1 => JObj [(lit "PsyNet", JObj [(lit "online_id", ser_u64s fv0);
        (lit "unknown1", ser_bytes fv1)])]
  | RSplitScreen x => JObj [(lit "SplitScreen", ser_u32 x)]
  | RSteam x => JObj [(lit "Steam", ser_u64s x)]
  | RSwitch fv0 fv1 => JObj [(lit "Switch", JObj [(lit "online_id", ser_u64s fv0);
        (lit "unknown1", ser_bytes fv1)])]
  | RXbox x => JObj [(lit "Xbox", ser_u64s x)]
  | RQQ x => JObj [(lit "QQ", ser_u64s x)]
  | REpic x => JObj [(lit "Epic", ser_str x)]
  end.
(** attributes.rs:337-361 *)
Definition de_remote_id (j : json) : option remote_id :=
  match j with
  | JObj [(k, p)] =>
      if str_eqb k (lit "PlayStation") then
        (de_fields [lit "online_id"; lit "name"; lit "unknown1"] p (fun fs =>
    need_field (lit "online_id") de_u64s fs (fun fv0 =>
    need_field (lit "name") de_str fs (fun fv1 =>
    need_field (lit "unknown1") de_bytes fs (fun fv2 =>
    Some (RPlayStation fv0 fv1 fv2)))))) else
      if str_eqb k (lit "PsyNet") then
        (de_fields [lit "online_id"; lit "unknown1"] p (fun fs =>
    need_field (lit "online_id") de_u64s fs (fun fv0 =>
    need_field (lit "unknown1") de_bytes fs (fun fv1 =>
    Some (RPsyNet fv0 fv1))))) else
      if str_eqb k (lit "SplitScreen") then
        option_map RSplitScreen (de_u32 p) else
      if str_eqb k (lit "Steam") then
        option_map RSteam (de_u64s p) else
      if str_eqb k (lit "Switch") then
        (de_fields [lit "online_id"; lit "unknown1"] p (fun fs =>
    need_field (lit "online_id") de_u64s fs (fun fv0 =>
    need_field (lit "unknown1") de_bytes fs (fun fv1 =>
    Some (RSwitch fv0 fv1))))) else
      if str_eqb k (lit "Xbox") then
        option_map RXbox (de_u64s p) else
      if str_eqb k (lit "QQ") then
        option_map RQQ (de_u64s p) else
      if str_eqb k (lit "Epic") then
        option_map REpic (de_str p) else
      None
  | _ => None
  end.

(** attributes.rs:299-303 *)
Definition ser_unique_id (v : unique_id) : json :=
  match v with
  | mkUniqueId fv0 fv1 fv2 =>
      JObj [(lit "system_id", ser_u8 fv0);
        (lit "remote_id", ser_remote_id fv1);
        (lit "local_id", ser_u8 fv2)]
  end.
(** attributes.rs:299-303 *)
Definition de_unique_id (j : json) : option unique_id :=
  de_fields [lit "system_id"; lit "remote_id"; lit "local_id"] j (fun fs =>
    need_field (lit "system_id") de_u8 fs (fun fv0 =>
    need_field (lit "remote_id") de_remote_id fs (fun fv1 =>
    need_field (lit "local_id") de_u8 fs (fun fv2 =>
    Some (mkUniqueId fv0 fv1 fv2))))).

(** attributes.rs:364-371 *)
Definition ser_reservation (v : reservation) : json :=
  match v with
  | mkReservation fv0 fv1 fv2 fv3 fv4 fv5 =>
      JObj [(lit "number", ser_u32 fv0);
        (lit "unique_id", ser_unique_id fv1);
        (lit "name", (ser_opt ser_str) fv2);
        (lit "unknown1", ser_bool fv3);
        (lit "unknown2", ser_bool fv4);
        (lit "unknown3", (ser_opt ser_u8) fv5)]
  end.
(** attributes.rs:364-371 *)
Definition de_reservation (j : json) : option reservation :=
  de_fields [lit "number"; lit "unique_id"; lit "name"; lit "unknown1"; lit "unknown2"; lit "unknown3"] j (fun fs =>
    need_field (lit "number") de_u32 fs (fun fv0 =>
    need_field (lit "unique_id") de_unique_id fs (fun fv1 =>
    need_opt_field (lit "name") de_str fs (fun fv2 =>
    need_field (lit "unknown1") de_bool fs (fun fv3 =>
    need_field (lit "unknown2") de_bool fs (fun fv4 =>
    need_opt_field (lit "unknown3") de_u8 fs (fun fv5 =>
    Some (mkReservation fv0 fv1 fv2 fv3 fv4 fv5)))))))).

(** attributes.rs:374-381 *)
Definition ser_private_match (v : private_match) : json :=
  match v with
  | mkPrivateMatch fv0 fv1 fv2 fv3 fv4 fv5 =>
      JObj [(lit "mutators", ser_str fv0);
        (lit "joinable_by", ser_u32 fv1);
        (lit "max_players", ser_u32 fv2);
        (lit "game_name", ser_str fv3);
        (lit "password", ser_str fv4);
        (lit "flag", ser_bool fv5)]
  end.
(** attributes.rs:374-381 *)
Definition de_private_match (j : json) : option private_match :=
  de_fields [lit "mutators"; lit "joinable_by"; lit "max_players"; lit "game_name"; lit "password"; lit "flag"] j (fun fs =>
    need_field (lit "mutators") de_str fs (fun fv0 =>
    need_field (lit "joinable_by") de_u32 fs (fun fv1 =>
    need_field (lit "max_players") de_u32 fs (fun fv2 =>
    need_field (lit "game_name") de_str fs (fun fv3 =>
    need_field (lit "password") de_str fs (fun fv4 =>
    need_field (lit "flag") de_bool fs (fun fv5 =>
    Some (mkPrivateMatch fv0 fv1 fv2 fv3 fv4 fv5)))))))).

(** attributes.rs:399-410 *)
Definition ser_product_value (v : product_value) : json :=
  match v with
  | PVNoColor => JStr (lit "NoColor")
  | PVAbsent => JStr (lit "Absent")
  | PVOldColor x => JObj [(lit "OldColor", ser_u32 x)]
  | PVNewColor x => JObj [(lit "NewColor", ser_u32 x)]
  | PVOldPaint x => JObj [(lit "OldPaint", ser_u32 x)]
  | PVNewPaint x => JObj [(lit "NewPaint", ser_u32 x)]
  | PVTitle x => JObj [(lit "Title", ser_str x)]
  | PVSpecialEdition x => JObj [(lit "SpecialEdition", ser_u32 x)]
  | PVOldTeamEdition x => JObj [(lit "OldTeamEdition", ser_u32 x)]
  | PVNewTeamEdition x => JObj [(lit "NewTeamEdition", ser_u32 x)]
  end.
(** attributes.rs:399-410 *)
Definition de_product_value (j : json) : option product_value :=
  match j with
  | JStr s =>
      if str_eqb s (lit "NoColor") then Some PVNoColor else if str_eqb s (lit "Absent") then Some PVAbsent else None
  | JObj [(k, p)] =>
      if str_eqb k (lit "NoColor") then
        (match p with JNull => Some PVNoColor | _ => None end) else
      if str_eqb k (lit "Absent") then
        (match p with JNull => Some PVAbsent | _ => None end) else
      if str_eqb k (lit "OldColor") then
        option_map PVOldColor (de_u32 p) else
      if str_eqb k (lit "NewColor") then
        option_map PVNewColor (de_u32 p) else
      if str_eqb k (lit "OldPaint") then
        option_map PVOldPaint (de_u32 p) else
      if str_eqb k (lit "NewPaint") then
        option_map PVNewPaint (de_u32 p) else
      if str_eqb k (lit "Title") then
        option_map PVTitle (de_str p) else
      if str_eqb k (lit "SpecialEdition") then
        option_map PVSpecialEdition (de_u32 p) else
      if str_eqb k (lit "OldTeamEdition") then
        option_map PVOldTeamEdition (de_u32 p) else
      if str_eqb k (lit "NewTeamEdition") then
        option_map PVNewTeamEdition (de_u32 p) else
      None
  | _ => None
  end.

(** attributes.rs:384-388 *)
Definition ser_product (v : product) : json :=
  match v with
  | mkProduct fv0 fv1 fv2 =>
      JObj [(lit "unknown", ser_bool fv0);
        (lit "object_ind", ser_i32 fv1);
        (lit "value", ser_product_value fv2)]
  end.
(** attributes.rs:384-388 *)
Definition de_product (j : json) : option product :=
  de_fields [lit "unknown"; lit "object_ind"; lit "value"] j (fun fs =>
    need_field (lit "unknown") de_bool fs (fun fv0 =>
    need_field (lit "object_ind") de_i32 fs (fun fv1 =>
    need_field (lit "value") de_product_value fs (fun fv2 =>
    Some (mkProduct fv0 fv1 fv2))))).

(** attributes.rs:391-396 *)
Definition ser_loadouts_online (v : loadouts_online) : json :=
  match v with
  | mkLoadoutsOnline fv0 fv1 fv2 fv3 =>
      JObj [(lit "blue", (ser_vec (ser_vec ser_product)) fv0);
        (lit "orange", (ser_vec (ser_vec ser_product)) fv1);
        (lit "unknown1", ser_bool fv2);
        (lit "unknown2", ser_bool fv3)]
  end.
(** attributes.rs:391-396 *)
Definition de_loadouts_online (j : json) : option loadouts_online :=
  de_fields [lit "blue"; lit "orange"; lit "unknown1"; lit "unknown2"] j (fun fs =>
    need_field (lit "blue") (de_vec (de_vec de_product)) fs (fun fv0 =>
    need_field (lit "orange") (de_vec (de_vec de_product)) fs (fun fv1 =>
    need_field (lit "unknown1") de_bool fs (fun fv2 =>
    need_field (lit "unknown2") de_bool fs (fun fv3 =>
    Some (mkLoadoutsOnline fv0 fv1 fv2 fv3)))))).

(** attributes.rs:413-419 *)
Definition ser_rep_stat_title (v : rep_stat_title) : json :=
  match v with
  | mkRepStat fv0 fv1 fv2 fv3 fv4 =>
      JObj [(lit "unknown", ser_bool fv0);
        (lit "name", ser_str fv1);
        (lit "unknown2", ser_bool fv2);
        (lit "index", ser_u32 fv3);
        (lit "value", ser_u32 fv4)]
  end.
(** attributes.rs:413-419 *)
Definition de_rep_stat_title (j : json) : option rep_stat_title :=
  de_fields [lit "unknown"; lit "name"; lit "unknown2"; lit "index"; lit "value"] j (fun fs =>
    need_field (lit "unknown") de_bool fs (fun fv0 =>
    need_field (lit "name") de_str fs (fun fv1 =>
    need_field (lit "unknown2") de_bool fs (fun fv2 =>
    need_field (lit "index") de_u32 fs (fun fv3 =>
    need_field (lit "value") de_u32 fs (fun fv4 =>
    Some (mkRepStat fv0 fv1 fv2 fv3 fv4))))))).

(** attributes.rs:422-425 *)
Definition ser_pickup_info (v : pickup_info) : json :=
  match v with
  | mkPickupInfo fv0_0 fv0_1 fv0_2 fv1 =>
      JObj [(lit "available_pickups", JArr [ser_active_actor fv0_0; ser_active_actor fv0_1; ser_active_actor fv0_2]);
        (lit "items_are_preview", ser_bool fv1)]
  end.
(** attributes.rs:422-425 *)
Definition de_pickup_info (j : json) : option pickup_info :=
  de_fields [lit "available_pickups"; lit "items_are_preview"] j (fun fs =>
    need_field (lit "available_pickups") (de_arr3 de_active_actor) fs (fun y => let '(fv0_0, fv0_1, fv0_2) := y in
    need_field (lit "items_are_preview") de_bool fs (fun fv1 =>
    Some (mkPickupInfo fv0_0 fv0_1 fv0_2 fv1)))).

(** attributes.rs:428-431 *)
Definition ser_impulse (v : impulse) : json :=
  match v with
  | mkImpulse fv0 fv1 =>
      JObj [(lit "compressed_rotation", ser_i32 fv0);
        (lit "speed", ser_f32 fv1)]
  end.
(** attributes.rs:428-431 *)
Definition de_impulse (j : json) : option impulse :=
  de_fields [lit "compressed_rotation"; lit "speed"] j (fun fs =>
    need_field (lit "compressed_rotation") de_i32 fs (fun fv0 =>
    need_field (lit "speed") de_f32 fs (fun fv1 =>
    Some (mkImpulse fv0 fv1)))).

(** attributes.rs:434-439 *)
Definition ser_replicated_boost (v : replicated_boost) : json :=
  match v with
  | mkBoost fv0 fv1 fv2 fv3 =>
      JObj [(lit "grant_count", ser_u8 fv0);
        (lit "boost_amount", ser_u8 fv1);
        (lit "unused1", ser_u8 fv2);
        (lit "unused2", ser_u8 fv3)]
  end.
(** attributes.rs:434-439 *)
Definition de_replicated_boost (j : json) : option replicated_boost :=
  de_fields [lit "grant_count"; lit "boost_amount"; lit "unused1"; lit "unused2"] j (fun fs =>
    need_field (lit "grant_count") de_u8 fs (fun fv0 =>
    need_field (lit "boost_amount") de_u8 fs (fun fv1 =>
    need_field (lit "unused1") de_u8 fs (fun fv2 =>
    need_field (lit "unused2") de_u8 fs (fun fv3 =>
    Some (mkBoost fv0 fv1 fv2 fv3)))))).

(** attributes.rs:442-445 *)
Definition ser_logo_data (v : logo_data) : json :=
  match v with
  | mkLogo fv0 fv1 =>
      JObj [(lit "logo_id", ser_u32 fv0);
        (lit "swap_colors", ser_bool fv1)]
  end.
(** attributes.rs:442-445 *)
Definition de_logo_data (j : json) : option logo_data :=
  de_fields [lit "logo_id"; lit "swap_colors"] j (fun fs =>
    need_field (lit "logo_id") de_u32 fs (fun fv0 =>
    need_field (lit "swap_colors") de_bool fs (fun fv1 =>
    Some (mkLogo fv0 fv1)))).

(** attributes.rs:65-120 *)
Definition ser_attribute (v : attribute) : json :=
  match v with
  | ABoolean x => JObj [(lit "Boolean", ser_bool x)]
  | AByte x => JObj [(lit "Byte", ser_u8 x)]
  | AAppliedDamage x => JObj [(lit "AppliedDamage", ser_applied_damage x)]
  | ADamageState x => JObj [(lit "DamageState", ser_damage_state x)]
  | ACamSettings x => JObj [(lit "CamSettings", ser_cam_settings x)]
  | AClubColors x => JObj [(lit "ClubColors", ser_club_colors x)]
  | ADemolish x => JObj [(lit "Demolish", ser_demolish x)]
  | ADemolishExtended x => JObj [(lit "DemolishExtended", ser_demolish_extended x)]
  | ADemolishFx x => JObj [(lit "DemolishFx", ser_demolish_fx x)]
  | AEnum x => JObj [(lit "Enum", ser_u16 x)]
  | AExplosion x => JObj [(lit "Explosion", ser_explosion x)]
  | AExtendedExplosion x => JObj [(lit "ExtendedExplosion", ser_extended_explosion x)]
  | AFlaggedByte fv0 fv1 => JObj [(lit "FlaggedByte", JArr [ser_bool fv0; ser_u8 fv1])]
  | AActiveActor x => JObj [(lit "ActiveActor", ser_active_actor x)]
  | AFloat x => JObj [(lit "Float", ser_f32 x)]
  | AGameMode fv0 fv1 => JObj [(lit "GameMode", JArr [ser_u8 fv0; ser_u8 fv1])]
  | AInt x => JObj [(lit "Int", ser_i32 x)]
  | AInt64 x => JObj [(lit "Int64", ser_i64s x)]
  | ALoadout x => JObj [(lit "Loadout", ser_loadout x)]
  | ATeamLoadout x => JObj [(lit "TeamLoadout", ser_team_loadout x)]
  | ALocation x => JObj [(lit "Location", ser_vector3f x)]
  | AMusicStinger x => JObj [(lit "MusicStinger", ser_music_stinger x)]
  | APlayerHistoryKey x => JObj [(lit "PlayerHistoryKey", ser_u16 x)]
  | APickup x => JObj [(lit "Pickup", ser_pickup x)]
  | APickupNew x => JObj [(lit "PickupNew", ser_pickup_new x)]
  | AQWord x => JObj [(lit "QWord", ser_u64s x)]
  | AWelded x => JObj [(lit "Welded", ser_welded x)]
  | ATitle fv0 fv1 fv2 fv3 fv4 fv5 fv6 fv7 => JObj [(lit "Title", JArr [ser_bool fv0; ser_bool fv1; ser_u32 fv2; ser_u32 fv3; ser_u32 fv4; ser_u32 fv5; ser_u32 fv6; ser_bool fv7])]
  | ATeamPaint x => JObj [(lit "TeamPaint", ser_team_paint x)]
  | ARigidBody x => JObj [(lit "RigidBody", ser_rigid_body x)]
  | AString x => JObj [(lit "String", ser_str x)]
  | AUniqueId x => JObj [(lit "UniqueId", ser_unique_id x)]
  | AReservation x => JObj [(lit "Reservation", ser_reservation x)]
  | APartyLeader x => JObj [(lit "PartyLeader", (ser_opt ser_unique_id) x)]
  | APrivateMatch x => JObj [(lit "PrivateMatch", ser_private_match x)]
  | ALoadoutOnline x => JObj [(lit "LoadoutOnline", (ser_vec (ser_vec ser_product)) x)]
  | ALoadoutsOnline x => JObj [(lit "LoadoutsOnline", ser_loadouts_online x)]
  | AStatEvent x => JObj [(lit "StatEvent", ser_stat_event x)]
  | ARotation x => JObj [(lit "Rotation", ser_rotation x)]
  | ARepStatTitle x => JObj [(lit "RepStatTitle", ser_rep_stat_title x)]
  | APickupInfo x => JObj [(lit "PickupInfo", ser_pickup_info x)]
  | AImpulse x => JObj [(lit "Impulse", ser_impulse x)]
  | AReplicatedBoost x => JObj [(lit "ReplicatedBoost", ser_replicated_boost x)]
  | ALogoData x => JObj [(lit "LogoData", ser_logo_data x)]
  end.
(** attributes.rs:65-120 *)
Definition de_attribute (j : json) : option attribute :=
  match j with
  | JObj [(k, p)] =>
      if str_eqb k (lit "Boolean") then
        option_map ABoolean (de_bool p) else
      if str_eqb k (lit "Byte") then
        option_map AByte (de_u8 p) else
      if str_eqb k (lit "AppliedDamage") then
        option_map AAppliedDamage (de_applied_damage p) else
      if str_eqb k (lit "DamageState") then
        option_map ADamageState (de_damage_state p) else
      if str_eqb k (lit "CamSettings") then
        option_map ACamSettings (de_cam_settings p) else
      if str_eqb k (lit "ClubColors") then
        option_map AClubColors (de_club_colors p) else
      if str_eqb k (lit "Demolish") then
        option_map ADemolish (de_demolish p) else
      if str_eqb k (lit "DemolishExtended") then
        option_map ADemolishExtended (de_demolish_extended p) else
      if str_eqb k (lit "DemolishFx") then
        option_map ADemolishFx (de_demolish_fx p) else
      if str_eqb k (lit "Enum") then
        option_map AEnum (de_u16 p) else
      if str_eqb k (lit "Explosion") then
        option_map AExplosion (de_explosion p) else
      if str_eqb k (lit "ExtendedExplosion") then
        option_map AExtendedExplosion (de_extended_explosion p) else
      if str_eqb k (lit "FlaggedByte") then
        (match p with JArr [jfv0; jfv1] =>
          match de_bool jfv0 with None => None | Some fv0 =>
          match de_u8 jfv1 with None => None | Some fv1 =>
          Some (AFlaggedByte fv0 fv1) end end
          | _ => None end) else
      if str_eqb k (lit "ActiveActor") then
        option_map AActiveActor (de_active_actor p) else
      if str_eqb k (lit "Float") then
        option_map AFloat (de_f32 p) else
      if str_eqb k (lit "GameMode") then
        (match p with JArr [jfv0; jfv1] =>
          match de_u8 jfv0 with None => None | Some fv0 =>
          match de_u8 jfv1 with None => None | Some fv1 =>
          Some (AGameMode fv0 fv1) end end
          | _ => None end) else
      if str_eqb k (lit "Int") then
        option_map AInt (de_i32 p) else
      if str_eqb k (lit "Int64") then
        option_map AInt64 (de_i64s p) else
      if str_eqb k (lit "Loadout") then
        option_map ALoadout (de_loadout p) else
      if str_eqb k (lit "TeamLoadout") then
        option_map ATeamLoadout (de_team_loadout p) else
      if str_eqb k (lit "Location") then
        option_map ALocation (de_vector3f p) else
      if str_eqb k (lit "MusicStinger") then
        option_map AMusicStinger (de_music_stinger p) else
      if str_eqb k (lit "PlayerHistoryKey") then
        option_map APlayerHistoryKey (de_u16 p) else
      if str_eqb k (lit "Pickup") then
        option_map APickup (de_pickup p) else
      if str_eqb k (lit "PickupNew") then
        option_map APickupNew (de_pickup_new p) else
      if str_eqb k (lit "QWord") then
        option_map AQWord (de_u64s p) else
      if str_eqb k (lit "Welded") then
        option_map AWelded (de_welded p) else
      if str_eqb k (lit "Title") then
        (match p with JArr [jfv0; jfv1; jfv2; jfv3; jfv4; jfv5; jfv6; jfv7] =>
          match de_bool jfv0 with None => None | Some fv0 =>
          match de_bool jfv1 with None => None | Some fv1 =>
          match de_u32 jfv2 with None => None | Some fv2 =>
          match de_u32 jfv3 with None => None | Some fv3 =>
          match de_u32 jfv4 with None => None | Some fv4 =>
          match de_u32 jfv5 with None => None | Some fv5 =>
          match de_u32 jfv6 with None => None | Some fv6 =>
          match de_bool jfv7 with None => None | Some fv7 =>
          Some (ATitle fv0 fv1 fv2 fv3 fv4 fv5 fv6 fv7) end end end end end end end end
          | _ => None end) else
      if str_eqb k (lit "TeamPaint") then
        option_map ATeamPaint (de_team_paint p) else
      if str_eqb k (lit "RigidBody") then
        option_map ARigidBody (de_rigid_body p) else
      if str_eqb k (lit "String") then
        option_map AString (de_str p) else
      if str_eqb k (lit "UniqueId") then
        option_map AUniqueId (de_unique_id p) else
      if str_eqb k (lit "Reservation") then
        option_map AReservation (de_reservation p) else
      if str_eqb k (lit "PartyLeader") then
        option_map APartyLeader ((de_opt de_unique_id) p) else
      if str_eqb k (lit "PrivateMatch") then
        option_map APrivateMatch (de_private_match p) else
      if str_eqb k (lit "LoadoutOnline") then
        option_map ALoadoutOnline ((de_vec (de_vec de_product)) p) else
      if str_eqb k (lit "LoadoutsOnline") then
        option_map ALoadoutsOnline (de_loadouts_online p) else
      if str_eqb k (lit "StatEvent") then
        option_map AStatEvent (de_stat_event p) else
      if str_eqb k (lit "Rotation") then
        option_map ARotation (de_rotation p) else
      if str_eqb k (lit "RepStatTitle") then
        option_map ARepStatTitle (de_rep_stat_title p) else
      if str_eqb k (lit "PickupInfo") then
        option_map APickupInfo (de_pickup_info p) else
      if str_eqb k (lit "Impulse") then
        option_map AImpulse (de_impulse p) else
      if str_eqb k (lit "ReplicatedBoost") then
        option_map AReplicatedBoost (de_replicated_boost p) else
      if str_eqb k (lit "LogoData") then
        option_map ALogoData (de_logo_data p) else
      None
  | _ => None
  end.

(** models.rs(network):221-233 *)
Definition ser_updated_attribute (v : updated_attribute) : json :=
  match v with
  | mkUpdated fv0 fv1 fv2 fv3 =>
      JObj [(lit "actor_id", ser_i32 fv0);
        (lit "stream_id", ser_i32 fv1);
        (lit "object_id", ser_i32 fv2);
        (lit "attribute", ser_attribute fv3)]
  end.
(** models.rs(network):221-233 *)
Definition de_updated_attribute (j : json) : option updated_attribute :=
  de_fields [lit "actor_id"; lit "stream_id"; lit "object_id"; lit "attribute"] j (fun fs =>
    need_field (lit "actor_id") de_i32 fs (fun fv0 =>
    need_field (lit "stream_id") de_i32 fs (fun fv1 =>
    need_field (lit "object_id") de_i32 fs (fun fv2 =>
    need_field (lit "attribute") de_attribute fs (fun fv3 =>
    Some (mkUpdated fv0 fv1 fv2 fv3)))))).

(** models.rs(network):237-252 *)
Definition ser_frame (v : frame) : json :=
  match v with
  | mkFrame fv0 fv1 fv2 fv3 fv4 =>
      JObj [(lit "time", ser_f32 fv0);
        (lit "delta", ser_f32 fv1);
        (lit "new_actors", (ser_vec ser_new_actor) fv2);
        (lit "deleted_actors", (ser_vec ser_i32) fv3);
        (lit "updated_actors", (ser_vec ser_updated_attribute) fv4)]
  end.
(** models.rs(network):237-252 *)
Definition de_frame (j : json) : option frame :=
  de_fields [lit "time"; lit "delta"; lit "new_actors"; lit "deleted_actors"; lit "updated_actors"] j (fun fs =>
    need_field (lit "time") de_f32 fs (fun fv0 =>
    need_field (lit "delta") de_f32 fs (fun fv1 =>
    need_field (lit "new_actors") (de_vec de_new_actor) fs (fun fv2 =>
    need_field (lit "deleted_actors") (de_vec de_i32) fs (fun fv3 =>
    need_field (lit "updated_actors") (de_vec de_updated_attribute) fs (fun fv4 =>
    Some (mkFrame fv0 fv1 fv2 fv3 fv4))))))).
