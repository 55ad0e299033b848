(** * Types of the decoded network data

    Models the data types of /repo/src/network/models.rs and
    /repo/src/network/attributes.rs.  Newtypes ([ActorId], [ObjectId],
    [StreamId]) are plain [Z]; [Box] is dropped. *)

From Coq Require Import ZArith List.
From Verif Require Import Base F32.

(** models.rs(network):5-10 *)
Record vector3f := mkV3f { v3f_x : f32; v3f_y : f32; v3f_z : f32 }.
(** models.rs(network):24-29 *)
Record vector3i := mkV3i { v3i_x : Z; v3i_y : Z; v3i_z : Z }.
(** models.rs(network):88-94 *)
Record quaternion := mkQuat { q_x : f32; q_y : f32; q_z : f32; q_w : f32 }.
(** models.rs(network):178-183 *)
Record rotation := mkRot { r_yaw : option Z; r_pitch : option Z; r_roll : option Z }.
(** models.rs(network):211-216 *)
Inductive spawn_trajectory : Set := SpNone | SpLocation | SpLocationAndRotation.
(** models.rs(network):344-348 *)
Record trajectory := mkTraj { t_location : option vector3i; t_rotation : option rotation }.
(** models.rs(network):328-341 *)
Record new_actor := mkNew {
  n_actor_id : Z; n_name_id : option Z; n_object_id : Z; n_traj : trajectory }.

(** attributes.rs:11-57 *)
Inductive attribute_tag : Set :=
| TBoolean | TByte | TAppliedDamage | TDamageState | TCamSettings | TClubColors
| TDemolish | TDemolishFx | TDemolishExtended | TEnum | TExplosion
| TExtendedExplosion | TFlaggedByte | TActiveActor | TFloat | TGameMode | TInt
| TInt64 | TLoadout | TTeamLoadout | TLocation | TMusicStinger | TPickup
| TPickupNew | TPlayerHistoryKey | TQWordString | TWelded | TRigidBody | TTitle
| TTeamPaint | TNotImplemented | TString | TUniqueId | TReservation
| TPartyLeader | TPrivateMatchSettings | TLoadoutOnline | TLoadoutsOnline
| TStatEvent | TRotationTag | TRepStatTitle | TPickupInfo | TImpulse
| TReplicatedBoost | TLogoData.

(** attributes.rs:122-126 *)
Record active_actor := mkActive { aa_active : bool; aa_actor : Z }.
(** attributes.rs:128-137 *)
Record cam_settings := mkCam {
  cs_fov : f32; cs_height : f32; cs_angle : f32; cs_distance : f32;
  cs_stiffness : f32; cs_swivel : f32; cs_transition : option f32 }.
(** attributes.rs:139-145 *)
Record club_colors := mkClub {
  cc_blue_flag : bool; cc_blue_color : Z; cc_orange_flag : bool; cc_orange_color : Z }.
(** attributes.rs:147-153 *)
Record applied_damage := mkApplied {
  ad_id : Z; ad_position : vector3f; ad_damage_index : Z; ad_total_damage : Z }.
(** attributes.rs:155-172 *)
Record damage_state := mkDamage {
  ds_tile_state : Z; ds_damaged : bool; ds_offender : Z; ds_ball_position : vector3f;
  ds_direct_hit : bool; ds_unknown1 : bool }.
(** attributes.rs:174-182 *)
Record demolish := mkDemolish {
  dm_attacker_flag : bool; dm_attacker : Z; dm_victim_flag : bool; dm_victim : Z;
  dm_attack_velocity : vector3f; dm_victim_velocity : vector3f }.
(** attributes.rs:184-194 *)
Record demolish_extended := mkDemolishExt {
  de_attacker_pri : active_actor; de_self_demo : active_actor; de_self_demolish : bool;
  de_goal_explosion_owner : active_actor; de_attacker : active_actor;
  de_victim : active_actor; de_attacker_velocity : vector3f; de_victim_velocity : vector3f }.
(** attributes.rs:196-206 *)
Record demolish_fx := mkDemolishFx {
  df_custom_demo_flag : bool; df_custom_demo_id : Z; df_attacker_flag : bool;
  df_attacker : Z; df_victim_flag : bool; df_victim : Z;
  df_attack_velocity : vector3f; df_victim_velocity : vector3f }.
(** attributes.rs:208-213 *)
Record explosion := mkExplosion { ex_flag : bool; ex_actor : Z; ex_location : vector3f }.
(** attributes.rs:215-220 *)
Record extended_explosion := mkExtExplosion {
  ee_explosion : explosion; ee_unknown1 : bool; ee_secondary_actor : Z }.
(** attributes.rs:222-238 *)
Record loadout := mkLoadout {
  lo_version : Z; lo_body : Z; lo_decal : Z; lo_wheels : Z; lo_rocket_trail : Z;
  lo_antenna : Z; lo_topper : Z; lo_unknown1 : Z; lo_unknown2 : option Z;
  lo_engine_audio : option Z; lo_trail : option Z; lo_goal_explosion : option Z;
  lo_banner : option Z; lo_product_id : option Z }.
(** attributes.rs:240-244 *)
Record team_loadout := mkTeamLoadout { tl_blue : loadout; tl_orange : loadout }.
(** attributes.rs:246-250 *)
Record stat_event := mkStat { se_unknown1 : bool; se_object_id : Z }.
(** attributes.rs:252-257 *)
Record music_stinger := mkStinger { ms_flag : bool; ms_cue : Z; ms_trigger : Z }.
(** attributes.rs:259-263 *)
Record pickup := mkPickup { pk_instigator : option Z; pk_picked_up : bool }.
(** attributes.rs:265-269 *)
Record pickup_new := mkPickupNew { pn_instigator : option Z; pn_picked_up : Z }.
(** attributes.rs:271-278 *)
Record welded := mkWelded {
  we_active : bool; we_actor : Z; we_offset : vector3f; we_mass : f32; we_rotation : rotation }.
(** attributes.rs:280-287 *)
Record team_paint := mkTeamPaint {
  tp_team : Z; tp_primary_color : Z; tp_accent_color : Z; tp_primary_finish : Z;
  tp_accent_finish : Z }.
(** attributes.rs:289-296 *)
Record rigid_body := mkRigid {
  rb_sleeping : bool; rb_location : vector3f; rb_rotation : quaternion;
  rb_linear_velocity : option vector3f; rb_angular_velocity : option vector3f }.
(** attributes.rs:305-361; [PsyNetId], [SwitchId] and [Ps4Id] are inlined *)
Inductive remote_id :=
| RPlayStation (online_id : Z) (name : str) (unknown1 : list byte)
| RPsyNet (online_id : Z) (unknown1 : list byte)
| RSplitScreen (id : Z)
| RSteam (id : Z)
| RSwitch (online_id : Z) (unknown1 : list byte)
| RXbox (id : Z)
| RQQ (id : Z)
| REpic (id : str).
(** attributes.rs:298-303 *)
Record unique_id := mkUniqueId { ui_system_id : Z; ui_remote_id : remote_id; ui_local_id : Z }.
(** attributes.rs:363-371 *)
Record reservation := mkReservation {
  rv_number : Z; rv_unique_id : unique_id; rv_name : option str; rv_unknown1 : bool;
  rv_unknown2 : bool; rv_unknown3 : option Z }.
(** attributes.rs:373-381 *)
Record private_match := mkPrivateMatch {
  pm_mutators : str; pm_joinable_by : Z; pm_max_players : Z; pm_game_name : str;
  pm_password : str; pm_flag : bool }.
(** attributes.rs:398-410 *)
Inductive product_value :=
| PVNoColor | PVAbsent | PVOldColor (x : Z) | PVNewColor (x : Z) | PVOldPaint (x : Z)
| PVNewPaint (x : Z) | PVTitle (s : str) | PVSpecialEdition (x : Z)
| PVOldTeamEdition (x : Z) | PVNewTeamEdition (x : Z).
(** attributes.rs:383-388 *)
Record product := mkProduct { pr_unknown : bool; pr_object_ind : Z; pr_value : product_value }.
(** attributes.rs:390-396 *)
Record loadouts_online := mkLoadoutsOnline {
  lso_blue : list (list product); lso_orange : list (list product);
  lso_unknown1 : bool; lso_unknown2 : bool }.
(** attributes.rs:412-419 *)
Record rep_stat_title := mkRepStat {
  rs_unknown : bool; rs_name : str; rs_unknown2 : bool; rs_index : Z; rs_value : Z }.
(** attributes.rs:421-425; the array of three is three fields *)
Record pickup_info := mkPickupInfo {
  pi_0 : active_actor; pi_1 : active_actor; pi_2 : active_actor; pi_items_are_preview : bool }.
(** attributes.rs:427-431 *)
Record impulse := mkImpulse { im_compressed_rotation : Z; im_speed : f32 }.
(** attributes.rs:433-439 *)
Record replicated_boost := mkBoost {
  bo_grant_count : Z; bo_boost_amount : Z; bo_unused1 : Z; bo_unused2 : Z }.
(** attributes.rs:441-445 *)
Record logo_data := mkLogo { lg_logo_id : Z; lg_swap_colors : bool }.

(** attributes.rs:64-120 *)
Inductive attribute :=
| ABoolean (b : bool)
| AByte (x : Z)
| AAppliedDamage (x : applied_damage)
| ADamageState (x : damage_state)
| ACamSettings (x : cam_settings)
| AClubColors (x : club_colors)
| ADemolish (x : demolish)
| ADemolishExtended (x : demolish_extended)
| ADemolishFx (x : demolish_fx)
| AEnum (x : Z)
| AExplosion (x : explosion)
| AExtendedExplosion (x : extended_explosion)
| AFlaggedByte (b : bool) (x : Z)
| AActiveActor (x : active_actor)
| AFloat (x : f32)
| AGameMode (init x : Z)
| AInt (x : Z)
| AInt64 (x : Z)
| ALoadout (x : loadout)
| ATeamLoadout (x : team_loadout)
| ALocation (x : vector3f)
| AMusicStinger (x : music_stinger)
| APlayerHistoryKey (x : Z)
| APickup (x : pickup)
| APickupNew (x : pickup_new)
| AQWord (x : Z)
| AWelded (x : welded)
| ATitle (u1 u2 : bool) (u3 u4 u5 u6 u7 : Z) (u8 : bool)
| ATeamPaint (x : team_paint)
| ARigidBody (x : rigid_body)
| AString (s : str)
| AUniqueId (x : unique_id)
| AReservation (x : reservation)
| APartyLeader (x : option unique_id)
| APrivateMatch (x : private_match)
| ALoadoutOnline (x : list (list product))
| ALoadoutsOnline (x : loadouts_online)
| AStatEvent (x : stat_event)
| ARotation (x : rotation)
| ARepStatTitle (x : rep_stat_title)
| APickupInfo (x : pickup_info)
| AImpulse (x : impulse)
| AReplicatedBoost (x : replicated_boost)
| ALogoData (x : logo_data).

(** models.rs(network):220-233 *)
Record updated_attribute := mkUpdated {
  u_actor_id : Z; u_stream_id : Z; u_object_id : Z; u_attribute : attribute }.
(** models.rs(network):236-252 *)
Record frame := mkFrame {
  f_time : f32; f_delta : f32; f_new_actors : list new_actor;
  f_deleted_actors : list Z; f_updated_actors : list updated_attribute }.

(** mod.rs(network):27-31 *)
Record object_attribute := mkObjAttr { oa_attribute : attribute_tag; oa_object_id : Z }.

(** mod.rs(network):33-40: [VersionTriplet], ordered lexicographically *)
Record version := mkVersion { v_major : Z; v_minor : Z; v_net : Z }.
(** [>=] of the derived [PartialOrd], network/mod.rs:33-40. *)
Definition version_geb (a b : version) : bool :=
  if Z.eqb (v_major a) (v_major b) then
    if Z.eqb (v_minor a) (v_minor b) then Z.leb (v_net b) (v_net a)
    else Z.ltb (v_minor b) (v_minor a)
  else Z.ltb (v_major b) (v_major a).
