(** * Specification: which values can be transmitted

    The values that an attribute, an announcement and a frame can have, by the
    ranges of their fields.  Encodings are not mentioned. *)

From Coq Require Import ZArith List Bool Floats.SpecFloat.
From Verif Require Import Base F32 NetTypes Header Body Attributes Wire SpecText SpecWrite SpecBasic SpecNet SpecFrames SpecSize.
Open Scope Z_scope.

Definition unsigned (n x : Z) : Prop := 0 <= x < 2 ^ n.
Definition signed (n x : Z) : Prop := - 2 ^ (n - 1) <= x < 2 ^ (n - 1).
(** present exactly under a condition *)
Definition present {A} (c : bool) (P : A -> Prop) (o : option A) : Prop :=
  match o with Some x => c = true /\ P x | None => c = false end.
Definition if_any {A} (P : A -> Prop) (o : option A) : Prop :=
  match o with Some x => P x | None => True end.

(** ** Vectors and rotations *)

(** 21 bits for a component in old replays, 23 in others *)
Definition component_range (net x : Z) : Prop := signed (if net <? 7 then 21 else 23) x.
Definition vec3i_range (net : Z) (v : vector3i) : Prop :=
  component_range net (v3i_x v) /\ component_range net (v3i_y v) /\ component_range net (v3i_z v).
Definition vec3f_range (net : Z) (v : vector3f) : Prop :=
  exists x y z, vec3i_range net (mkV3i x y z) /\ v = mkV3f (hundredths x) (hundredths y) (hundredths z).
Definition rotation_range (r : rotation) : Prop :=
  if_any (signed 8) (r_yaw r) /\ if_any (signed 8) (r_pitch r) /\ if_any (signed 8) (r_roll r).

Definition quat_range (net : Z) (q : quaternion) : Prop :=
  if net <? 7 then
    exists x y z, unsigned 16 x /\ unsigned 16 y /\ unsigned 16 z /\
      q = mkQuat (bits_of_sf (old_part x)) (bits_of_sf (old_part y)) (bits_of_sf (old_part z)) 0
  else
    exists a b c, unsigned 18 a /\ unsigned 18 b /\ unsigned 18 c /\
      let a := new_part a in let b := new_part b in let c := new_part c in
      let e := bits_of_sf (largest_part a b c) in
      let a := bits_of_sf a in let b := bits_of_sf b in let c := bits_of_sf c in
      (q = mkQuat e a b c \/ q = mkQuat a e b c \/ q = mkQuat a b e c \/ q = mkQuat a b c e).

Definition trajectory_range (sp : spawn_trajectory) (net : Z) (t : trajectory) : Prop :=
  match sp, t_location t, t_rotation t with
  | SpNone, None, None => True
  | SpLocation, Some l, None => vec3i_range net l
  | SpLocationAndRotation, Some l, Some r => vec3i_range net l /\ rotation_range r
  | _, _, _ => False
  end.

(** ** Texts *)

(** 1023 characters that Windows-1252 has, or 511 UTF-16 units *)
Definition short_text (s : str) : Prop := exists cs, utf8 cs s /\
  ((exists l, Forall2 windows1252_one l cs) /\ count cs <= 1023 \/ count (flat_map utf16_units_of cs) <= 511).

(** sixteen characters that Windows-1252 has, not zero *)
Definition field_text (s : str) : Prop := exists cs, utf8 cs s /\
  (exists l, Forall2 windows1252_one l cs) /\ count cs <= 16 /\ ~ In 0 cs.

(** Latin-1 characters, not zero; all but the last take less than 255 bytes *)
Definition local_name (s : str) : Prop := exists cs, utf8 cs s /\ Forall (fun c => 0 < c < 256) cs /\
  forall p c t, cs = p ++ [c] -> utf8 p t -> lenZ t < 255.

(** ** Products *)

Definition value_range (P : product_value_decoder) (obj : Z) (x : product_value) : Prop :=
  let v := pd_version P in
  if obj =? pd_color_ind P then
    match x with
    | PVNewColor c => at_least v 868 23 8 = true /\ unsigned 32 c
    | PVOldColor c => at_least v 868 23 8 = false /\ unsigned 31 c
    | PVNoColor => at_least v 868 23 8 = false
    | _ => False
    end
  else if obj =? pd_painted_ind P then
    match x with
    | PVNewPaint c => at_least v 868 18 0 = true /\ unsigned 31 c
    | PVOldPaint c => at_least v 868 18 0 = false /\ 0 <= c < 14
    | _ => False
    end
  else if obj =? pd_title_ind P then match x with PVTitle s => short_text s | _ => False end
  else if obj =? pd_special_edition_ind P then match x with PVSpecialEdition c => unsigned 31 c | _ => False end
  else if obj =? pd_team_edition_ind P then
    match x with
    | PVNewTeamEdition c => at_least v 868 18 0 = true /\ unsigned 31 c
    | PVOldTeamEdition c => at_least v 868 18 0 = false /\ 0 <= c < 14
    | _ => False
    end
  else x = PVAbsent.
Definition product_range (P : product_value_decoder) (p : product) : Prop :=
  signed 32 (pr_object_ind p) /\ value_range P (pr_object_ind p) (pr_value p).
Definition online_range (P : product_value_decoder) (l : list (list product)) : Prop :=
  count l <= 255 /\ Forall (fun ps => count ps <= 255 /\ Forall (product_range P) ps) l.

(** ** Unique ids *)

Definition remote_range (net sys : Z) (r : remote_id) : Prop :=
  match r with
  | RSplitScreen x => sys = 0 /\ unsigned 24 x
  | RSteam x => sys = 1 /\ unsigned 64 x
  | RPlayStation x name u => sys = 2 /\ unsigned 64 x /\ field_text name /\ length u = (if Z.ltb net 1 then 8 else 16)%nat
  | RXbox x => sys = 4 /\ unsigned 64 x
  | RQQ x => sys = 5 /\ unsigned 64 x
  | RSwitch x u => sys = 6 /\ unsigned 64 x /\ length u = 24%nat
  | RPsyNet x u => sys = 7 /\ unsigned 64 x /\ length u = (if Z.ltb net 10 then 24 else 0)%nat
  | REpic s => sys = 11 /\ short_text s
  end.
Definition unique_range (net : Z) (u : unique_id) : Prop :=
  remote_range net (ui_system_id u) (ui_remote_id u) /\ unsigned 8 (ui_local_id u).

(** only split screen players with id 0 have no name *)
Definition name_range (u : unique_id) (name : option str) : Prop :=
  match name with
  | None => ui_remote_id u = RSplitScreen 0
  | Some s => if ui_system_id u =? 0 then ui_remote_id u <> RSplitScreen 0 /\ local_name s else short_text s
  end.

Definition loadout_range (l : loadout) : Prop :=
  let v := lo_version l in
  unsigned 8 v /\ unsigned 32 (lo_body l) /\ unsigned 32 (lo_decal l) /\ unsigned 32 (lo_wheels l) /\
  unsigned 32 (lo_rocket_trail l) /\ unsigned 32 (lo_antenna l) /\ unsigned 32 (lo_topper l) /\
  unsigned 32 (lo_unknown1 l) /\ present (11 <=? v) (unsigned 32) (lo_unknown2 l) /\
  present (16 <=? v) (unsigned 32) (lo_engine_audio l) /\ present (16 <=? v) (unsigned 32) (lo_trail l) /\
  present (16 <=? v) (unsigned 32) (lo_goal_explosion l) /\ present (17 <=? v) (unsigned 32) (lo_banner l) /\
  present (19 <=? v) (unsigned 32) (lo_product_id l).

(** ** Attributes *)

Definition active_range (a : active_actor) : Prop := signed 32 (aa_actor a).
Definition explosion_range (net : Z) (e : explosion) : Prop :=
  signed 32 (ex_actor e) /\ vec3f_range net (ex_location e).

Definition attribute_range (D : attribute_decoder) (tag : attribute_tag) (a : attribute) : Prop :=
  let ver := ad_version D in
  let net := v_net ver in
  match tag, a with
  | TBoolean, ABoolean _ => True
  | TByte, AByte x => unsigned 8 x
  | TAppliedDamage, AAppliedDamage x =>
      unsigned 8 (ad_id x) /\ vec3f_range net (ad_position x) /\ signed 32 (ad_damage_index x) /\ signed 32 (ad_total_damage x)
  | TDamageState, ADamageState x =>
      unsigned 8 (ds_tile_state x) /\ signed 32 (ds_offender x) /\ vec3f_range net (ds_ball_position x)
  | TCamSettings, ACamSettings x =>
      unsigned 32 (cs_fov x) /\ unsigned 32 (cs_height x) /\ unsigned 32 (cs_angle x) /\ unsigned 32 (cs_distance x) /\
      unsigned 32 (cs_stiffness x) /\ unsigned 32 (cs_swivel x) /\
      present (at_least ver 868 20 0) (unsigned 32) (cs_transition x)
  | TClubColors, AClubColors x => unsigned 8 (cc_blue_color x) /\ unsigned 8 (cc_orange_color x)
  | TDemolish, ADemolish x =>
      signed 32 (dm_attacker x) /\ signed 32 (dm_victim x) /\
      vec3f_range net (dm_attack_velocity x) /\ vec3f_range net (dm_victim_velocity x)
  | TDemolishFx, ADemolishFx x =>
      signed 32 (df_custom_demo_id x) /\ signed 32 (df_attacker x) /\ signed 32 (df_victim x) /\
      vec3f_range net (df_attack_velocity x) /\ vec3f_range net (df_victim_velocity x)
  | TDemolishExtended, ADemolishExtended x =>
      active_range (de_attacker_pri x) /\ active_range (de_self_demo x) /\ active_range (de_goal_explosion_owner x) /\
      active_range (de_attacker x) /\ active_range (de_victim x) /\
      vec3f_range net (de_attacker_velocity x) /\ vec3f_range net (de_victim_velocity x)
  | TEnum, AEnum x => unsigned 11 x
  | TExplosion, AExplosion x => explosion_range net x
  | TExtendedExplosion, AExtendedExplosion x =>
      explosion_range net (ee_explosion x) /\ signed 32 (ee_secondary_actor x)
  | TFlaggedByte, AFlaggedByte _ x => unsigned 8 x
  | TActiveActor, AActiveActor x => active_range x
  | TFloat, AFloat x => unsigned 32 x
  | TGameMode, AGameMode bits x => bits = (if at_least ver 868 12 0 then 8 else 2) /\ unsigned bits x
  | TInt, AInt x => signed 32 x
  | TInt64, AInt64 x => signed 64 x
  | TLoadout, ALoadout x => loadout_range x
  | TTeamLoadout, ATeamLoadout x => loadout_range (tl_blue x) /\ loadout_range (tl_orange x)
  | TLocation, ALocation x => vec3f_range net x
  | TMusicStinger, AMusicStinger x => unsigned 32 (ms_cue x) /\ unsigned 8 (ms_trigger x)
  | TPickup, APickup x => if_any (signed 32) (pk_instigator x)
  | TPickupNew, APickupNew x => if_any (signed 32) (pn_instigator x) /\ unsigned 8 (pn_picked_up x)
  | TPlayerHistoryKey, APlayerHistoryKey x => unsigned 14 x
  | TQWordString, AString s => ad_is_rl_223 D = true /\ short_text s
  | TQWordString, AQWord x => ad_is_rl_223 D = false /\ unsigned 64 x
  | TWelded, AWelded x =>
      signed 32 (we_actor x) /\ vec3f_range net (we_offset x) /\ unsigned 32 (we_mass x) /\ rotation_range (we_rotation x)
  | TRigidBody, ARigidBody x =>
      vec3f_range net (rb_location x) /\ quat_range net (rb_rotation x) /\
      if rb_sleeping x then rb_linear_velocity x = None /\ rb_angular_velocity x = None
      else if_any (vec3f_range net) (rb_linear_velocity x) /\ if_any (vec3f_range net) (rb_angular_velocity x)
  | TTitle, ATitle _ _ u3 u4 u5 u6 u7 _ =>
      unsigned 32 u3 /\ unsigned 32 u4 /\ unsigned 32 u5 /\ unsigned 32 u6 /\ unsigned 32 u7
  | TTeamPaint, ATeamPaint x =>
      unsigned 8 (tp_team x) /\ unsigned 8 (tp_primary_color x) /\ unsigned 8 (tp_accent_color x) /\
      unsigned 32 (tp_primary_finish x) /\ unsigned 32 (tp_accent_finish x)
  | TString, AString s => short_text s
  | TUniqueId, AUniqueId u => unique_range net u
  | TReservation, AReservation x =>
      unsigned 3 (rv_number x) /\ unique_range net (rv_unique_id x) /\ name_range (rv_unique_id x) (rv_name x) /\
      present (at_least ver 868 12 0) (unsigned 6) (rv_unknown3 x)
  | TPartyLeader, APartyLeader x => if_any (fun u => ui_system_id u <> 0 /\ unique_range net u) x
  | TPrivateMatchSettings, APrivateMatch x =>
      short_text (pm_mutators x) /\ unsigned 32 (pm_joinable_by x) /\ unsigned 32 (pm_max_players x) /\
      short_text (pm_game_name x) /\ short_text (pm_password x)
  | TLoadoutOnline, ALoadoutOnline x => online_range (ad_product D) x
  | TLoadoutsOnline, ALoadoutsOnline x =>
      online_range (ad_product D) (lso_blue x) /\ online_range (ad_product D) (lso_orange x)
  | TStatEvent, AStatEvent x => signed 32 (se_object_id x)
  | TRotationTag, ARotation x => rotation_range x
  | TRepStatTitle, ARepStatTitle x => short_text (rs_name x) /\ unsigned 32 (rs_index x) /\ unsigned 32 (rs_value x)
  | TPickupInfo, APickupInfo x => active_range (pi_0 x) /\ active_range (pi_1 x) /\ active_range (pi_2 x)
  | TImpulse, AImpulse x => signed 32 (im_compressed_rotation x) /\ unsigned 32 (im_speed x)
  | TReplicatedBoost, AReplicatedBoost x =>
      unsigned 8 (bo_grant_count x) /\ unsigned 8 (bo_boost_amount x) /\ unsigned 8 (bo_unused1 x) /\ unsigned 8 (bo_unused2 x)
  | TLogoData, ALogoData x => unsigned 32 (lg_logo_id x)
  | _, _ => False
  end.

(** ** Frames *)

Section Frames.
Context (e : net_env).

(** ids are below MaxChannels, taken as a signed number *)
Definition actor_range (id : Z) : Prop :=
  exists x, 0 <= x < Z.max 1 (e_max_channels e) /\ id = signed32 x.

Definition new_range (a : new_actor) : Prop :=
  actor_range (n_actor_id a) /\ present (e_names e) (signed 32) (n_name_id a) /\ signed 32 (n_object_id a) /\
  exists cls sp, spawnable (e_objects e) (n_object_id a) cls /\ spawns_as (e_objects e) cls sp /\
    trajectory_range sp (e_net e) (n_traj a).

Definition update_range (id : Z) (cls : str) (u : updated_attribute) : Prop :=
  u_actor_id u = id /\
  exists bound p name tag, stream_bound (e_objects e) (e_caches e) cls bound /\
    0 <= u_stream_id u < bound /\ resolves (e_objects e) (e_caches e) cls (u_stream_id u) p /\
    u_object_id u = cp_object_ind p /\ object_at (e_objects e) (cp_object_ind p) name /\ kind_of name tag /\
    attribute_range (e_attr e) tag (u_attribute u).

(** after the history [h] *)
Definition record_range (h : list (map_op Z)) (r : record) : Prop :=
  match r with
  | RDelete id => actor_range id
  | RNew a => new_range a
  | RUpdate id us => actor_range id /\
      exists obj cls, actor_object h id obj /\ spawnable (e_objects e) obj cls /\ Forall (update_range id cls) us
  end.
Fixpoint records_range (h : list (map_op Z)) (rs : list record) : Prop :=
  match rs with
  | [] => True
  | r :: rs' => record_range h r /\ records_range (h ++ record_ops r) rs'
  end.
Fixpoint frames_range (h : list (map_op Z)) (fs : list (f32 * f32 * list record)) : Prop :=
  match fs with
  | [] => True
  | (t, d, rs) :: fs' =>
      unsigned 32 t /\ unsigned 32 d /\ time_ok t /\ time_ok d /\ ~ (time_zero t /\ time_zero d) /\
      records_range h rs /\ frames_range (h ++ flat_map record_ops rs) fs'
  end.

End Frames.

(** ** An upper bound of the bits that frames take *)

Definition record_bits (r : record) : Z :=
  match r with
  | RNew _ => 300
  | RDelete _ => 40
  | RUpdate _ us => 40 + total (fun u => 1300 + 100 * attribute_size (u_attribute u)) us
  end.
Definition frames_bits (fs : list (f32 * f32 * list record)) : Z := total (fun '(_, _, rs) => 65 + total record_bits rs) fs.

(** the body with other network data *)
Definition with_network (l : list byte) (b : body) : body :=
  {| b_levels := b_levels b; b_keyframes := b_keyframes b; b_debug_info := b_debug_info b; b_tick_marks := b_tick_marks b;
     b_packages := b_packages b; b_objects := b_objects b; b_names := b_names b; b_class_indices := b_class_indices b;
     b_net_cache := b_net_cache b; b_network_data := l |}.
