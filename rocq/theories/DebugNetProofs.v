(** * Proofs: [Debug] of the network types

    Generated by /verif/tools/gen_debug.py; the tactics are in DebugLogic.v. *)

From Coq Require Import ZArith List Bool.
From Verif Require Import Base F32 NetTypes Debug DebugNet SpecBasic SpecJson SpecNan SpecDebug DebugLogic.

Lemma inj_vector3f : inj dbg_vector3f.
Proof. dbg_inj dbg_vector3f. Qed.
Lemma nan_vector3f : nans dbg_vector3f one_nan_vector3f.
Proof. dbg_nan dbg_vector3f one_nan_vector3f. Qed.
Lemma ok_vector3f : good dbg_vector3f floats_vector3f no_texts.
Proof. intros a F T; destruct a; cbn [dbg_vector3f floats_vector3f no_texts] in *; split_forall; parts. Qed.
#[export] Hint Resolve inj_vector3f nan_vector3f ok_vector3f : dbg.

Lemma inj_vector3i : inj dbg_vector3i.
Proof. dbg_inj dbg_vector3i. Qed.
Lemma nan_vector3i : nans dbg_vector3i (fun v => v).
Proof. dbg_nan dbg_vector3i one_nan. Qed.
Lemma ok_vector3i : good dbg_vector3i no_floats no_texts.
Proof. intros a F T; destruct a; cbn [dbg_vector3i no_floats no_texts] in *; split_forall; parts. Qed.
#[export] Hint Resolve inj_vector3i nan_vector3i ok_vector3i : dbg.

Lemma inj_quaternion : inj dbg_quaternion.
Proof. dbg_inj dbg_quaternion. Qed.
Lemma nan_quaternion : nans dbg_quaternion one_nan_quaternion.
Proof. dbg_nan dbg_quaternion one_nan_quaternion. Qed.
Lemma ok_quaternion : good dbg_quaternion floats_quaternion no_texts.
Proof. intros a F T; destruct a; cbn [dbg_quaternion floats_quaternion no_texts] in *; split_forall; parts. Qed.
#[export] Hint Resolve inj_quaternion nan_quaternion ok_quaternion : dbg.

Lemma inj_rotation : inj dbg_rotation.
Proof. dbg_inj dbg_rotation. Qed.
Lemma nan_rotation : nans dbg_rotation (fun v => v).
Proof. dbg_nan dbg_rotation one_nan. Qed.
Lemma ok_rotation : good dbg_rotation no_floats no_texts.
Proof. intros a F T; destruct a; cbn [dbg_rotation no_floats no_texts] in *; split_forall; parts. Qed.
#[export] Hint Resolve inj_rotation nan_rotation ok_rotation : dbg.

Lemma inj_trajectory : inj dbg_trajectory.
Proof. dbg_inj dbg_trajectory. Qed.
Lemma nan_trajectory : nans dbg_trajectory (fun v => v).
Proof. dbg_nan dbg_trajectory one_nan. Qed.
Lemma ok_trajectory : good dbg_trajectory no_floats no_texts.
Proof. intros a F T; destruct a; cbn [dbg_trajectory no_floats no_texts] in *; split_forall; parts. Qed.
#[export] Hint Resolve inj_trajectory nan_trajectory ok_trajectory : dbg.

Lemma inj_new_actor : inj dbg_new_actor.
Proof. dbg_inj dbg_new_actor. Qed.
Lemma nan_new_actor : nans dbg_new_actor (fun v => v).
Proof. dbg_nan dbg_new_actor one_nan. Qed.
Lemma ok_new_actor : good dbg_new_actor no_floats no_texts.
Proof. intros a F T; destruct a; cbn [dbg_new_actor no_floats no_texts] in *; split_forall; parts. Qed.
#[export] Hint Resolve inj_new_actor nan_new_actor ok_new_actor : dbg.

Lemma inj_active_actor : inj dbg_active_actor.
Proof. dbg_inj dbg_active_actor. Qed.
Lemma nan_active_actor : nans dbg_active_actor (fun v => v).
Proof. dbg_nan dbg_active_actor one_nan. Qed.
Lemma ok_active_actor : good dbg_active_actor no_floats no_texts.
Proof. intros a F T; destruct a; cbn [dbg_active_actor no_floats no_texts] in *; split_forall; parts. Qed.
#[export] Hint Resolve inj_active_actor nan_active_actor ok_active_actor : dbg.

Lemma inj_cam_settings : inj dbg_cam_settings.
Proof. dbg_inj dbg_cam_settings. Qed.
Lemma nan_cam_settings : nans dbg_cam_settings one_nan_cam_settings.
Proof. dbg_nan dbg_cam_settings one_nan_cam_settings. Qed.
Lemma ok_cam_settings : good dbg_cam_settings floats_cam_settings no_texts.
Proof. intros a F T; destruct a; cbn [dbg_cam_settings floats_cam_settings no_texts] in *; split_forall; parts. Qed.
#[export] Hint Resolve inj_cam_settings nan_cam_settings ok_cam_settings : dbg.

Lemma inj_club_colors : inj dbg_club_colors.
Proof. dbg_inj dbg_club_colors. Qed.
Lemma nan_club_colors : nans dbg_club_colors (fun v => v).
Proof. dbg_nan dbg_club_colors one_nan. Qed.
Lemma ok_club_colors : good dbg_club_colors no_floats no_texts.
Proof. intros a F T; destruct a; cbn [dbg_club_colors no_floats no_texts] in *; split_forall; parts. Qed.
#[export] Hint Resolve inj_club_colors nan_club_colors ok_club_colors : dbg.

Lemma inj_applied_damage : inj dbg_applied_damage.
Proof. dbg_inj dbg_applied_damage. Qed.
Lemma nan_applied_damage : nans dbg_applied_damage one_nan_applied_damage.
Proof. dbg_nan dbg_applied_damage one_nan_applied_damage. Qed.
Lemma ok_applied_damage : good dbg_applied_damage floats_applied_damage no_texts.
Proof. intros a F T; destruct a; cbn [dbg_applied_damage floats_applied_damage no_texts] in *; split_forall; parts. Qed.
#[export] Hint Resolve inj_applied_damage nan_applied_damage ok_applied_damage : dbg.

Lemma inj_damage_state : inj dbg_damage_state.
Proof. dbg_inj dbg_damage_state. Qed.
Lemma nan_damage_state : nans dbg_damage_state one_nan_damage_state.
Proof. dbg_nan dbg_damage_state one_nan_damage_state. Qed.
Lemma ok_damage_state : good dbg_damage_state floats_damage_state no_texts.
Proof. intros a F T; destruct a; cbn [dbg_damage_state floats_damage_state no_texts] in *; split_forall; parts. Qed.
#[export] Hint Resolve inj_damage_state nan_damage_state ok_damage_state : dbg.

Lemma inj_demolish : inj dbg_demolish.
Proof. dbg_inj dbg_demolish. Qed.
Lemma nan_demolish : nans dbg_demolish one_nan_demolish.
Proof. dbg_nan dbg_demolish one_nan_demolish. Qed.
Lemma ok_demolish : good dbg_demolish floats_demolish no_texts.
Proof. intros a F T; destruct a; cbn [dbg_demolish floats_demolish no_texts] in *; split_forall; parts. Qed.
#[export] Hint Resolve inj_demolish nan_demolish ok_demolish : dbg.

Lemma inj_demolish_extended : inj dbg_demolish_extended.
Proof. dbg_inj dbg_demolish_extended. Qed.
Lemma nan_demolish_extended : nans dbg_demolish_extended one_nan_demolish_extended.
Proof. dbg_nan dbg_demolish_extended one_nan_demolish_extended. Qed.
Lemma ok_demolish_extended : good dbg_demolish_extended floats_demolish_extended no_texts.
Proof. intros a F T; destruct a; cbn [dbg_demolish_extended floats_demolish_extended no_texts] in *; split_forall; parts. Qed.
#[export] Hint Resolve inj_demolish_extended nan_demolish_extended ok_demolish_extended : dbg.

Lemma inj_demolish_fx : inj dbg_demolish_fx.
Proof. dbg_inj dbg_demolish_fx. Qed.
Lemma nan_demolish_fx : nans dbg_demolish_fx one_nan_demolish_fx.
Proof. dbg_nan dbg_demolish_fx one_nan_demolish_fx. Qed.
Lemma ok_demolish_fx : good dbg_demolish_fx floats_demolish_fx no_texts.
Proof. intros a F T; destruct a; cbn [dbg_demolish_fx floats_demolish_fx no_texts] in *; split_forall; parts. Qed.
#[export] Hint Resolve inj_demolish_fx nan_demolish_fx ok_demolish_fx : dbg.

Lemma inj_explosion : inj dbg_explosion.
Proof. dbg_inj dbg_explosion. Qed.
Lemma nan_explosion : nans dbg_explosion one_nan_explosion.
Proof. dbg_nan dbg_explosion one_nan_explosion. Qed.
Lemma ok_explosion : good dbg_explosion floats_explosion no_texts.
Proof. intros a F T; destruct a; cbn [dbg_explosion floats_explosion no_texts] in *; split_forall; parts. Qed.
#[export] Hint Resolve inj_explosion nan_explosion ok_explosion : dbg.

Lemma inj_extended_explosion : inj dbg_extended_explosion.
Proof. dbg_inj dbg_extended_explosion. Qed.
Lemma nan_extended_explosion : nans dbg_extended_explosion one_nan_extended_explosion.
Proof. dbg_nan dbg_extended_explosion one_nan_extended_explosion. Qed.
Lemma ok_extended_explosion : good dbg_extended_explosion floats_extended_explosion no_texts.
Proof. intros a F T; destruct a; cbn [dbg_extended_explosion floats_extended_explosion no_texts] in *; split_forall; parts. Qed.
#[export] Hint Resolve inj_extended_explosion nan_extended_explosion ok_extended_explosion : dbg.

Lemma inj_loadout : inj dbg_loadout.
Proof. dbg_inj dbg_loadout. Qed.
Lemma nan_loadout : nans dbg_loadout (fun v => v).
Proof. dbg_nan dbg_loadout one_nan. Qed.
Lemma ok_loadout : good dbg_loadout no_floats no_texts.
Proof. intros a F T; destruct a; cbn [dbg_loadout no_floats no_texts] in *; split_forall; parts. Qed.
#[export] Hint Resolve inj_loadout nan_loadout ok_loadout : dbg.

Lemma inj_team_loadout : inj dbg_team_loadout.
Proof. dbg_inj dbg_team_loadout. Qed.
Lemma nan_team_loadout : nans dbg_team_loadout (fun v => v).
Proof. dbg_nan dbg_team_loadout one_nan. Qed.
Lemma ok_team_loadout : good dbg_team_loadout no_floats no_texts.
Proof. intros a F T; destruct a; cbn [dbg_team_loadout no_floats no_texts] in *; split_forall; parts. Qed.
#[export] Hint Resolve inj_team_loadout nan_team_loadout ok_team_loadout : dbg.

Lemma inj_stat_event : inj dbg_stat_event.
Proof. dbg_inj dbg_stat_event. Qed.
Lemma nan_stat_event : nans dbg_stat_event (fun v => v).
Proof. dbg_nan dbg_stat_event one_nan. Qed.
Lemma ok_stat_event : good dbg_stat_event no_floats no_texts.
Proof. intros a F T; destruct a; cbn [dbg_stat_event no_floats no_texts] in *; split_forall; parts. Qed.
#[export] Hint Resolve inj_stat_event nan_stat_event ok_stat_event : dbg.

Lemma inj_music_stinger : inj dbg_music_stinger.
Proof. dbg_inj dbg_music_stinger. Qed.
Lemma nan_music_stinger : nans dbg_music_stinger (fun v => v).
Proof. dbg_nan dbg_music_stinger one_nan. Qed.
Lemma ok_music_stinger : good dbg_music_stinger no_floats no_texts.
Proof. intros a F T; destruct a; cbn [dbg_music_stinger no_floats no_texts] in *; split_forall; parts. Qed.
#[export] Hint Resolve inj_music_stinger nan_music_stinger ok_music_stinger : dbg.

Lemma inj_pickup : inj dbg_pickup.
Proof. dbg_inj dbg_pickup. Qed.
Lemma nan_pickup : nans dbg_pickup (fun v => v).
Proof. dbg_nan dbg_pickup one_nan. Qed.
Lemma ok_pickup : good dbg_pickup no_floats no_texts.
Proof. intros a F T; destruct a; cbn [dbg_pickup no_floats no_texts] in *; split_forall; parts. Qed.
#[export] Hint Resolve inj_pickup nan_pickup ok_pickup : dbg.

Lemma inj_pickup_new : inj dbg_pickup_new.
Proof. dbg_inj dbg_pickup_new. Qed.
Lemma nan_pickup_new : nans dbg_pickup_new (fun v => v).
Proof. dbg_nan dbg_pickup_new one_nan. Qed.
Lemma ok_pickup_new : good dbg_pickup_new no_floats no_texts.
Proof. intros a F T; destruct a; cbn [dbg_pickup_new no_floats no_texts] in *; split_forall; parts. Qed.
#[export] Hint Resolve inj_pickup_new nan_pickup_new ok_pickup_new : dbg.

Lemma inj_welded : inj dbg_welded.
Proof. dbg_inj dbg_welded. Qed.
Lemma nan_welded : nans dbg_welded one_nan_welded.
Proof. dbg_nan dbg_welded one_nan_welded. Qed.
Lemma ok_welded : good dbg_welded floats_welded no_texts.
Proof. intros a F T; destruct a; cbn [dbg_welded floats_welded no_texts] in *; split_forall; parts. Qed.
#[export] Hint Resolve inj_welded nan_welded ok_welded : dbg.

Lemma inj_team_paint : inj dbg_team_paint.
Proof. dbg_inj dbg_team_paint. Qed.
Lemma nan_team_paint : nans dbg_team_paint (fun v => v).
Proof. dbg_nan dbg_team_paint one_nan. Qed.
Lemma ok_team_paint : good dbg_team_paint no_floats no_texts.
Proof. intros a F T; destruct a; cbn [dbg_team_paint no_floats no_texts] in *; split_forall; parts. Qed.
#[export] Hint Resolve inj_team_paint nan_team_paint ok_team_paint : dbg.

Lemma inj_rigid_body : inj dbg_rigid_body.
Proof. dbg_inj dbg_rigid_body. Qed.
Lemma nan_rigid_body : nans dbg_rigid_body one_nan_rigid_body.
Proof. dbg_nan dbg_rigid_body one_nan_rigid_body. Qed.
Lemma ok_rigid_body : good dbg_rigid_body floats_rigid_body no_texts.
Proof. intros a F T; destruct a; cbn [dbg_rigid_body floats_rigid_body no_texts] in *; split_forall; parts. Qed.
#[export] Hint Resolve inj_rigid_body nan_rigid_body ok_rigid_body : dbg.

Lemma inj_remote_id : inj dbg_remote_id.
Proof. dbg_inj dbg_remote_id. Qed.
Lemma nan_remote_id : nans dbg_remote_id (fun v => v).
Proof. dbg_nan dbg_remote_id one_nan. Qed.
Lemma ok_remote_id : good dbg_remote_id no_floats texts_remote_id.
Proof. intros a F T; destruct a; cbn [dbg_remote_id no_floats texts_remote_id] in *; split_forall; parts. Qed.
#[export] Hint Resolve inj_remote_id nan_remote_id ok_remote_id : dbg.

Lemma inj_unique_id : inj dbg_unique_id.
Proof. dbg_inj dbg_unique_id. Qed.
Lemma nan_unique_id : nans dbg_unique_id (fun v => v).
Proof. dbg_nan dbg_unique_id one_nan. Qed.
Lemma ok_unique_id : good dbg_unique_id no_floats texts_unique_id.
Proof. intros a F T; destruct a; cbn [dbg_unique_id no_floats texts_unique_id] in *; split_forall; parts. Qed.
#[export] Hint Resolve inj_unique_id nan_unique_id ok_unique_id : dbg.

Lemma inj_reservation : inj dbg_reservation.
Proof. dbg_inj dbg_reservation. Qed.
Lemma nan_reservation : nans dbg_reservation (fun v => v).
Proof. dbg_nan dbg_reservation one_nan. Qed.
Lemma ok_reservation : good dbg_reservation no_floats texts_reservation.
Proof. intros a F T; destruct a; cbn [dbg_reservation no_floats texts_reservation] in *; split_forall; parts. Qed.
#[export] Hint Resolve inj_reservation nan_reservation ok_reservation : dbg.

Lemma inj_private_match : inj dbg_private_match.
Proof. dbg_inj dbg_private_match. Qed.
Lemma nan_private_match : nans dbg_private_match (fun v => v).
Proof. dbg_nan dbg_private_match one_nan. Qed.
Lemma ok_private_match : good dbg_private_match no_floats texts_private_match.
Proof. intros a F T; destruct a; cbn [dbg_private_match no_floats texts_private_match] in *; split_forall; parts. Qed.
#[export] Hint Resolve inj_private_match nan_private_match ok_private_match : dbg.

Lemma inj_product_value : inj dbg_product_value.
Proof. dbg_inj dbg_product_value. Qed.
Lemma nan_product_value : nans dbg_product_value (fun v => v).
Proof. dbg_nan dbg_product_value one_nan. Qed.
Lemma ok_product_value : good dbg_product_value no_floats texts_product_value.
Proof. intros a F T; destruct a; cbn [dbg_product_value no_floats texts_product_value] in *; split_forall; parts. Qed.
#[export] Hint Resolve inj_product_value nan_product_value ok_product_value : dbg.

Lemma inj_product : inj dbg_product.
Proof. dbg_inj dbg_product. Qed.
Lemma nan_product : nans dbg_product (fun v => v).
Proof. dbg_nan dbg_product one_nan. Qed.
Lemma ok_product : good dbg_product no_floats texts_product.
Proof. intros a F T; destruct a; cbn [dbg_product no_floats texts_product] in *; split_forall; parts. Qed.
#[export] Hint Resolve inj_product nan_product ok_product : dbg.

Lemma inj_loadouts_online : inj dbg_loadouts_online.
Proof. dbg_inj dbg_loadouts_online. Qed.
Lemma nan_loadouts_online : nans dbg_loadouts_online (fun v => v).
Proof. dbg_nan dbg_loadouts_online one_nan. Qed.
Lemma ok_loadouts_online : good dbg_loadouts_online no_floats texts_loadouts_online.
Proof. intros a F T; destruct a; cbn [dbg_loadouts_online no_floats texts_loadouts_online] in *; split_forall; parts. Qed.
#[export] Hint Resolve inj_loadouts_online nan_loadouts_online ok_loadouts_online : dbg.

Lemma inj_rep_stat_title : inj dbg_rep_stat_title.
Proof. dbg_inj dbg_rep_stat_title. Qed.
Lemma nan_rep_stat_title : nans dbg_rep_stat_title (fun v => v).
Proof. dbg_nan dbg_rep_stat_title one_nan. Qed.
Lemma ok_rep_stat_title : good dbg_rep_stat_title no_floats texts_rep_stat_title.
Proof. intros a F T; destruct a; cbn [dbg_rep_stat_title no_floats texts_rep_stat_title] in *; split_forall; parts. Qed.
#[export] Hint Resolve inj_rep_stat_title nan_rep_stat_title ok_rep_stat_title : dbg.

Lemma inj_pickup_info : inj dbg_pickup_info.
Proof. dbg_inj dbg_pickup_info. Qed.
Lemma nan_pickup_info : nans dbg_pickup_info (fun v => v).
Proof. dbg_nan dbg_pickup_info one_nan. Qed.
Lemma ok_pickup_info : good dbg_pickup_info no_floats no_texts.
Proof. intros a F T; destruct a; cbn [dbg_pickup_info no_floats no_texts] in *; split_forall; parts. Qed.
#[export] Hint Resolve inj_pickup_info nan_pickup_info ok_pickup_info : dbg.

Lemma inj_impulse : inj dbg_impulse.
Proof. dbg_inj dbg_impulse. Qed.
Lemma nan_impulse : nans dbg_impulse one_nan_impulse.
Proof. dbg_nan dbg_impulse one_nan_impulse. Qed.
Lemma ok_impulse : good dbg_impulse floats_impulse no_texts.
Proof. intros a F T; destruct a; cbn [dbg_impulse floats_impulse no_texts] in *; split_forall; parts. Qed.
#[export] Hint Resolve inj_impulse nan_impulse ok_impulse : dbg.

Lemma inj_replicated_boost : inj dbg_replicated_boost.
Proof. dbg_inj dbg_replicated_boost. Qed.
Lemma nan_replicated_boost : nans dbg_replicated_boost (fun v => v).
Proof. dbg_nan dbg_replicated_boost one_nan. Qed.
Lemma ok_replicated_boost : good dbg_replicated_boost no_floats no_texts.
Proof. intros a F T; destruct a; cbn [dbg_replicated_boost no_floats no_texts] in *; split_forall; parts. Qed.
#[export] Hint Resolve inj_replicated_boost nan_replicated_boost ok_replicated_boost : dbg.

Lemma inj_logo_data : inj dbg_logo_data.
Proof. dbg_inj dbg_logo_data. Qed.
Lemma nan_logo_data : nans dbg_logo_data (fun v => v).
Proof. dbg_nan dbg_logo_data one_nan. Qed.
Lemma ok_logo_data : good dbg_logo_data no_floats no_texts.
Proof. intros a F T; destruct a; cbn [dbg_logo_data no_floats no_texts] in *; split_forall; parts. Qed.
#[export] Hint Resolve inj_logo_data nan_logo_data ok_logo_data : dbg.

Lemma inj_attribute : inj dbg_attribute.
Proof. dbg_inj dbg_attribute. Qed.
Lemma nan_attribute : nans dbg_attribute one_nan_attribute.
Proof. dbg_nan dbg_attribute one_nan_attribute. Qed.
Lemma ok_attribute : good dbg_attribute floats_attribute texts_attribute.
Proof. intros a F T; destruct a; cbn [dbg_attribute floats_attribute texts_attribute] in *; split_forall; parts. Qed.
#[export] Hint Resolve inj_attribute nan_attribute ok_attribute : dbg.

Lemma inj_updated_attribute : inj dbg_updated_attribute.
Proof. dbg_inj dbg_updated_attribute. Qed.
Lemma nan_updated_attribute : nans dbg_updated_attribute one_nan_updated_attribute.
Proof. dbg_nan dbg_updated_attribute one_nan_updated_attribute. Qed.
Lemma ok_updated_attribute : good dbg_updated_attribute floats_updated_attribute texts_updated_attribute.
Proof. intros a F T; destruct a; cbn [dbg_updated_attribute floats_updated_attribute texts_updated_attribute] in *; split_forall; parts. Qed.
#[export] Hint Resolve inj_updated_attribute nan_updated_attribute ok_updated_attribute : dbg.

Lemma inj_frame : inj dbg_frame.
Proof. dbg_inj dbg_frame. Qed.
Lemma nan_frame : nans dbg_frame one_nan_frame.
Proof. dbg_nan dbg_frame one_nan_frame. Qed.
Lemma ok_frame : good dbg_frame floats_frame texts_frame.
Proof. intros a F T; destruct a; cbn [dbg_frame floats_frame texts_frame] in *; split_forall; parts. Qed.
#[export] Hint Resolve inj_frame nan_frame ok_frame : dbg.
