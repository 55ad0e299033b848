(** * Proofs: comparison of the network types

    Generated by /verif/tools/gen_eq.py; the tactics are in EqLogic.v. *)

From Coq Require Import ZArith List Bool.
From Verif Require Import Base F32 Text NetTypes EqNet SpecBasic SpecJson SpecEq SpecBlank EqLogic.

Lemma eqs_vector3f : eqs eq_vector3f blank_vector3f floats_vector3f.
Proof. eqs_all eq_vector3f blank_vector3f floats_vector3f. Qed.
#[global] Hint Resolve eqs_vector3f : eqs.

Lemma eqs_vector3i : exact eq_vector3i.
Proof. exact_all eq_vector3i. Qed.
#[global] Hint Resolve eqs_vector3i : eqs.

Lemma eqs_quaternion : eqs eq_quaternion blank_quaternion floats_quaternion.
Proof. eqs_all eq_quaternion blank_quaternion floats_quaternion. Qed.
#[global] Hint Resolve eqs_quaternion : eqs.

Lemma eqs_rotation : exact eq_rotation.
Proof. exact_all eq_rotation. Qed.
#[global] Hint Resolve eqs_rotation : eqs.

Lemma eqs_trajectory : exact eq_trajectory.
Proof. exact_all eq_trajectory. Qed.
#[global] Hint Resolve eqs_trajectory : eqs.

Lemma eqs_new_actor : exact eq_new_actor.
Proof. exact_all eq_new_actor. Qed.
#[global] Hint Resolve eqs_new_actor : eqs.

Lemma eqs_active_actor : exact eq_active_actor.
Proof. exact_all eq_active_actor. Qed.
#[global] Hint Resolve eqs_active_actor : eqs.

Lemma eqs_cam_settings : eqs eq_cam_settings blank_cam_settings floats_cam_settings.
Proof. eqs_all eq_cam_settings blank_cam_settings floats_cam_settings. Qed.
#[global] Hint Resolve eqs_cam_settings : eqs.

Lemma eqs_club_colors : exact eq_club_colors.
Proof. exact_all eq_club_colors. Qed.
#[global] Hint Resolve eqs_club_colors : eqs.

Lemma eqs_applied_damage : eqs eq_applied_damage blank_applied_damage floats_applied_damage.
Proof. eqs_all eq_applied_damage blank_applied_damage floats_applied_damage. Qed.
#[global] Hint Resolve eqs_applied_damage : eqs.

Lemma eqs_damage_state : eqs eq_damage_state blank_damage_state floats_damage_state.
Proof. eqs_all eq_damage_state blank_damage_state floats_damage_state. Qed.
#[global] Hint Resolve eqs_damage_state : eqs.

Lemma eqs_demolish : eqs eq_demolish blank_demolish floats_demolish.
Proof. eqs_all eq_demolish blank_demolish floats_demolish. Qed.
#[global] Hint Resolve eqs_demolish : eqs.

Lemma eqs_demolish_extended : eqs eq_demolish_extended blank_demolish_extended floats_demolish_extended.
Proof. eqs_all eq_demolish_extended blank_demolish_extended floats_demolish_extended. Qed.
#[global] Hint Resolve eqs_demolish_extended : eqs.

Lemma eqs_demolish_fx : eqs eq_demolish_fx blank_demolish_fx floats_demolish_fx.
Proof. eqs_all eq_demolish_fx blank_demolish_fx floats_demolish_fx. Qed.
#[global] Hint Resolve eqs_demolish_fx : eqs.

Lemma eqs_explosion : eqs eq_explosion blank_explosion floats_explosion.
Proof. eqs_all eq_explosion blank_explosion floats_explosion. Qed.
#[global] Hint Resolve eqs_explosion : eqs.

Lemma eqs_extended_explosion : eqs eq_extended_explosion blank_extended_explosion floats_extended_explosion.
Proof. eqs_all eq_extended_explosion blank_extended_explosion floats_extended_explosion. Qed.
#[global] Hint Resolve eqs_extended_explosion : eqs.

Lemma eqs_loadout : exact eq_loadout.
Proof. exact_all eq_loadout. Qed.
#[global] Hint Resolve eqs_loadout : eqs.

Lemma eqs_team_loadout : exact eq_team_loadout.
Proof. exact_all eq_team_loadout. Qed.
#[global] Hint Resolve eqs_team_loadout : eqs.

Lemma eqs_stat_event : exact eq_stat_event.
Proof. exact_all eq_stat_event. Qed.
#[global] Hint Resolve eqs_stat_event : eqs.

Lemma eqs_music_stinger : exact eq_music_stinger.
Proof. exact_all eq_music_stinger. Qed.
#[global] Hint Resolve eqs_music_stinger : eqs.

Lemma eqs_pickup : exact eq_pickup.
Proof. exact_all eq_pickup. Qed.
#[global] Hint Resolve eqs_pickup : eqs.

Lemma eqs_pickup_new : exact eq_pickup_new.
Proof. exact_all eq_pickup_new. Qed.
#[global] Hint Resolve eqs_pickup_new : eqs.

Lemma eqs_welded : eqs eq_welded blank_welded floats_welded.
Proof. eqs_all eq_welded blank_welded floats_welded. Qed.
#[global] Hint Resolve eqs_welded : eqs.

Lemma eqs_team_paint : exact eq_team_paint.
Proof. exact_all eq_team_paint. Qed.
#[global] Hint Resolve eqs_team_paint : eqs.

Lemma eqs_rigid_body : eqs eq_rigid_body blank_rigid_body floats_rigid_body.
Proof. eqs_all eq_rigid_body blank_rigid_body floats_rigid_body. Qed.
#[global] Hint Resolve eqs_rigid_body : eqs.

Lemma eqs_remote_id : exact eq_remote_id.
Proof. exact_all eq_remote_id. Qed.
#[global] Hint Resolve eqs_remote_id : eqs.

Lemma eqs_unique_id : exact eq_unique_id.
Proof. exact_all eq_unique_id. Qed.
#[global] Hint Resolve eqs_unique_id : eqs.

Lemma eqs_reservation : exact eq_reservation.
Proof. exact_all eq_reservation. Qed.
#[global] Hint Resolve eqs_reservation : eqs.

Lemma eqs_private_match : exact eq_private_match.
Proof. exact_all eq_private_match. Qed.
#[global] Hint Resolve eqs_private_match : eqs.

Lemma eqs_product_value : exact eq_product_value.
Proof. exact_all eq_product_value. Qed.
#[global] Hint Resolve eqs_product_value : eqs.

Lemma eqs_product : exact eq_product.
Proof. exact_all eq_product. Qed.
#[global] Hint Resolve eqs_product : eqs.

Lemma eqs_loadouts_online : exact eq_loadouts_online.
Proof. exact_all eq_loadouts_online. Qed.
#[global] Hint Resolve eqs_loadouts_online : eqs.

Lemma eqs_rep_stat_title : exact eq_rep_stat_title.
Proof. exact_all eq_rep_stat_title. Qed.
#[global] Hint Resolve eqs_rep_stat_title : eqs.

Lemma eqs_pickup_info : exact eq_pickup_info.
Proof. exact_all eq_pickup_info. Qed.
#[global] Hint Resolve eqs_pickup_info : eqs.

Lemma eqs_impulse : eqs eq_impulse blank_impulse floats_impulse.
Proof. eqs_all eq_impulse blank_impulse floats_impulse. Qed.
#[global] Hint Resolve eqs_impulse : eqs.

Lemma eqs_replicated_boost : exact eq_replicated_boost.
Proof. exact_all eq_replicated_boost. Qed.
#[global] Hint Resolve eqs_replicated_boost : eqs.

Lemma eqs_logo_data : exact eq_logo_data.
Proof. exact_all eq_logo_data. Qed.
#[global] Hint Resolve eqs_logo_data : eqs.

Lemma eqs_attribute : eqs eq_attribute blank_attribute floats_attribute.
Proof. eqs_all eq_attribute blank_attribute floats_attribute. Qed.
#[global] Hint Resolve eqs_attribute : eqs.

Lemma eqs_updated_attribute : eqs eq_updated_attribute blank_updated_attribute floats_updated_attribute.
Proof. eqs_all eq_updated_attribute blank_updated_attribute floats_updated_attribute. Qed.
#[global] Hint Resolve eqs_updated_attribute : eqs.

Lemma eqs_frame : eqs eq_frame blank_frame floats_frame.
Proof. eqs_all eq_frame blank_frame floats_frame. Qed.
#[global] Hint Resolve eqs_frame : eqs.
