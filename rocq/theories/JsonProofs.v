(** * Proofs: the network types through serde

    Generated by /verif/tools/gen_json.py; the tactics are in JsonLogic.v. *)

From Coq Require Import ZArith List.
From Verif Require Import Base F32 NetTypes Json JsonNet SpecBasic SpecFacts SpecJson JsonLogic.

Lemma rt_vector3f : round_trip ser_vector3f de_vector3f (fun _ => True) floats_vector3f.
Proof. rt_start de_vector3f ser_vector3f; rt_solve. Qed.
#[global] Hint Resolve rt_vector3f : rt.

Lemma rt_vector3i : round_trip ser_vector3i de_vector3i typed_vector3i (fun _ => []).
Proof. rt_start de_vector3i ser_vector3i; rt_solve. Qed.
#[global] Hint Resolve rt_vector3i : rt.

Lemma rt_quaternion : round_trip ser_quaternion de_quaternion (fun _ => True) floats_quaternion.
Proof. rt_start de_quaternion ser_quaternion; rt_solve. Qed.
#[global] Hint Resolve rt_quaternion : rt.

Lemma rt_rotation : round_trip ser_rotation de_rotation typed_rotation (fun _ => []).
Proof. rt_start de_rotation ser_rotation; rt_solve. Qed.
#[global] Hint Resolve rt_rotation : rt.

Lemma rt_trajectory : round_trip ser_trajectory de_trajectory typed_trajectory (fun _ => []).
Proof. rt_start de_trajectory ser_trajectory; rt_solve. Qed.
#[global] Hint Resolve rt_trajectory : rt.

Lemma rt_new_actor : round_trip ser_new_actor de_new_actor typed_new_actor (fun _ => []).
Proof. rt_start de_new_actor ser_new_actor; rt_solve. Qed.
#[global] Hint Resolve rt_new_actor : rt.

Lemma rt_active_actor : round_trip ser_active_actor de_active_actor typed_active_actor (fun _ => []).
Proof. rt_start de_active_actor ser_active_actor; rt_solve. Qed.
#[global] Hint Resolve rt_active_actor : rt.

Lemma rt_cam_settings : round_trip ser_cam_settings de_cam_settings (fun _ => True) floats_cam_settings.
Proof. rt_start de_cam_settings ser_cam_settings; rt_solve. Qed.
#[global] Hint Resolve rt_cam_settings : rt.

Lemma rt_club_colors : round_trip ser_club_colors de_club_colors typed_club_colors (fun _ => []).
Proof. rt_start de_club_colors ser_club_colors; rt_solve. Qed.
#[global] Hint Resolve rt_club_colors : rt.

Lemma rt_applied_damage : round_trip ser_applied_damage de_applied_damage typed_applied_damage floats_applied_damage.
Proof. rt_start de_applied_damage ser_applied_damage; rt_solve. Qed.
#[global] Hint Resolve rt_applied_damage : rt.

Lemma rt_damage_state : round_trip ser_damage_state de_damage_state typed_damage_state floats_damage_state.
Proof. rt_start de_damage_state ser_damage_state; rt_solve. Qed.
#[global] Hint Resolve rt_damage_state : rt.

Lemma rt_demolish : round_trip ser_demolish de_demolish typed_demolish floats_demolish.
Proof. rt_start de_demolish ser_demolish; rt_solve. Qed.
#[global] Hint Resolve rt_demolish : rt.

Lemma rt_demolish_extended : round_trip ser_demolish_extended de_demolish_extended typed_demolish_extended floats_demolish_extended.
Proof. rt_start de_demolish_extended ser_demolish_extended; rt_solve. Qed.
#[global] Hint Resolve rt_demolish_extended : rt.

Lemma rt_demolish_fx : round_trip ser_demolish_fx de_demolish_fx typed_demolish_fx floats_demolish_fx.
Proof. rt_start de_demolish_fx ser_demolish_fx; rt_solve. Qed.
#[global] Hint Resolve rt_demolish_fx : rt.

Lemma rt_explosion : round_trip ser_explosion de_explosion typed_explosion floats_explosion.
Proof. rt_start de_explosion ser_explosion; rt_solve. Qed.
#[global] Hint Resolve rt_explosion : rt.

Lemma rt_extended_explosion : round_trip ser_extended_explosion de_extended_explosion typed_extended_explosion floats_extended_explosion.
Proof. rt_start de_extended_explosion ser_extended_explosion; rt_solve. Qed.
#[global] Hint Resolve rt_extended_explosion : rt.

Lemma rt_loadout : round_trip ser_loadout de_loadout typed_loadout (fun _ => []).
Proof. rt_start de_loadout ser_loadout; rt_solve. Qed.
#[global] Hint Resolve rt_loadout : rt.

Lemma rt_team_loadout : round_trip ser_team_loadout de_team_loadout typed_team_loadout (fun _ => []).
Proof. rt_start de_team_loadout ser_team_loadout; rt_solve. Qed.
#[global] Hint Resolve rt_team_loadout : rt.

Lemma rt_stat_event : round_trip ser_stat_event de_stat_event typed_stat_event (fun _ => []).
Proof. rt_start de_stat_event ser_stat_event; rt_solve. Qed.
#[global] Hint Resolve rt_stat_event : rt.

Lemma rt_music_stinger : round_trip ser_music_stinger de_music_stinger typed_music_stinger (fun _ => []).
Proof. rt_start de_music_stinger ser_music_stinger; rt_solve. Qed.
#[global] Hint Resolve rt_music_stinger : rt.

Lemma rt_pickup : round_trip ser_pickup de_pickup typed_pickup (fun _ => []).
Proof. rt_start de_pickup ser_pickup; rt_solve. Qed.
#[global] Hint Resolve rt_pickup : rt.

Lemma rt_pickup_new : round_trip ser_pickup_new de_pickup_new typed_pickup_new (fun _ => []).
Proof. rt_start de_pickup_new ser_pickup_new; rt_solve. Qed.
#[global] Hint Resolve rt_pickup_new : rt.

Lemma rt_welded : round_trip ser_welded de_welded typed_welded floats_welded.
Proof. rt_start de_welded ser_welded; rt_solve. Qed.
#[global] Hint Resolve rt_welded : rt.

Lemma rt_team_paint : round_trip ser_team_paint de_team_paint typed_team_paint (fun _ => []).
Proof. rt_start de_team_paint ser_team_paint; rt_solve. Qed.
#[global] Hint Resolve rt_team_paint : rt.

Lemma rt_rigid_body : round_trip ser_rigid_body de_rigid_body (fun _ => True) floats_rigid_body.
Proof. rt_start de_rigid_body ser_rigid_body; rt_solve. Qed.
#[global] Hint Resolve rt_rigid_body : rt.

Lemma rt_remote_id : round_trip ser_remote_id de_remote_id typed_remote_id (fun _ => []).
Proof. rt_start de_remote_id ser_remote_id; rt_solve. Qed.
#[global] Hint Resolve rt_remote_id : rt.

Lemma rt_unique_id : round_trip ser_unique_id de_unique_id typed_unique_id (fun _ => []).
Proof. rt_start de_unique_id ser_unique_id; rt_solve. Qed.
#[global] Hint Resolve rt_unique_id : rt.

Lemma rt_reservation : round_trip ser_reservation de_reservation typed_reservation (fun _ => []).
Proof. rt_start de_reservation ser_reservation; rt_solve. Qed.
#[global] Hint Resolve rt_reservation : rt.

Lemma rt_private_match : round_trip ser_private_match de_private_match typed_private_match (fun _ => []).
Proof. rt_start de_private_match ser_private_match; rt_solve. Qed.
#[global] Hint Resolve rt_private_match : rt.

Lemma rt_product_value : round_trip ser_product_value de_product_value typed_product_value (fun _ => []).
Proof. rt_start de_product_value ser_product_value; rt_solve. Qed.
#[global] Hint Resolve rt_product_value : rt.

Lemma rt_product : round_trip ser_product de_product typed_product (fun _ => []).
Proof. rt_start de_product ser_product; rt_solve. Qed.
#[global] Hint Resolve rt_product : rt.

Lemma rt_loadouts_online : round_trip ser_loadouts_online de_loadouts_online typed_loadouts_online (fun _ => []).
Proof. rt_start de_loadouts_online ser_loadouts_online; rt_solve. Qed.
#[global] Hint Resolve rt_loadouts_online : rt.

Lemma rt_rep_stat_title : round_trip ser_rep_stat_title de_rep_stat_title typed_rep_stat_title (fun _ => []).
Proof. rt_start de_rep_stat_title ser_rep_stat_title; rt_solve. Qed.
#[global] Hint Resolve rt_rep_stat_title : rt.

Lemma rt_pickup_info : round_trip ser_pickup_info de_pickup_info typed_pickup_info (fun _ => []).
Proof. rt_start de_pickup_info ser_pickup_info; rt_solve. Qed.
#[global] Hint Resolve rt_pickup_info : rt.

Lemma rt_impulse : round_trip ser_impulse de_impulse typed_impulse floats_impulse.
Proof. rt_start de_impulse ser_impulse; rt_solve. Qed.
#[global] Hint Resolve rt_impulse : rt.

Lemma rt_replicated_boost : round_trip ser_replicated_boost de_replicated_boost typed_replicated_boost (fun _ => []).
Proof. rt_start de_replicated_boost ser_replicated_boost; rt_solve. Qed.
#[global] Hint Resolve rt_replicated_boost : rt.

Lemma rt_logo_data : round_trip ser_logo_data de_logo_data typed_logo_data (fun _ => []).
Proof. rt_start de_logo_data ser_logo_data; rt_solve. Qed.
#[global] Hint Resolve rt_logo_data : rt.

Lemma rt_attribute : round_trip ser_attribute de_attribute typed_attribute floats_attribute.
Proof. rt_start de_attribute ser_attribute; rt_solve. Qed.
#[global] Hint Resolve rt_attribute : rt.

Lemma rt_updated_attribute : round_trip ser_updated_attribute de_updated_attribute typed_updated_attribute floats_updated_attribute.
Proof. rt_start de_updated_attribute ser_updated_attribute; rt_solve. Qed.
#[global] Hint Resolve rt_updated_attribute : rt.

Lemma rt_frame : round_trip ser_frame de_frame typed_frame floats_frame.
Proof. rt_start de_frame ser_frame; rt_solve. Qed.
#[global] Hint Resolve rt_frame : rt.
