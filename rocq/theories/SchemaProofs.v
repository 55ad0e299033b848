(** * Proofs: the readers accept what the schemas describe

    Generated by /verif/tools/gen_schema.py; the tactics are in SchemaLogic.v. *)

From Coq Require Import ZArith List.
From Verif Require Import Base NetTypes Json JsonNet SpecSchema SpecSchemaNet SpecJson SchemaLogic.

Lemma fits_vector3f : fits de_vector3f schema_vector3f.
Proof. fits_struct de_vector3f schema_vector3f. Qed.
#[global] Hint Resolve fits_vector3f : fits.
Lemma order_vector3f : ordered de_vector3f.
Proof. order_struct de_vector3f. Qed.
#[global] Hint Resolve order_vector3f : order.

Lemma fits_vector3i : fits de_vector3i schema_vector3i.
Proof. fits_struct de_vector3i schema_vector3i. Qed.
#[global] Hint Resolve fits_vector3i : fits.
Lemma order_vector3i : ordered de_vector3i.
Proof. order_struct de_vector3i. Qed.
#[global] Hint Resolve order_vector3i : order.
Lemma gives_vector3i : gives de_vector3i typed_vector3i.
Proof. gives_struct de_vector3i typed_vector3i. Qed.
#[global] Hint Resolve gives_vector3i : gives.

Lemma fits_quaternion : fits de_quaternion schema_quaternion.
Proof. fits_struct de_quaternion schema_quaternion. Qed.
#[global] Hint Resolve fits_quaternion : fits.
Lemma order_quaternion : ordered de_quaternion.
Proof. order_struct de_quaternion. Qed.
#[global] Hint Resolve order_quaternion : order.

Lemma fits_rotation : fits de_rotation schema_rotation.
Proof. fits_struct de_rotation schema_rotation. Qed.
#[global] Hint Resolve fits_rotation : fits.
Lemma order_rotation : ordered de_rotation.
Proof. order_struct de_rotation. Qed.
#[global] Hint Resolve order_rotation : order.
Lemma gives_rotation : gives de_rotation typed_rotation.
Proof. gives_struct de_rotation typed_rotation. Qed.
#[global] Hint Resolve gives_rotation : gives.

Lemma fits_trajectory : fits de_trajectory schema_trajectory.
Proof. fits_struct de_trajectory schema_trajectory. Qed.
#[global] Hint Resolve fits_trajectory : fits.
Lemma order_trajectory : ordered de_trajectory.
Proof. order_struct de_trajectory. Qed.
#[global] Hint Resolve order_trajectory : order.
Lemma gives_trajectory : gives de_trajectory typed_trajectory.
Proof. gives_struct de_trajectory typed_trajectory. Qed.
#[global] Hint Resolve gives_trajectory : gives.

Lemma fits_new_actor : fits de_new_actor schema_new_actor.
Proof. fits_struct de_new_actor schema_new_actor. Qed.
#[global] Hint Resolve fits_new_actor : fits.
Lemma order_new_actor : ordered de_new_actor.
Proof. order_struct de_new_actor. Qed.
#[global] Hint Resolve order_new_actor : order.
Lemma gives_new_actor : gives de_new_actor typed_new_actor.
Proof. gives_struct de_new_actor typed_new_actor. Qed.
#[global] Hint Resolve gives_new_actor : gives.

Lemma fits_active_actor : fits de_active_actor schema_active_actor.
Proof. fits_struct de_active_actor schema_active_actor. Qed.
#[global] Hint Resolve fits_active_actor : fits.
Lemma order_active_actor : ordered de_active_actor.
Proof. order_struct de_active_actor. Qed.
#[global] Hint Resolve order_active_actor : order.
Lemma gives_active_actor : gives de_active_actor typed_active_actor.
Proof. gives_struct de_active_actor typed_active_actor. Qed.
#[global] Hint Resolve gives_active_actor : gives.

Lemma fits_cam_settings : fits de_cam_settings schema_cam_settings.
Proof. fits_struct de_cam_settings schema_cam_settings. Qed.
#[global] Hint Resolve fits_cam_settings : fits.
Lemma order_cam_settings : ordered de_cam_settings.
Proof. order_struct de_cam_settings. Qed.
#[global] Hint Resolve order_cam_settings : order.

Lemma fits_club_colors : fits de_club_colors schema_club_colors.
Proof. fits_struct de_club_colors schema_club_colors. Qed.
#[global] Hint Resolve fits_club_colors : fits.
Lemma order_club_colors : ordered de_club_colors.
Proof. order_struct de_club_colors. Qed.
#[global] Hint Resolve order_club_colors : order.
Lemma gives_club_colors : gives de_club_colors typed_club_colors.
Proof. gives_struct de_club_colors typed_club_colors. Qed.
#[global] Hint Resolve gives_club_colors : gives.

Lemma fits_applied_damage : fits de_applied_damage schema_applied_damage.
Proof. fits_struct de_applied_damage schema_applied_damage. Qed.
#[global] Hint Resolve fits_applied_damage : fits.
Lemma order_applied_damage : ordered de_applied_damage.
Proof. order_struct de_applied_damage. Qed.
#[global] Hint Resolve order_applied_damage : order.
Lemma gives_applied_damage : gives de_applied_damage typed_applied_damage.
Proof. gives_struct de_applied_damage typed_applied_damage. Qed.
#[global] Hint Resolve gives_applied_damage : gives.

Lemma fits_damage_state : fits de_damage_state schema_damage_state.
Proof. fits_struct de_damage_state schema_damage_state. Qed.
#[global] Hint Resolve fits_damage_state : fits.
Lemma order_damage_state : ordered de_damage_state.
Proof. order_struct de_damage_state. Qed.
#[global] Hint Resolve order_damage_state : order.
Lemma gives_damage_state : gives de_damage_state typed_damage_state.
Proof. gives_struct de_damage_state typed_damage_state. Qed.
#[global] Hint Resolve gives_damage_state : gives.

Lemma fits_demolish : fits de_demolish schema_demolish.
Proof. fits_struct de_demolish schema_demolish. Qed.
#[global] Hint Resolve fits_demolish : fits.
Lemma order_demolish : ordered de_demolish.
Proof. order_struct de_demolish. Qed.
#[global] Hint Resolve order_demolish : order.
Lemma gives_demolish : gives de_demolish typed_demolish.
Proof. gives_struct de_demolish typed_demolish. Qed.
#[global] Hint Resolve gives_demolish : gives.

Lemma fits_demolish_extended : fits de_demolish_extended schema_demolish_extended.
Proof. fits_struct de_demolish_extended schema_demolish_extended. Qed.
#[global] Hint Resolve fits_demolish_extended : fits.
Lemma order_demolish_extended : ordered de_demolish_extended.
Proof. order_struct de_demolish_extended. Qed.
#[global] Hint Resolve order_demolish_extended : order.
Lemma gives_demolish_extended : gives de_demolish_extended typed_demolish_extended.
Proof. gives_struct de_demolish_extended typed_demolish_extended. Qed.
#[global] Hint Resolve gives_demolish_extended : gives.

Lemma fits_demolish_fx : fits de_demolish_fx schema_demolish_fx.
Proof. fits_struct de_demolish_fx schema_demolish_fx. Qed.
#[global] Hint Resolve fits_demolish_fx : fits.
Lemma order_demolish_fx : ordered de_demolish_fx.
Proof. order_struct de_demolish_fx. Qed.
#[global] Hint Resolve order_demolish_fx : order.
Lemma gives_demolish_fx : gives de_demolish_fx typed_demolish_fx.
Proof. gives_struct de_demolish_fx typed_demolish_fx. Qed.
#[global] Hint Resolve gives_demolish_fx : gives.

Lemma fits_explosion : fits de_explosion schema_explosion.
Proof. fits_struct de_explosion schema_explosion. Qed.
#[global] Hint Resolve fits_explosion : fits.
Lemma order_explosion : ordered de_explosion.
Proof. order_struct de_explosion. Qed.
#[global] Hint Resolve order_explosion : order.
Lemma gives_explosion : gives de_explosion typed_explosion.
Proof. gives_struct de_explosion typed_explosion. Qed.
#[global] Hint Resolve gives_explosion : gives.

Lemma fits_extended_explosion : fits de_extended_explosion schema_extended_explosion.
Proof. fits_struct de_extended_explosion schema_extended_explosion. Qed.
#[global] Hint Resolve fits_extended_explosion : fits.
Lemma order_extended_explosion : ordered de_extended_explosion.
Proof. order_struct de_extended_explosion. Qed.
#[global] Hint Resolve order_extended_explosion : order.
Lemma gives_extended_explosion : gives de_extended_explosion typed_extended_explosion.
Proof. gives_struct de_extended_explosion typed_extended_explosion. Qed.
#[global] Hint Resolve gives_extended_explosion : gives.

Lemma fits_loadout : fits de_loadout schema_loadout.
Proof. fits_struct de_loadout schema_loadout. Qed.
#[global] Hint Resolve fits_loadout : fits.
Lemma order_loadout : ordered de_loadout.
Proof. order_struct de_loadout. Qed.
#[global] Hint Resolve order_loadout : order.
Lemma gives_loadout : gives de_loadout typed_loadout.
Proof. gives_struct de_loadout typed_loadout. Qed.
#[global] Hint Resolve gives_loadout : gives.

Lemma fits_team_loadout : fits de_team_loadout schema_team_loadout.
Proof. fits_struct de_team_loadout schema_team_loadout. Qed.
#[global] Hint Resolve fits_team_loadout : fits.
Lemma order_team_loadout : ordered de_team_loadout.
Proof. order_struct de_team_loadout. Qed.
#[global] Hint Resolve order_team_loadout : order.
Lemma gives_team_loadout : gives de_team_loadout typed_team_loadout.
Proof. gives_struct de_team_loadout typed_team_loadout. Qed.
#[global] Hint Resolve gives_team_loadout : gives.

Lemma fits_stat_event : fits de_stat_event schema_stat_event.
Proof. fits_struct de_stat_event schema_stat_event. Qed.
#[global] Hint Resolve fits_stat_event : fits.
Lemma order_stat_event : ordered de_stat_event.
Proof. order_struct de_stat_event. Qed.
#[global] Hint Resolve order_stat_event : order.
Lemma gives_stat_event : gives de_stat_event typed_stat_event.
Proof. gives_struct de_stat_event typed_stat_event. Qed.
#[global] Hint Resolve gives_stat_event : gives.

Lemma fits_music_stinger : fits de_music_stinger schema_music_stinger.
Proof. fits_struct de_music_stinger schema_music_stinger. Qed.
#[global] Hint Resolve fits_music_stinger : fits.
Lemma order_music_stinger : ordered de_music_stinger.
Proof. order_struct de_music_stinger. Qed.
#[global] Hint Resolve order_music_stinger : order.
Lemma gives_music_stinger : gives de_music_stinger typed_music_stinger.
Proof. gives_struct de_music_stinger typed_music_stinger. Qed.
#[global] Hint Resolve gives_music_stinger : gives.

Lemma fits_pickup : fits de_pickup schema_pickup.
Proof. fits_struct de_pickup schema_pickup. Qed.
#[global] Hint Resolve fits_pickup : fits.
Lemma order_pickup : ordered de_pickup.
Proof. order_struct de_pickup. Qed.
#[global] Hint Resolve order_pickup : order.
Lemma gives_pickup : gives de_pickup typed_pickup.
Proof. gives_struct de_pickup typed_pickup. Qed.
#[global] Hint Resolve gives_pickup : gives.

Lemma fits_pickup_new : fits de_pickup_new schema_pickup_new.
Proof. fits_struct de_pickup_new schema_pickup_new. Qed.
#[global] Hint Resolve fits_pickup_new : fits.
Lemma order_pickup_new : ordered de_pickup_new.
Proof. order_struct de_pickup_new. Qed.
#[global] Hint Resolve order_pickup_new : order.
Lemma gives_pickup_new : gives de_pickup_new typed_pickup_new.
Proof. gives_struct de_pickup_new typed_pickup_new. Qed.
#[global] Hint Resolve gives_pickup_new : gives.

Lemma fits_welded : fits de_welded schema_welded.
Proof. fits_struct de_welded schema_welded. Qed.
#[global] Hint Resolve fits_welded : fits.
Lemma order_welded : ordered de_welded.
Proof. order_struct de_welded. Qed.
#[global] Hint Resolve order_welded : order.
Lemma gives_welded : gives de_welded typed_welded.
Proof. gives_struct de_welded typed_welded. Qed.
#[global] Hint Resolve gives_welded : gives.

Lemma fits_team_paint : fits de_team_paint schema_team_paint.
Proof. fits_struct de_team_paint schema_team_paint. Qed.
#[global] Hint Resolve fits_team_paint : fits.
Lemma order_team_paint : ordered de_team_paint.
Proof. order_struct de_team_paint. Qed.
#[global] Hint Resolve order_team_paint : order.
Lemma gives_team_paint : gives de_team_paint typed_team_paint.
Proof. gives_struct de_team_paint typed_team_paint. Qed.
#[global] Hint Resolve gives_team_paint : gives.

Lemma fits_rigid_body : fits de_rigid_body schema_rigid_body.
Proof. fits_struct de_rigid_body schema_rigid_body. Qed.
#[global] Hint Resolve fits_rigid_body : fits.
Lemma order_rigid_body : ordered de_rigid_body.
Proof. order_struct de_rigid_body. Qed.
#[global] Hint Resolve order_rigid_body : order.

Lemma fits_remote_id : fits de_remote_id schema_remote_id.
Proof. fits_enum de_remote_id schema_remote_id. Qed.
#[global] Hint Resolve fits_remote_id : fits.
Lemma order_remote_id : ordered de_remote_id.
Proof. order_enum de_remote_id. Qed.
#[global] Hint Resolve order_remote_id : order.
Lemma gives_remote_id : gives de_remote_id typed_remote_id.
Proof. gives_enum de_remote_id typed_remote_id. Qed.
#[global] Hint Resolve gives_remote_id : gives.

Lemma fits_unique_id : fits de_unique_id schema_unique_id.
Proof. fits_struct de_unique_id schema_unique_id. Qed.
#[global] Hint Resolve fits_unique_id : fits.
Lemma order_unique_id : ordered de_unique_id.
Proof. order_struct de_unique_id. Qed.
#[global] Hint Resolve order_unique_id : order.
Lemma gives_unique_id : gives de_unique_id typed_unique_id.
Proof. gives_struct de_unique_id typed_unique_id. Qed.
#[global] Hint Resolve gives_unique_id : gives.

Lemma fits_reservation : fits de_reservation schema_reservation.
Proof. fits_struct de_reservation schema_reservation. Qed.
#[global] Hint Resolve fits_reservation : fits.
Lemma order_reservation : ordered de_reservation.
Proof. order_struct de_reservation. Qed.
#[global] Hint Resolve order_reservation : order.
Lemma gives_reservation : gives de_reservation typed_reservation.
Proof. gives_struct de_reservation typed_reservation. Qed.
#[global] Hint Resolve gives_reservation : gives.

Lemma fits_private_match : fits de_private_match schema_private_match.
Proof. fits_struct de_private_match schema_private_match. Qed.
#[global] Hint Resolve fits_private_match : fits.
Lemma order_private_match : ordered de_private_match.
Proof. order_struct de_private_match. Qed.
#[global] Hint Resolve order_private_match : order.
Lemma gives_private_match : gives de_private_match typed_private_match.
Proof. gives_struct de_private_match typed_private_match. Qed.
#[global] Hint Resolve gives_private_match : gives.

Lemma fits_product_value : fits de_product_value schema_product_value.
Proof. fits_enum de_product_value schema_product_value. Qed.
#[global] Hint Resolve fits_product_value : fits.
Lemma order_product_value : ordered de_product_value.
Proof. order_enum de_product_value. Qed.
#[global] Hint Resolve order_product_value : order.
Lemma gives_product_value : gives de_product_value typed_product_value.
Proof. gives_enum de_product_value typed_product_value. Qed.
#[global] Hint Resolve gives_product_value : gives.

Lemma fits_product : fits de_product schema_product.
Proof. fits_struct de_product schema_product. Qed.
#[global] Hint Resolve fits_product : fits.
Lemma order_product : ordered de_product.
Proof. order_struct de_product. Qed.
#[global] Hint Resolve order_product : order.
Lemma gives_product : gives de_product typed_product.
Proof. gives_struct de_product typed_product. Qed.
#[global] Hint Resolve gives_product : gives.

Lemma fits_loadouts_online : fits de_loadouts_online schema_loadouts_online.
Proof. fits_struct de_loadouts_online schema_loadouts_online. Qed.
#[global] Hint Resolve fits_loadouts_online : fits.
Lemma order_loadouts_online : ordered de_loadouts_online.
Proof. order_struct de_loadouts_online. Qed.
#[global] Hint Resolve order_loadouts_online : order.
Lemma gives_loadouts_online : gives de_loadouts_online typed_loadouts_online.
Proof. gives_struct de_loadouts_online typed_loadouts_online. Qed.
#[global] Hint Resolve gives_loadouts_online : gives.

Lemma fits_rep_stat_title : fits de_rep_stat_title schema_rep_stat_title.
Proof. fits_struct de_rep_stat_title schema_rep_stat_title. Qed.
#[global] Hint Resolve fits_rep_stat_title : fits.
Lemma order_rep_stat_title : ordered de_rep_stat_title.
Proof. order_struct de_rep_stat_title. Qed.
#[global] Hint Resolve order_rep_stat_title : order.
Lemma gives_rep_stat_title : gives de_rep_stat_title typed_rep_stat_title.
Proof. gives_struct de_rep_stat_title typed_rep_stat_title. Qed.
#[global] Hint Resolve gives_rep_stat_title : gives.

Lemma fits_pickup_info : fits de_pickup_info schema_pickup_info.
Proof. fits_struct de_pickup_info schema_pickup_info. Qed.
#[global] Hint Resolve fits_pickup_info : fits.
Lemma order_pickup_info : ordered de_pickup_info.
Proof. order_struct de_pickup_info. Qed.
#[global] Hint Resolve order_pickup_info : order.
Lemma gives_pickup_info : gives de_pickup_info typed_pickup_info.
Proof. gives_struct de_pickup_info typed_pickup_info. Qed.
#[global] Hint Resolve gives_pickup_info : gives.

Lemma fits_impulse : fits de_impulse schema_impulse.
Proof. fits_struct de_impulse schema_impulse. Qed.
#[global] Hint Resolve fits_impulse : fits.
Lemma order_impulse : ordered de_impulse.
Proof. order_struct de_impulse. Qed.
#[global] Hint Resolve order_impulse : order.
Lemma gives_impulse : gives de_impulse typed_impulse.
Proof. gives_struct de_impulse typed_impulse. Qed.
#[global] Hint Resolve gives_impulse : gives.

Lemma fits_replicated_boost : fits de_replicated_boost schema_replicated_boost.
Proof. fits_struct de_replicated_boost schema_replicated_boost. Qed.
#[global] Hint Resolve fits_replicated_boost : fits.
Lemma order_replicated_boost : ordered de_replicated_boost.
Proof. order_struct de_replicated_boost. Qed.
#[global] Hint Resolve order_replicated_boost : order.
Lemma gives_replicated_boost : gives de_replicated_boost typed_replicated_boost.
Proof. gives_struct de_replicated_boost typed_replicated_boost. Qed.
#[global] Hint Resolve gives_replicated_boost : gives.

Lemma fits_logo_data : fits de_logo_data schema_logo_data.
Proof. fits_struct de_logo_data schema_logo_data. Qed.
#[global] Hint Resolve fits_logo_data : fits.
Lemma order_logo_data : ordered de_logo_data.
Proof. order_struct de_logo_data. Qed.
#[global] Hint Resolve order_logo_data : order.
Lemma gives_logo_data : gives de_logo_data typed_logo_data.
Proof. gives_struct de_logo_data typed_logo_data. Qed.
#[global] Hint Resolve gives_logo_data : gives.

Lemma fits_attribute : fits de_attribute schema_attribute.
Proof. fits_enum de_attribute schema_attribute. Qed.
#[global] Hint Resolve fits_attribute : fits.
Lemma order_attribute : ordered de_attribute.
Proof. order_enum de_attribute. Qed.
#[global] Hint Resolve order_attribute : order.
Lemma gives_attribute : gives de_attribute typed_attribute.
Proof. gives_enum de_attribute typed_attribute. Qed.
#[global] Hint Resolve gives_attribute : gives.

Lemma fits_updated_attribute : fits de_updated_attribute schema_updated_attribute.
Proof. fits_struct de_updated_attribute schema_updated_attribute. Qed.
#[global] Hint Resolve fits_updated_attribute : fits.
Lemma order_updated_attribute : ordered de_updated_attribute.
Proof. order_struct de_updated_attribute. Qed.
#[global] Hint Resolve order_updated_attribute : order.
Lemma gives_updated_attribute : gives de_updated_attribute typed_updated_attribute.
Proof. gives_struct de_updated_attribute typed_updated_attribute. Qed.
#[global] Hint Resolve gives_updated_attribute : gives.

Lemma fits_frame : fits de_frame schema_frame.
Proof. fits_struct de_frame schema_frame. Qed.
#[global] Hint Resolve fits_frame : fits.
Lemma order_frame : ordered de_frame.
Proof. order_struct de_frame. Qed.
#[global] Hint Resolve order_frame : order.
Lemma gives_frame : gives de_frame typed_frame.
Proof. gives_struct de_frame typed_frame. Qed.
#[global] Hint Resolve gives_frame : gives.
