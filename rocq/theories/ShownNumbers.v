(** * Proofs: replays without NaN *)

From Coq Require Import ZArith List Bool Lia.
From Verif Require Import Base F32 NetTypes Errors Header Body BitReader ObjectIndex Network Parser Debug DebugReplay
  SpecBasic SpecFacts SpecJson SpecEq SpecEqReplay SpecReplay SpecNan SpecShown BitLemmas AlikeProofs ShownProofs.
Open Scope Z_scope.

(** ** Numbers *)

Lemma numeric_kept x : numeric x -> one_nan x = x.
Proof.
  unfold numeric, one_nan, f32_scaled, plus_infinity, minus_infinity. intros H. destruct (Z.ltb_spec 0x7f800000 (x mod 2 ^ 31)) as [K|K]; [exfalso|reflexivity].
  destruct H as [H|[->| ->]]; [|cbv in K; discriminate K|cbv in K; discriminate K].
  apply H. replace ((x / 2 ^ 23) mod 2 ^ 8 =? 255) with true; [reflexivity|]. symmetry. apply Z.eqb_eq.
  change (2 ^ 23) with 8388608. change (2 ^ 8) with 256. change (2 ^ 31) with 2147483648 in K. clear H. Z.div_mod_to_equations. lia.
Qed.
Lemma nan_lost x : numeric (one_nan x) -> numeric x.
Proof.
  unfold one_nan. destruct (_ <? _) eqn:E; [|auto]. intros H. exfalso. revert H. unfold numeric. intros [H|[H|H]]; [|discriminate H|discriminate H]. apply H. reflexivity.
Qed.
Lemma all_lost l : Forall numeric (map one_nan l) -> Forall numeric l.
Proof. rewrite Forall_map. apply Forall_impl. exact nan_lost. Qed.

(** ** Network types *)

Definition moves {A} (fl : A -> list f32) (n : A -> A) : Prop := forall a, fl (n a) = map one_nan (fl a).
Definition keeps {A} (fl : A -> list f32) (n : A -> A) : Prop := forall a, Forall numeric (fl a) -> n a = a.

Lemma moves_one : moves one_float one_nan. Proof. intros a. reflexivity. Qed.
Lemma keeps_one : keeps one_float one_nan. Proof. intros a H. inversion H; subst. now apply numeric_kept. Qed.
Lemma moves_opt {A} (fl : A -> list f32) n : moves fl n -> moves (opt_floats fl) (option_map n).
Proof. intros H [a|]; [apply H|reflexivity]. Qed.
Lemma keeps_opt {A} (fl : A -> list f32) n : keeps fl n -> keeps (opt_floats fl) (option_map n).
Proof. intros H [a|] F; cbn [option_map]; [now rewrite H|reflexivity]. Qed.
Lemma moves_vec {A} (fl : A -> list f32) n : moves fl n -> moves (vec_floats fl) (map n).
Proof. intros H l. unfold vec_floats. induction l as [|a l IH]; [reflexivity|]. cbn [map flat_map]. now rewrite H, IH, map_app. Qed.
Lemma keeps_vec {A} (fl : A -> list f32) n : keeps fl n -> keeps (vec_floats fl) (map n).
Proof.
  intros H l. unfold vec_floats. induction l as [|a l IH]; [reflexivity|]. cbn [map flat_map]. intros F. apply Forall_app in F as [F1 F2]. now rewrite H, IH.
Qed.

Create HintDb nan.
#[export] Hint Resolve moves_one keeps_one moves_opt keeps_opt moves_vec keeps_vec : nan.
Ltac moving := repeat match goal with
  | |- context [?fl (?n ?a)] => let M := fresh in assert (M : moves fl n) by (auto with nan); rewrite (M a); clear M
  end.
Ltac keeping := repeat match goal with
  | |- context [?n ?a] => match goal with
      F : Forall numeric (?fl a) |- _ => let K := fresh in assert (K : keeps fl n) by (auto with nan); rewrite (K a F); clear K F end
  end.
Ltac split_floats := repeat match goal with H : Forall _ (_ ++ _) |- _ => apply Forall_app in H; destruct H end.

Lemma moves_vector3f : moves floats_vector3f one_nan_vector3f.
Proof. intros a. destruct a; cbn [floats_vector3f one_nan_vector3f]; moving; rewrite ?map_app; reflexivity. Qed.
Lemma keeps_vector3f : keeps floats_vector3f one_nan_vector3f.
Proof. intros a F. destruct a; cbn [floats_vector3f one_nan_vector3f] in *; split_floats; keeping; reflexivity. Qed.
#[export] Hint Resolve moves_vector3f keeps_vector3f : nan.
Lemma moves_quaternion : moves floats_quaternion one_nan_quaternion.
Proof. intros a. destruct a; cbn [floats_quaternion one_nan_quaternion]; moving; rewrite ?map_app; reflexivity. Qed.
Lemma keeps_quaternion : keeps floats_quaternion one_nan_quaternion.
Proof. intros a F. destruct a; cbn [floats_quaternion one_nan_quaternion] in *; split_floats; keeping; reflexivity. Qed.
#[export] Hint Resolve moves_quaternion keeps_quaternion : nan.
Lemma moves_cam_settings : moves floats_cam_settings one_nan_cam_settings.
Proof. intros a. destruct a; cbn [floats_cam_settings one_nan_cam_settings]; moving; rewrite ?map_app; reflexivity. Qed.
Lemma keeps_cam_settings : keeps floats_cam_settings one_nan_cam_settings.
Proof. intros a F. destruct a; cbn [floats_cam_settings one_nan_cam_settings] in *; split_floats; keeping; reflexivity. Qed.
#[export] Hint Resolve moves_cam_settings keeps_cam_settings : nan.
Lemma moves_applied_damage : moves floats_applied_damage one_nan_applied_damage.
Proof. intros a. destruct a; cbn [floats_applied_damage one_nan_applied_damage]; moving; rewrite ?map_app; reflexivity. Qed.
Lemma keeps_applied_damage : keeps floats_applied_damage one_nan_applied_damage.
Proof. intros a F. destruct a; cbn [floats_applied_damage one_nan_applied_damage] in *; split_floats; keeping; reflexivity. Qed.
#[export] Hint Resolve moves_applied_damage keeps_applied_damage : nan.
Lemma moves_damage_state : moves floats_damage_state one_nan_damage_state.
Proof. intros a. destruct a; cbn [floats_damage_state one_nan_damage_state]; moving; rewrite ?map_app; reflexivity. Qed.
Lemma keeps_damage_state : keeps floats_damage_state one_nan_damage_state.
Proof. intros a F. destruct a; cbn [floats_damage_state one_nan_damage_state] in *; split_floats; keeping; reflexivity. Qed.
#[export] Hint Resolve moves_damage_state keeps_damage_state : nan.
Lemma moves_demolish : moves floats_demolish one_nan_demolish.
Proof. intros a. destruct a; cbn [floats_demolish one_nan_demolish]; moving; rewrite ?map_app; reflexivity. Qed.
Lemma keeps_demolish : keeps floats_demolish one_nan_demolish.
Proof. intros a F. destruct a; cbn [floats_demolish one_nan_demolish] in *; split_floats; keeping; reflexivity. Qed.
#[export] Hint Resolve moves_demolish keeps_demolish : nan.
Lemma moves_demolish_extended : moves floats_demolish_extended one_nan_demolish_extended.
Proof. intros a. destruct a; cbn [floats_demolish_extended one_nan_demolish_extended]; moving; rewrite ?map_app; reflexivity. Qed.
Lemma keeps_demolish_extended : keeps floats_demolish_extended one_nan_demolish_extended.
Proof. intros a F. destruct a; cbn [floats_demolish_extended one_nan_demolish_extended] in *; split_floats; keeping; reflexivity. Qed.
#[export] Hint Resolve moves_demolish_extended keeps_demolish_extended : nan.
Lemma moves_demolish_fx : moves floats_demolish_fx one_nan_demolish_fx.
Proof. intros a. destruct a; cbn [floats_demolish_fx one_nan_demolish_fx]; moving; rewrite ?map_app; reflexivity. Qed.
Lemma keeps_demolish_fx : keeps floats_demolish_fx one_nan_demolish_fx.
Proof. intros a F. destruct a; cbn [floats_demolish_fx one_nan_demolish_fx] in *; split_floats; keeping; reflexivity. Qed.
#[export] Hint Resolve moves_demolish_fx keeps_demolish_fx : nan.
Lemma moves_explosion : moves floats_explosion one_nan_explosion.
Proof. intros a. destruct a; cbn [floats_explosion one_nan_explosion]; moving; rewrite ?map_app; reflexivity. Qed.
Lemma keeps_explosion : keeps floats_explosion one_nan_explosion.
Proof. intros a F. destruct a; cbn [floats_explosion one_nan_explosion] in *; split_floats; keeping; reflexivity. Qed.
#[export] Hint Resolve moves_explosion keeps_explosion : nan.
Lemma moves_extended_explosion : moves floats_extended_explosion one_nan_extended_explosion.
Proof. intros a. destruct a; cbn [floats_extended_explosion one_nan_extended_explosion]; moving; rewrite ?map_app; reflexivity. Qed.
Lemma keeps_extended_explosion : keeps floats_extended_explosion one_nan_extended_explosion.
Proof. intros a F. destruct a; cbn [floats_extended_explosion one_nan_extended_explosion] in *; split_floats; keeping; reflexivity. Qed.
#[export] Hint Resolve moves_extended_explosion keeps_extended_explosion : nan.
Lemma moves_welded : moves floats_welded one_nan_welded.
Proof. intros a. destruct a; cbn [floats_welded one_nan_welded]; moving; rewrite ?map_app; reflexivity. Qed.
Lemma keeps_welded : keeps floats_welded one_nan_welded.
Proof. intros a F. destruct a; cbn [floats_welded one_nan_welded] in *; split_floats; keeping; reflexivity. Qed.
#[export] Hint Resolve moves_welded keeps_welded : nan.
Lemma moves_rigid_body : moves floats_rigid_body one_nan_rigid_body.
Proof. intros a. destruct a; cbn [floats_rigid_body one_nan_rigid_body]; moving; rewrite ?map_app; reflexivity. Qed.
Lemma keeps_rigid_body : keeps floats_rigid_body one_nan_rigid_body.
Proof. intros a F. destruct a; cbn [floats_rigid_body one_nan_rigid_body] in *; split_floats; keeping; reflexivity. Qed.
#[export] Hint Resolve moves_rigid_body keeps_rigid_body : nan.
Lemma moves_impulse : moves floats_impulse one_nan_impulse.
Proof. intros a. destruct a; cbn [floats_impulse one_nan_impulse]; moving; rewrite ?map_app; reflexivity. Qed.
Lemma keeps_impulse : keeps floats_impulse one_nan_impulse.
Proof. intros a F. destruct a; cbn [floats_impulse one_nan_impulse] in *; split_floats; keeping; reflexivity. Qed.
#[export] Hint Resolve moves_impulse keeps_impulse : nan.
Lemma moves_attribute : moves floats_attribute one_nan_attribute.
Proof. intros a. destruct a; cbn [floats_attribute one_nan_attribute]; moving; rewrite ?map_app; reflexivity. Qed.
Lemma keeps_attribute : keeps floats_attribute one_nan_attribute.
Proof. intros a F. destruct a; cbn [floats_attribute one_nan_attribute] in *; split_floats; keeping; reflexivity. Qed.
#[export] Hint Resolve moves_attribute keeps_attribute : nan.
Lemma moves_updated_attribute : moves floats_updated_attribute one_nan_updated_attribute.
Proof. intros a. destruct a; cbn [floats_updated_attribute one_nan_updated_attribute]; moving; rewrite ?map_app; reflexivity. Qed.
Lemma keeps_updated_attribute : keeps floats_updated_attribute one_nan_updated_attribute.
Proof. intros a F. destruct a; cbn [floats_updated_attribute one_nan_updated_attribute] in *; split_floats; keeping; reflexivity. Qed.
#[export] Hint Resolve moves_updated_attribute keeps_updated_attribute : nan.
Lemma moves_frame : moves floats_frame one_nan_frame.
Proof. intros a. destruct a; cbn [floats_frame one_nan_frame]; moving; rewrite ?map_app; reflexivity. Qed.
Lemma keeps_frame : keeps floats_frame one_nan_frame.
Proof. intros a F. destruct a; cbn [floats_frame one_nan_frame] in *; split_floats; keeping; reflexivity. Qed.
#[export] Hint Resolve moves_frame keeps_frame : nan.

(** ** Header and body *)

Definition entry_floats (kv : str * header_prop) : list f32 := prop_floats (snd kv).
Lemma moves_entries l : Forall (fun kv => prop_floats (one_nan_prop (snd kv)) = map one_nan (prop_floats (snd kv))) l ->
  flat_map entry_floats (one_nan_props l) = map one_nan (flat_map entry_floats l).
Proof.
  induction 1 as [|[k v] l H _ IH]; [reflexivity|]. cbn [one_nan_props map flat_map]. rewrite map_app. unfold one_nan_props in IH. rewrite <- IH.
  unfold entry_floats at 1. cbn [fst snd] in *. now rewrite H.
Qed.
Lemma keeps_entries l : Forall (fun kv => Forall numeric (prop_floats (snd kv)) -> one_nan_prop (snd kv) = snd kv) l ->
  Forall numeric (flat_map entry_floats l) -> one_nan_props l = l.
Proof.
  induction 1 as [|[k v] l H _ IH]; [reflexivity|]. cbn [one_nan_props map flat_map]. intros F. apply Forall_app in F as [F1 F2].
  unfold one_nan_props in IH. rewrite IH by assumption. cbn [fst snd] in *. now rewrite H.
Qed.
Lemma moves_prop : moves prop_floats one_nan_prop.
Proof.
  intros p. induction p using header_prop_nested; try reflexivity.
  - change (flat_map (flat_map entry_floats) (map one_nan_props rows) = map one_nan (flat_map (flat_map entry_floats) rows)).
    induction H as [|r rows H _ IH]; [reflexivity|]. cbn [map flat_map]. now rewrite map_app, IH, (moves_entries _ H).
  - now apply (moves_entries f).
Qed.
Lemma keeps_prop : keeps prop_floats one_nan_prop.
Proof.
  intros p. induction p using header_prop_nested; try reflexivity.
  - intros F. change (HArray (map one_nan_props rows) = HArray rows). f_equal. change (Forall numeric (flat_map (flat_map entry_floats) rows)) in F.
    induction H as [|r rows H _ IH]; [reflexivity|]. cbn [map flat_map] in *. apply Forall_app in F as [F1 F2]. now rewrite (keeps_entries _ H F1), IH.
  - intros F. inversion F; subst. cbn [one_nan_prop]. now rewrite numeric_kept.
  - intros F. change (HStruct name (one_nan_props f) = HStruct name f). f_equal. now apply keeps_entries.
Qed.
Lemma moves_props : moves (flat_map entry_floats) one_nan_props.
Proof. intros l. apply moves_entries. rewrite Forall_forall. intros kv _. apply moves_prop. Qed.
Lemma keeps_props : keeps (flat_map entry_floats) one_nan_props.
Proof. intros l. apply keeps_entries. rewrite Forall_forall. intros kv _. apply keeps_prop. Qed.

Lemma moves_replay : moves replay_floats one_nan_replay.
Proof.
  intros r. unfold replay_floats. rewrite !map_app. f_equal; [apply moves_props|]. f_equal.
  - destruct r. cbn [one_nan_replay Parser.r_network_frames]. destruct r_network_frames as [fs|]; [|reflexivity]. cbn [option_map]. apply (moves_vec _ _ moves_frame).
  - cbn [one_nan_replay r_keyframes]. now rewrite !map_map.
Qed.
Lemma keeps_replay : keeps replay_floats one_nan_replay.
Proof.
  intros r F. unfold replay_floats in F. apply Forall_app in F as [F1 F]. apply Forall_app in F as [F2 F3].
  unfold one_nan_replay. rewrite (keeps_props _ F1). replace (option_map (map one_nan_frame) (r_network_frames r)) with (r_network_frames r).
  - replace (map one_nan_key_frame (r_keyframes r)) with (r_keyframes r); [now destruct r|].
    rewrite <- (map_id (r_keyframes r)) at 1. apply map_ext_in. rewrite Forall_map, Forall_forall in F3. intros k Hk. unfold one_nan_key_frame. rewrite numeric_kept by auto. now destruct k.
  - destruct (r_network_frames r) as [fs|]; [|reflexivity]. cbn [option_map]. now rewrite (keeps_vec _ _ keeps_frame).
Qed.

Lemma one_nan_same r s : Forall numeric (replay_floats r) -> one_nan_replay r = one_nan_replay s -> r = s.
Proof.
  intros F E. assert (G : Forall numeric (replay_floats s)).
  { apply all_lost. rewrite <- (moves_replay s), <- E, (keeps_replay r F). exact F. }
  now rewrite (keeps_replay r F), (keeps_replay s G) in E.
Qed.

Section Replay.
Context (B : bitter) (HB : bitter_ok B) (ho : hash_order) (Hho : hash_order_ok ho).
Theorem numbers_determined shown c n data r c' n' data' r' : lenZ data < 2 ^ 31 -> lenZ data' < 2 ^ 31 ->
  parse_with B ho c n data = Ok r -> parse_with B ho c' n' data' = Ok r' -> Forall numeric (replay_floats r) ->
  debug_text shown (dbg_replay r) = debug_text shown (dbg_replay r') -> r = r'.
Proof. intros L L' E E' F T. apply one_nan_same; [exact F|]. now apply (replay_determined B HB ho Hho shown c n data r c' n' data' r' L L' E E'). Qed.
End Replay.
