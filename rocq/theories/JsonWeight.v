(** * How long the JSON text of a frame can be *)

From Coq Require Import ZArith List Bool Lia.
From Verif Require Import Base F32 NetTypes Json JsonNet JsonText SpecBasic SpecJson SpecSize TextProofs JsonLogic SizeProofs WireBits TextLength.
Open Scope Z_scope.

Notation wt := (weight 0).

Lemma wt_i8 x : is_i8 x -> wt (ser_i8 x) <= 4.
Proof. intros H. red in H. pose proof (int_text_len x 3 ltac:(lia) ltac:(lia)). cbn [weight ser_i8]. destruct (x <? 0); lia. Qed.
Lemma wt_u8 x : is_u8 x -> wt (ser_u8 x) <= 4.
Proof. intros H. red in H. pose proof (int_text_len x 3 ltac:(lia) ltac:(lia)). cbn [weight ser_u8]. destruct (x <? 0); lia. Qed.
Lemma wt_u16 x : is_u16 x -> wt (ser_u16 x) <= 6.
Proof. intros H. red in H. pose proof (int_text_len x 5 ltac:(lia) ltac:(lia)). cbn [weight ser_u16]. destruct (x <? 0); lia. Qed.
Lemma wt_u32 x : is_u32 x -> wt (ser_u32 x) <= 11.
Proof. intros H. red in H. pose proof (int_text_len x 10 ltac:(lia) ltac:(lia)). cbn [weight ser_u32]. destruct (x <? 0); lia. Qed.
Lemma wt_i32 x : is_i32 x -> wt (ser_i32 x) <= 11.
Proof. intros H. red in H. pose proof (int_text_len x 10 ltac:(lia) ltac:(lia)). cbn [weight ser_i32]. destruct (x <? 0); lia. Qed.
Lemma wt_f32 x : wt (ser_f32 x) <= 20.
Proof. unfold ser_f32. destruct (f32_is_finite x) eqn:E; [apply f32_text_len, E|]. cbn [weight]. lia. Qed.
Lemma wt_bool b : wt (ser_bool b) <= 5.
Proof. reflexivity. Qed.
Lemma wt_i64s x : is_i64 x -> wt (ser_i64s x) <= 122.
Proof. intros H. red in H. pose proof (display_len x ltac:(lia)). pose proof (quote_len (display_Z x)). cbn [weight ser_i64s]. lia. Qed.
Lemma wt_u64s x : is_u64 x -> wt (ser_u64s x) <= 122.
Proof. intros H. red in H. pose proof (display_len x ltac:(lia)). pose proof (quote_len (display_Z x)). cbn [weight ser_u64s]. lia. Qed.
Lemma wt_str s : wt (ser_str s) <= 2 + 6 * text_size s.
Proof. apply quote_len. Qed.
Lemma wt_bytes l : wt (ser_bytes l) <= 2 + 5 * bytes_size l.
Proof.
  unfold ser_bytes, bytes_size. cbn [weight]. rewrite total_map.
  assert (total (fun b => 1 + 0 + wt (JInt (byteZ b))) l <= 5 * len l); [|lia].
  induction l as [|b l IH]; [reflexivity|]. rewrite total_cons. cbn [length].
  assert (wt (JInt (byteZ b)) <= 4); [|lia]. apply wt_u8. apply byteZ_range.
Qed.
Lemma wt_opt {A} (f : A -> json) P c o : all_opt P o -> (forall x, P x -> wt (f x) <= c) -> wt (ser_opt f o) <= Z.max 4 c.
Proof. intros H K. destruct o as [x|]; cbn [ser_opt all_opt] in *; [specialize (K x H); lia|cbn [weight]; lia]. Qed.
Lemma wt_opt' {A} (f : A -> json) c o : (forall x, wt (f x) <= c) -> wt (ser_opt f o) <= Z.max 4 c.
Proof. intros K. destruct o as [x|]; cbn [ser_opt]; [specialize (K x); lia|cbn [weight]; lia]. Qed.
Lemma wt_vec {A} (f : A -> json) P c l : all_vec P l -> (forall x, P x -> 1 + wt (f x) <= c x) -> wt (ser_vec f l) <= 2 + total c l.
Proof.
  intros H K. unfold ser_vec. cbn [weight]. rewrite total_map.
  assert (total (fun x => 1 + 0 + wt (f x)) l <= total c l); [|lia].
  induction H as [|x l Hx _ IH]; [reflexivity|]. rewrite !total_cons. specialize (K x Hx). lia.
Qed.

#[global] Hint Resolve wt_i8 wt_u8 wt_u16 wt_u32 wt_i32 wt_f32 wt_bool wt_i64s wt_u64s wt_str wt_bytes : wts.
#[global] Hint Resolve wt_opt | 2 : wts.
#[global] Hint Resolve wt_opt' | 1 : wts.

Ltac keys :=
  repeat match goal with
  | |- context [lenZ (quote (lit ?s))] =>
      let v := eval vm_compute in (lenZ (quote (lit s))) in change (lenZ (quote (lit s))) with v
  end.
Ltac weigh_goal :=
  cbn [weight fst snd];
  repeat (rewrite ?total_cons, ?total_nil; cbn [weight fst snd]);
  keys;
  repeat match goal with
  | |- context [weight 0 ?t] =>
      let H := fresh "W" in eassert (H : weight 0 t <= _) by (solve [eauto with wts]); revert H; generalize (weight 0 t); intros ? H
  end.
Ltac weigh :=
  let v := fresh "v" in intros v; destruct v;
  try match goal with |- ?T -> _ => let H := fresh "H" in intros H; red in H;
      repeat match goal with H : _ /\ _ |- _ => destruct H end end;
  match goal with |- weight 0 (?f _) <= _ => unfold f end;
  weigh_goal; try (cbn [text_size]; lia).

Lemma wt_vector3f : forall v, wt (ser_vector3f v) <= 80.
Proof. weigh. Qed.
Lemma wt_vector3i : forall v, typed_vector3i v -> wt (ser_vector3i v) <= 60.
Proof. weigh. Qed.
Lemma wt_quaternion : forall v, wt (ser_quaternion v) <= 110.
Proof. weigh. Qed.
Lemma wt_rotation : forall v, typed_rotation v -> wt (ser_rotation v) <= 50.
Proof. weigh. Qed.
#[global] Hint Resolve wt_vector3f wt_vector3i wt_quaternion wt_rotation : wts.
Lemma wt_trajectory : forall v, typed_trajectory v -> wt (ser_trajectory v) <= 150.
Proof. weigh. Qed.
#[global] Hint Resolve wt_trajectory : wts.
Lemma wt_new_actor : forall v, typed_new_actor v -> wt (ser_new_actor v) <= 300.
Proof. weigh. Qed.
Lemma wt_active_actor : forall v, typed_active_actor v -> wt (ser_active_actor v) <= 50.
Proof. weigh. Qed.
#[global] Hint Resolve wt_new_actor wt_active_actor : wts.
Lemma wt_cam_settings : forall v, wt (ser_cam_settings v) <= 300.
Proof. weigh. Qed.
Lemma wt_club_colors : forall v, typed_club_colors v -> wt (ser_club_colors v) <= 100.
Proof. weigh. Qed.
Lemma wt_applied_damage : forall v, typed_applied_damage v -> wt (ser_applied_damage v) <= 200.
Proof. weigh. Qed.
Lemma wt_damage_state : forall v, typed_damage_state v -> wt (ser_damage_state v) <= 250.
Proof. weigh. Qed.
Lemma wt_demolish : forall v, typed_demolish v -> wt (ser_demolish v) <= 350.
Proof. weigh. Qed.
Lemma wt_demolish_extended : forall v, typed_demolish_extended v -> wt (ser_demolish_extended v) <= 600.
Proof. weigh. Qed.
Lemma wt_demolish_fx : forall v, typed_demolish_fx v -> wt (ser_demolish_fx v) <= 500.
Proof. weigh. Qed.
Lemma wt_explosion : forall v, typed_explosion v -> wt (ser_explosion v) <= 150.
Proof. weigh. Qed.
#[global] Hint Resolve wt_cam_settings wt_club_colors wt_applied_damage wt_damage_state wt_demolish wt_demolish_extended wt_demolish_fx
  wt_explosion : wts.
Lemma wt_extended_explosion : forall v, typed_extended_explosion v -> wt (ser_extended_explosion v) <= 250.
Proof. weigh. Qed.
Lemma wt_loadout : forall v, typed_loadout v -> wt (ser_loadout v) <= 500.
Proof. weigh. Qed.
#[global] Hint Resolve wt_extended_explosion wt_loadout : wts.
Lemma wt_team_loadout : forall v, typed_team_loadout v -> wt (ser_team_loadout v) <= 1100.
Proof. weigh. Qed.
Lemma wt_stat_event : forall v, typed_stat_event v -> wt (ser_stat_event v) <= 100.
Proof. weigh. Qed.
Lemma wt_music_stinger : forall v, typed_music_stinger v -> wt (ser_music_stinger v) <= 100.
Proof. weigh. Qed.
Lemma wt_pickup : forall v, typed_pickup v -> wt (ser_pickup v) <= 60.
Proof. weigh. Qed.
Lemma wt_pickup_new : forall v, typed_pickup_new v -> wt (ser_pickup_new v) <= 60.
Proof. weigh. Qed.
Lemma wt_welded : forall v, typed_welded v -> wt (ser_welded v) <= 250.
Proof. weigh. Qed.
Lemma wt_team_paint : forall v, typed_team_paint v -> wt (ser_team_paint v) <= 150.
Proof. weigh. Qed.
Lemma wt_rigid_body : forall v, wt (ser_rigid_body v) <= 500.
Proof. weigh. Qed.
#[global] Hint Resolve wt_team_loadout wt_stat_event wt_music_stinger wt_pickup wt_pickup_new wt_welded wt_team_paint wt_rigid_body : wts.
Lemma wt_remote_id : forall v, typed_remote_id v -> wt (ser_remote_id v) <= 200 + 6 * remote_size v.
Proof. weigh; cbn [remote_size]; unfold text_size, bytes_size in *; lia. Qed.
#[global] Hint Resolve wt_remote_id : wts.
Lemma wt_unique_id : forall v, typed_unique_id v -> wt (ser_unique_id v) <= 260 + 6 * unique_size v.
Proof. weigh; unfold unique_size; cbn [NetTypes.ui_remote_id]; lia. Qed.
#[global] Hint Resolve wt_unique_id : wts.
Lemma wt_opt_str o : wt (ser_opt ser_str o) <= 4 + 6 * maybe text_size o.
Proof. destruct o as [s|]; [pose proof (wt_str s)|]; cbn [ser_opt maybe weight]; lia. Qed.
Lemma wt_opt_unique o : all_opt typed_unique_id o -> wt (ser_opt ser_unique_id o) <= 260 + 6 * maybe unique_size o.
Proof. intros H. destruct o as [s|]; [pose proof (wt_unique_id s H)|]; cbn [ser_opt maybe weight]; lia. Qed.
#[global] Hint Resolve wt_opt_str wt_opt_unique | 0 : wts.
Lemma wt_reservation : forall v, typed_reservation v ->
  wt (ser_reservation v) <= 400 + 6 * (unique_size (rv_unique_id v) + maybe text_size (rv_name v)).
Proof. weigh; cbn [NetTypes.rv_unique_id NetTypes.rv_name]; lia. Qed.
Lemma wt_private_match : forall v, typed_private_match v ->
  wt (ser_private_match v) <= 200 + 6 * (text_size (pm_mutators v) + text_size (pm_game_name v) + text_size (pm_password v)).
Proof. weigh; cbn [NetTypes.pm_mutators NetTypes.pm_game_name NetTypes.pm_password]; lia. Qed.
Lemma wt_product_value : forall v, typed_product_value v ->
  wt (ser_product_value v) <= 40 + 6 * match v with PVTitle s => text_size s | _ => 0 end.
Proof. weigh. Qed.
#[global] Hint Resolve wt_reservation wt_private_match wt_product_value : wts.
Lemma product_size_pos p : 1 <= product_size p.
Proof. unfold product_size, text_size. destruct (pr_value p); lia. Qed.
Lemma wt_product : forall v, typed_product v -> 1 + wt (ser_product v) <= 64 * product_bits v.
Proof.
  intros v H. assert (wt (ser_product v) <= 120 + 6 * match pr_value v with PVTitle s => text_size s | _ => 0 end).
  { revert v H. weigh; cbn [NetTypes.pr_value]; unfold text_size in *; lia. }
  unfold product_bits, product_size, text_size in *. destruct (pr_value v); lia.
Qed.
Lemma total_scale {A} (f : A -> Z) c l : total (fun x => c * f x) l = c * total f l.
Proof. induction l as [|x l IH]; [cbn; lia|]. rewrite !total_cons, IH. lia. Qed.
Lemma wt_online l : all_vec (all_vec typed_product) l -> wt (ser_vec (ser_vec ser_product) l) <= 2 + 64 * online_bits l.
Proof.
  intros H. unfold online_bits. rewrite <- total_scale. refine (wt_vec _ _ _ _ H _). clear l H. intros l H.
  pose proof (wt_vec _ _ _ _ H wt_product) as Q. rewrite total_scale in Q. lia.
Qed.
#[global] Hint Resolve wt_online : wts.
Lemma wt_loadouts_online : forall v, typed_loadouts_online v ->
  wt (ser_loadouts_online v) <= 100 + 64 * (online_bits (lso_blue v) + online_bits (lso_orange v)).
Proof. weigh; cbn [NetTypes.lso_blue NetTypes.lso_orange]; lia. Qed.
Lemma wt_rep_stat_title : forall v, typed_rep_stat_title v -> wt (ser_rep_stat_title v) <= 150 + 6 * text_size (rs_name v).
Proof. weigh; cbn [NetTypes.rs_name]; lia. Qed.
Lemma wt_pickup_info : forall v, typed_pickup_info v -> wt (ser_pickup_info v) <= 250.
Proof. weigh. Qed.
Lemma wt_impulse : forall v, typed_impulse v -> wt (ser_impulse v) <= 100.
Proof. weigh. Qed.
Lemma wt_replicated_boost : forall v, typed_replicated_boost v -> wt (ser_replicated_boost v) <= 150.
Proof. weigh. Qed.
Lemma wt_logo_data : forall v, typed_logo_data v -> wt (ser_logo_data v) <= 100.
Proof. weigh. Qed.
#[global] Hint Resolve wt_loadouts_online wt_rep_stat_title wt_pickup_info wt_impulse wt_replicated_boost wt_logo_data : wts.

Lemma unique_size_nonneg u : 0 <= unique_size u.
Proof. unfold unique_size, remote_size, text_size, bytes_size. destruct (ui_remote_id u); lia. Qed.
Lemma maybe_nonneg {A} (f : A -> Z) o : (forall x, 0 <= f x) -> 0 <= maybe f o.
Proof. intros H. destruct o as [x|]; [apply H|reflexivity]. Qed.
Lemma wt_attribute v : typed_attribute v -> wt (ser_attribute v) + 40 <= 64 * attribute_bits v.
Proof.
  intros H. destruct v; cbn [typed_attribute] in H; repeat match goal with H : _ /\ _ |- _ => destruct H end;
    cbn [ser_attribute attribute_bits attribute_size]; weigh_goal;
    repeat match goal with
    | |- context [unique_size ?u] => first [match goal with K : 0 <= unique_size u |- _ => fail 2 end|pose proof (unique_size_nonneg u)]
    | |- context [maybe text_size ?u] => first [match goal with K : 0 <= maybe text_size u |- _ => fail 2 end|pose proof (maybe_nonneg text_size u text_nonneg)]
    | |- context [maybe unique_size ?u] =>
        first [match goal with K : 0 <= maybe unique_size u |- _ => fail 2 end|pose proof (maybe_nonneg unique_size u unique_size_nonneg)]
    | |- context [text_size ?u] => first [match goal with K : 0 <= text_size u |- _ => fail 2 end|pose proof (text_nonneg u)]
    end; lia.
Qed.

Lemma wt_updated v : typed_updated_attribute v -> 1 + wt (ser_updated_attribute v) <= 64 * update_bits v.
Proof.
  destruct v as [a b c d]. intros (H1 & H2 & H3 & H). pose proof (wt_attribute _ H). unfold update_bits, ser_updated_attribute. cbn [u_attribute].
  cbn [weight fst snd]. rewrite !total_cons, total_nil. cbn [fst snd]. apply wt_i32 in H1, H2, H3.
  keys. lia.
Qed.

Lemma wt_frame v : typed_frame v -> 1 + wt (ser_frame v) <= 64 * frame_bits v.
Proof.
  destruct v as [t d n dl u]. intros (H1 & H2 & H3). unfold frame_bits. cbn [f_new_actors f_deleted_actors f_updated_actors].
  assert (W1 : wt (ser_vec ser_new_actor n) <= 2 + 64 * (33 * len n)).
  { etransitivity; [refine (wt_vec _ _ (fun _ => 64 * 33) _ H1 _); intros x Hx; apply wt_new_actor in Hx; lia|].
    clear. induction n as [|x n IH]; [cbn; lia|]. rewrite total_cons. cbn [length]. lia. }
  assert (W2 : wt (ser_vec ser_i32 dl) <= 2 + 64 * len dl).
  { etransitivity; [refine (wt_vec _ _ (fun _ => 64) _ H2 _); intros x Hx; apply wt_i32 in Hx; lia|].
    clear. induction dl as [|x n IH]; [cbn; lia|]. rewrite total_cons. cbn [length]. lia. }
  assert (W3 : wt (ser_vec ser_updated_attribute u) <= 2 + 64 * total update_bits u).
  { pose proof (wt_vec _ _ _ _ H3 wt_updated) as Q. now rewrite total_scale in Q. }
  pose proof (wt_f32 t). pose proof (wt_f32 d). unfold ser_frame. cbn [weight fst snd]. rewrite !total_cons, total_nil. cbn [fst snd].
  keys. lia.
Qed.

Lemma wt_frames fs : Forall typed_frame fs -> wt (ser_vec ser_frame fs) <= 2 + 64 * total frame_bits fs.
Proof. intros H. pose proof (wt_vec _ _ _ _ H wt_frame) as Q. now rewrite total_scale in Q. Qed.
