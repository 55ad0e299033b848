(** * How deep the JSON value of a replay is nested, and the length of the indented text *)

From Coq Require Import ZArith List Permutation Bool Lia ZifyBool ZifyNat.
From Verif Require Import Base F32 NetTypes Errors Core Header Body BitReader ObjectIndex Network Parser Json JsonNet JsonReplay JsonText
  SpecBasic SpecSize SpecFile SpecNet SpecReplay SpecDepth SpecWrite FileFacts WriteProofs DepthProofs SizeProofs WireBits TextLength JsonWeight JsonLength.
Open Scope Z_scope.

Lemma ht_arr c l : 0 <= c -> (forall x, In x l -> height x <= c) -> height (JArr l) <= 1 + c.
Proof.
  intros H K. cbn [height]. assert (fold_right (fun x n => Z.max (height x) n) 0 l <= c); [|lia].
  induction l as [|x l IH]; [exact H|]. cbn [fold_right]. pose proof (K x (or_introl eq_refl)). specialize (IH (fun y Hy => K y (or_intror Hy))). lia.
Qed.
Lemma ht_obj c l : 0 <= c -> (forall kv, In kv l -> height (snd kv) <= c) -> height (JObj l) <= 1 + c.
Proof.
  intros H K. cbn [height]. assert (fold_right (fun kv n => Z.max (height (snd kv)) n) 0 l <= c); [|lia].
  induction l as [|x l IH]; [exact H|]. cbn [fold_right]. pose proof (K x (or_introl eq_refl)). specialize (IH (fun y Hy => K y (or_intror Hy))). lia.
Qed.
Lemma ht_vec {A} (f : A -> json) c l : (forall x, height (f x) <= c) -> height (ser_vec f l) <= 1 + Z.max 0 c.
Proof.
  intros K. apply ht_arr; [lia|]. intros x Hx. apply in_map_iff in Hx as (y & <- & _). specialize (K y). lia.
Qed.
Lemma ht_opt {A} (f : A -> json) c o : (forall x, height (f x) <= c) -> height (ser_opt f o) <= Z.max 0 c.
Proof. intros K. destruct o as [x|]; cbn [ser_opt]; [specialize (K x); lia|cbn [height]; lia]. Qed.
Lemma ht_u8 x : height (ser_u8 x) <= 0. Proof. reflexivity. Qed.
Lemma ht_u16 x : height (ser_u16 x) <= 0. Proof. reflexivity. Qed.
Lemma ht_u32 x : height (ser_u32 x) <= 0. Proof. reflexivity. Qed.
Lemma ht_i8 x : height (ser_i8 x) <= 0. Proof. reflexivity. Qed.
Lemma ht_i32 x : height (ser_i32 x) <= 0. Proof. reflexivity. Qed.
Lemma ht_i64s x : height (ser_i64s x) <= 0. Proof. reflexivity. Qed.
Lemma ht_u64s x : height (ser_u64s x) <= 0. Proof. reflexivity. Qed.
Lemma ht_bool x : height (ser_bool x) <= 0. Proof. reflexivity. Qed.
Lemma ht_str x : height (ser_str x) <= 0. Proof. reflexivity. Qed.
Lemma ht_f32 x : height (ser_f32 x) <= 0. Proof. unfold ser_f32. now destruct (f32_is_finite x). Qed.
Lemma ht_bytes l : height (ser_bytes l) <= 1.
Proof. apply (ht_arr 0); [lia|]. intros x Hx. apply in_map_iff in Hx as (y & <- & _). reflexivity. Qed.
#[local] Hint Resolve ht_u8 ht_u16 ht_u32 ht_i8 ht_i32 ht_i64s ht_u64s ht_bool ht_str ht_f32 ht_bytes ht_vec ht_opt : hts.

Lemma ht_obj' n l : 1 <= n -> Forall (fun kv => height (snd kv) <= n - 1) l -> height (JObj l) <= n.
Proof. intros H K. rewrite Forall_forall in K. pose proof (ht_obj (n - 1) l ltac:(lia) K). lia. Qed.
Lemma ht_arr' n l : 1 <= n -> Forall (fun x => height x <= n - 1) l -> height (JArr l) <= n.
Proof. intros H K. rewrite Forall_forall in K. pose proof (ht_arr (n - 1) l ltac:(lia) K). lia. Qed.

Ltac tall_goal :=
  cbn [snd];
  match goal with
  | |- height (JObj _) <= _ => apply ht_obj'; [lia|repeat (apply Forall_cons; [tall_goal|]); apply Forall_nil]
  | |- height (JArr _) <= _ => apply ht_arr'; [lia|repeat (apply Forall_cons; [tall_goal|]); apply Forall_nil]
  | |- _ => eapply Z.le_trans; [solve [eauto with hts]|lia]
  | |- _ => cbn [height]; lia
  end.
Ltac tall :=
  let v := fresh "v" in intros v; destruct v;
  match goal with |- height (?f _) <= _ => unfold f end; tall_goal.

Lemma ht_vector3f : forall v, height (ser_vector3f v) <= 1. Proof. tall. Qed.
Lemma ht_vector3i : forall v, height (ser_vector3i v) <= 1. Proof. tall. Qed.
Lemma ht_quaternion : forall v, height (ser_quaternion v) <= 1. Proof. tall. Qed.
Lemma ht_rotation : forall v, height (ser_rotation v) <= 1. Proof. tall. Qed.
#[local] Hint Resolve ht_vector3f ht_vector3i ht_quaternion ht_rotation : hts.
Lemma ht_trajectory : forall v, height (ser_trajectory v) <= 2. Proof. tall. Qed.
#[local] Hint Resolve ht_trajectory : hts.
Lemma ht_new_actor : forall v, height (ser_new_actor v) <= 3. Proof. tall. Qed.
Lemma ht_active_actor : forall v, height (ser_active_actor v) <= 1. Proof. tall. Qed.
#[local] Hint Resolve ht_new_actor ht_active_actor : hts.
Lemma ht_cam_settings : forall v, height (ser_cam_settings v) <= 5. Proof. tall. Qed.
Lemma ht_club_colors : forall v, height (ser_club_colors v) <= 5. Proof. tall. Qed.
Lemma ht_applied_damage : forall v, height (ser_applied_damage v) <= 5. Proof. tall. Qed.
Lemma ht_damage_state : forall v, height (ser_damage_state v) <= 5. Proof. tall. Qed.
Lemma ht_demolish : forall v, height (ser_demolish v) <= 5. Proof. tall. Qed.
Lemma ht_demolish_extended : forall v, height (ser_demolish_extended v) <= 5. Proof. tall. Qed.
Lemma ht_demolish_fx : forall v, height (ser_demolish_fx v) <= 5. Proof. tall. Qed.
Lemma ht_explosion : forall v, height (ser_explosion v) <= 2. Proof. tall. Qed.
Lemma ht_loadout : forall v, height (ser_loadout v) <= 1. Proof. tall. Qed.
#[local] Hint Resolve ht_cam_settings ht_club_colors ht_applied_damage ht_damage_state ht_demolish ht_demolish_extended ht_demolish_fx
  ht_explosion ht_loadout : hts.
Lemma ht_extended_explosion : forall v, height (ser_extended_explosion v) <= 5. Proof. tall. Qed.
Lemma ht_team_loadout : forall v, height (ser_team_loadout v) <= 5. Proof. tall. Qed.
Lemma ht_stat_event : forall v, height (ser_stat_event v) <= 5. Proof. tall. Qed.
Lemma ht_music_stinger : forall v, height (ser_music_stinger v) <= 5. Proof. tall. Qed.
Lemma ht_pickup : forall v, height (ser_pickup v) <= 5. Proof. tall. Qed.
Lemma ht_pickup_new : forall v, height (ser_pickup_new v) <= 5. Proof. tall. Qed.
Lemma ht_welded : forall v, height (ser_welded v) <= 5. Proof. tall. Qed.
Lemma ht_team_paint : forall v, height (ser_team_paint v) <= 5. Proof. tall. Qed.
Lemma ht_rigid_body : forall v, height (ser_rigid_body v) <= 5. Proof. tall. Qed.
Lemma ht_remote_id : forall v, height (ser_remote_id v) <= 3. Proof. tall. Qed.
#[local] Hint Resolve ht_extended_explosion ht_team_loadout ht_stat_event ht_music_stinger ht_pickup ht_pickup_new ht_welded ht_team_paint
  ht_rigid_body ht_remote_id : hts.
Lemma ht_unique_id : forall v, height (ser_unique_id v) <= 4. Proof. tall. Qed.
#[local] Hint Resolve ht_unique_id : hts.
Lemma ht_reservation : forall v, height (ser_reservation v) <= 5. Proof. tall. Qed.
Lemma ht_private_match : forall v, height (ser_private_match v) <= 5. Proof. tall. Qed.
Lemma ht_product_value : forall v, height (ser_product_value v) <= 1. Proof. tall. Qed.
#[local] Hint Resolve ht_reservation ht_private_match ht_product_value : hts.
Lemma ht_product : forall v, height (ser_product v) <= 2. Proof. tall. Qed.
#[local] Hint Resolve ht_product : hts.
Lemma ht_loadouts_online : forall v, height (ser_loadouts_online v) <= 5. Proof. tall. Qed.
Lemma ht_rep_stat_title : forall v, height (ser_rep_stat_title v) <= 5. Proof. tall. Qed.
Lemma ht_pickup_info : forall v, height (ser_pickup_info v) <= 5. Proof. tall. Qed.
Lemma ht_impulse : forall v, height (ser_impulse v) <= 5. Proof. tall. Qed.
Lemma ht_replicated_boost : forall v, height (ser_replicated_boost v) <= 5. Proof. tall. Qed.
Lemma ht_logo_data : forall v, height (ser_logo_data v) <= 5. Proof. tall. Qed.
#[local] Hint Resolve ht_loadouts_online ht_rep_stat_title ht_pickup_info ht_impulse ht_replicated_boost ht_logo_data : hts.
Lemma ht_attribute : forall v, height (ser_attribute v) <= 6. Proof. tall. Qed.
#[local] Hint Resolve ht_attribute : hts.
Lemma ht_updated : forall v, height (ser_updated_attribute v) <= 7. Proof. tall. Qed.
#[local] Hint Resolve ht_updated : hts.
Lemma ht_frame : forall v, height (ser_frame v) <= 9. Proof. tall. Qed.
Lemma ht_key_frame : forall v, height (ser_key_frame v) <= 1. Proof. tall. Qed.
Lemma ht_tick_mark : forall v, height (ser_tick_mark v) <= 1. Proof. tall. Qed.
Lemma ht_debug_info : forall v, height (ser_debug_info v) <= 1. Proof. tall. Qed.
Lemma ht_class_index : forall v, height (ser_class_index v) <= 1. Proof. tall. Qed.
Lemma ht_cache_prop : forall v, height (ser_cache_prop v) <= 1. Proof. tall. Qed.
#[local] Hint Resolve ht_frame ht_key_frame ht_tick_mark ht_debug_info ht_class_index ht_cache_prop : hts.
Lemma ht_class_net_cache : forall v, height (ser_class_net_cache v) <= 3. Proof. tall. Qed.
#[local] Hint Resolve ht_class_net_cache : hts.

(** ** Header properties *)

Lemma ht_props k : forall ps, (forall m, levels m ps -> (m <= k)%nat) -> height (ser_props ps) <= 2 * Z.of_nat k + 2.
Proof.
  induction k as [|k IH]; intros ps H.
  - unfold ser_props. etransitivity; [apply (ht_obj 1); [lia|]|lia]. intros kv Hkv. apply in_map_iff in Hkv as ([key v] & <- & Hv). cbn [snd].
    destruct v; cbn [ser_header_prop];
      lazymatch type of Hv with
      | In (_, HArray ?rows) _ => destruct rows as [|row rows]; [cbn; lia|]; exfalso; assert (1 <= 0)%nat; [|lia]; apply H;
          eapply levels_array; [exact Hv|left; reflexivity|constructor]
      | In (_, HStruct _ _) _ => exfalso; assert (1 <= 0)%nat; [|lia]; apply H; eapply levels_struct; [exact Hv|constructor]
      | _ => tall_goal
      end.
  - unfold ser_props. etransitivity; [apply (ht_obj (2 * Z.of_nat k + 3)); [lia|]|lia]. intros kv Hkv.
    apply in_map_iff in Hkv as ([key v] & <- & Hv). cbn [snd].
    destruct v; lazymatch type of Hv with
      | In (_, HArray ?rows) _ => rewrite ser_array; unfold ser_vec; etransitivity; [apply (ht_arr (2 * Z.of_nat k + 2)); [lia|]|lia];
          intros x Hx; apply in_map_iff in Hx as (row & <- & Hr); apply IH; intros m Hm;
          assert (S m <= S k)%nat; [|lia]; apply H; eapply levels_array; eassumption
      | In (_, HStruct ?name ?fields) _ => rewrite ser_struct; assert (height (ser_props fields) <= 2 * Z.of_nat k + 2);
          [apply IH; intros m Hm; assert (S m <= S k)%nat; [|lia]; apply H; eapply levels_struct; eassumption|];
          cbn [height fold_right fst snd]; pose proof (ht_str name); lia
      | _ => cbn [ser_header_prop]; tall_goal
      end.
Qed.

Lemma ht_replay k r : (forall m, levels m (r_properties r) -> (m <= k)%nat) -> height (ser_replay r) <= 2 * Z.of_nat k + 12.
Proof.
  intros H. apply ht_props in H.
  assert (height (ser_opt (fun fs => JObj [(lit "frames", ser_vec ser_frame fs)]) (r_network_frames r)) <= 11).
  { destruct (r_network_frames r); cbn [ser_opt]; tall_goal. }
  unfold ser_replay. apply ht_obj'; [lia|]. repeat (apply Forall_cons; [cbn [snd]; first [lia|tall_goal]|]). apply Forall_nil.
Qed.

(** ** The indented text *)

Lemma weight_scale N j : 0 <= N -> weight N j <= (1 + N) * wt j.
Proof.
  intros HN. induction j as [|b|x|x|s|a IH|o IH] using json_rec'; cbn [weight]; try lia.
  - pose proof (lenZ_nonneg (int_text x)). nia.
  - pose proof (lenZ_nonneg (f32_text x)). nia.
  - pose proof (lenZ_nonneg (quote s)). nia.
  - assert (total (fun x => 1 + N + weight N x) a <= (1 + N) * total (fun x => 1 + 0 + wt x) a); [|lia].
    induction IH as [|x a Hx _ IHa]; [rewrite !total_nil; lia|]. rewrite !total_cons. lia.
  - assert (total (fun kv => 2 + N + lenZ (quote (fst kv)) + weight N (snd kv)) o <=
      (1 + N) * total (fun kv => 2 + 0 + lenZ (quote (fst kv)) + wt (snd kv)) o); [|lia].
    induction IH as [|x a Hx _ IHa]; [rewrite !total_nil; lia|]. rewrite !total_cons. pose proof (lenZ_nonneg (quote (fst x))). nia.
Qed.

Lemma indent_len d : lenZ (concat (repeat (lit "  ") d)) = 2 * Z.of_nat d.
Proof. induction d as [|d IH]; [reflexivity|]. cbn [repeat concat]. rewrite lenZ_app, IH. change (lenZ (lit "  ")) with 2. lia. Qed.

Section Replay.
Context (B : bitter) (HB : bitter_ok B) (ho : hash_order) (Hho : hash_order_ok ho).

Lemma compact_length c n data r : lenZ data < 2 ^ 31 -> parse_with B ho c n data = Ok r ->
  lenZ (json_text f32_text Compact 0 (ser_replay r)) <= 512 * lenZ data.
Proof.
  intros L E. etransitivity; [|exact (replay_weight B HB ho Hho c n data r L E)].
  apply (json_len Compact 0 (height (ser_replay r))); [lia| |lia]. intros d _. reflexivity.
Qed.

Lemma pretty_length c n data r k : lenZ data < 2 ^ 31 -> parse_with B ho c n data = Ok r ->
  (forall m, levels m (r_properties r) -> (m <= k)%nat) ->
  lenZ (json_text f32_text Pretty 0 (ser_replay r)) <= (4 * Z.of_nat k + 27) * (512 * lenZ data).
Proof.
  intros L E H. pose proof (replay_weight B HB ho Hho c n data r L E) as W. apply ht_replay in H.
  assert (lenZ (json_text f32_text Pretty 0 (ser_replay r)) <= weight (4 * Z.of_nat k + 26) (ser_replay r)).
  { apply (json_len Pretty _ (2 * Z.of_nat k + 12)); [lia| |lia]. intros d Hd. cbn [new_line colon].
    rewrite lenZ_cons, indent_len. change (lenZ (lit ": ")) with 2. lia. }
  pose proof (weight_scale (4 * Z.of_nat k + 26) (ser_replay r) ltac:(lia)). nia.
Qed.
End Replay.

(** ** Arrays in arrays *)

Lemma arrays_text n : forall d, lenZ (json_text f32_text Pretty d (ser_props (arrays n))) =
  2 + 20 * Z.of_nat n + 8 * Z.of_nat d * Z.of_nat n + 8 * Z.of_nat n * (Z.of_nat n - 1).
Proof.
  induction n as [|n IH]; intros d; [change (lenZ (json_text f32_text Pretty d (ser_props (arrays 0)))) with 2; lia|].
  change (ser_props (arrays (S n))) with (JObj [([], JArr [ser_props (arrays n)])]).
  cbn [json_text map]. unfold bracket. cbn [flat_map new_line colon]. rewrite !app_nil_l.
  repeat (rewrite ?lenZ_app, ?lenZ_cons, ?indent_len). rewrite IH.
  change (lenZ (quote [])) with 2. change (lenZ (lit ": ")) with 2. change (lenZ (lit "{")) with 1. change (lenZ (lit "}")) with 1.
  change (lenZ (lit "[")) with 1. change (lenZ (lit "]")) with 1. lia.
Qed.

Lemma in_bracket l d o c p parts : In p parts -> lenZ p <= lenZ (bracket l d o c parts).
Proof.
  intros H. unfold bracket. destruct parts as [|q qs]; [destruct H|]. rewrite !lenZ_app.
  pose proof (lenZ_nonneg o). pose proof (lenZ_nonneg c). pose proof (lenZ_nonneg (new_line l (S d))). pose proof (lenZ_nonneg (new_line l d)).
  pose proof (lenZ_nonneg q). pose proof (lenZ_nonneg (flat_map (fun q => lit "," ++ new_line l (S d) ++ q) qs)). destruct H as [->|H]; [lia|].
  assert (lenZ p <= lenZ (flat_map (fun q => lit "," ++ new_line l (S d) ++ q) qs)); [|lia]. clear - H.
  induction qs as [|x qs IH]; [destruct H|]. cbn [flat_map]. rewrite !lenZ_app. pose proof (lenZ_nonneg (lit ",")). pose proof (lenZ_nonneg (new_line l (S d))).
  pose proof (lenZ_nonneg (flat_map (fun q => lit "," ++ new_line l (S d) ++ q) qs)). destruct H as [->|H]; [lia|]. specialize (IH H).
  pose proof (lenZ_nonneg x). lia.
Qed.
Lemma part_len l d k x o : In (k, x) o -> lenZ (json_text f32_text l (S d) x) <= lenZ (json_text f32_text l d (JObj o)).
Proof.
  intros H. cbn [json_text]. etransitivity; [|apply in_bracket, (in_map _ _ _ H)]. cbv beta iota. rewrite !lenZ_app.
  pose proof (lenZ_nonneg (quote k)). pose proof (lenZ_nonneg (colon l)). lia.
Qed.

Lemma arrays_parsed B ho n c : hash_order_ok ho -> 43 * Z.of_nat n + 77 < 2 ^ 31 ->
  exists r, parse_with B ho c NetAlways (arrays_file n) = Ok r /\ r_properties r = arrays n.
Proof.
  intros Hho L. unfold arrays_file. rewrite parse_written.
  - assert (E : Network.network_parse_frames B ho (mkHeader 1 0 None [] (arrays n)) (mkBody [] [] [] [] [] [] [] [] [] []) = Ok []).
    { unfold Network.network_parse_frames, num_frames. cbn [h_properties].
      assert (F : find_prop "NumFrames" (arrays n) = None) by (destruct n; reflexivity). rewrite F. cbn.
      assert (N : ho (amap object_attribute) [] = []) by (apply Permutation_nil, Permutation_sym, Hho). now rewrite N. }
    rewrite E. eexists. split; reflexivity.
  - split; [unfold i32_ok; cbn; lia|]. split; [unfold i32_ok; cbn; lia|]. split; [cbn; lia|].
    split; [|apply arrays_ok]. exists []. split; [constructor|cbn; lia].
  - repeat match goal with |- _ /\ _ => split | |- body_ok _ => unfold body_ok | |- list_ok _ _ => unfold list_ok end; cbn; try lia; constructor.
  - fold (arrays_file n). rewrite arrays_file_length. exact L.
Qed.

Section Program.
Context (B : bitter) (ho : hash_order) (show_error : parse_error -> str).
Notation printed_text data := (out_text (json_main B ho f32_text show_error data)).

Lemma program_length data : bitter_ok B -> hash_order_ok ho -> lenZ data < 2 ^ 31 ->
  lenZ (printed_text data) <= 512 * lenZ data * (27 + 4 * (lenZ data / 43)).
Proof.
  intros HB Hho L. unfold json_main. change (builder_parse B ho _) with (parse_with B ho CrcAlways NetAlways data).
  pose proof (lenZ_nonneg data). pose proof (Z.div_pos (lenZ data) 43 ltac:(lia) ltac:(lia)).
  destruct (parse_with B ho CrcAlways NetAlways data) as [r| |] eqn:E; cbn [out_text]; try (change (lenZ []) with 0; nia).
  assert (forall m, levels m (r_properties r) -> (m <= Z.to_nat (lenZ data / 43))%nat).
  { intros m Hm. pose proof (depth_bound B ho _ _ _ _ _ L E Hm). 
    assert (Z.of_nat m <= lenZ data / 43) by (apply Z.div_le_lower_bound; lia). lia. }
  pose proof (pretty_length B HB ho Hho _ _ _ _ _ L E H1) as Q. rewrite Z2Nat.id in Q by lia. nia.
Qed.

Lemma program_quadratic n : hash_order_ok ho -> 43 * Z.of_nat n + 77 < 2 ^ 31 ->
  exists data, lenZ data = 43 * Z.of_nat n + 77 /\ exit_code (json_main B ho f32_text show_error data) = 0 /\
    8 * (Z.of_nat n * Z.of_nat n) <= lenZ (printed_text data).
Proof.
  intros Hho L. exists (arrays_file n). split; [apply arrays_file_length|]. destruct (arrays_parsed B ho n CrcAlways Hho L) as (r & E & P).
  unfold json_main. change (builder_parse B ho _) with (parse_with B ho CrcAlways NetAlways (arrays_file n)). rewrite E. cbn [exit_code out_text].
  split; [reflexivity|]. etransitivity; [|apply (part_len Pretty 0 (lit "properties") (ser_props (r_properties r)))].
  - rewrite P, arrays_text. nia.
  - do 6 right. left. reflexivity.
Qed.
End Program.
