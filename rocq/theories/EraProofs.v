(** * Proofs: the network data depend on nothing else of the header *)

From Coq Require Import ZArith List Bool Lia ZifyBool.
From Verif Require Import Base Text F32 NetTypes SegArray Errors Core Header Body BitReader NetModels Attributes Data ObjectIndex
  FrameDecoder Network Parser SpecBasic BasicProofs SpecFrames NetworkProofs SpecFile SpecReplay FileProofs FileFacts SpecEra.
Open Scope Z_scope.
#[local] Opaque PARENT_CLASSES SPAWN_STATS ATTRIBUTES.

(** ** Versions that are not told apart *)

Definition alike (v w : version) : Prop :=
  version_geb v (mkVersion 868 12 0) = version_geb w (mkVersion 868 12 0) /\
  version_geb v (mkVersion 868 18 0) = version_geb w (mkVersion 868 18 0) /\
  version_geb v (mkVersion 868 20 0) = version_geb w (mkVersion 868 20 0) /\
  version_geb v (mkVersion 868 23 8) = version_geb w (mkVersion 868 23 8) /\
  (1 <=? v_net v) = (1 <=? v_net w) /\ (7 <=? v_net v) = (7 <=? v_net w) /\ (v_net v <? 10) = (v_net w <? 10).

Section Alike.
Context (B : bitter) (v w : version) (H : alike v w).
Context (c p s t ti : Z) (rl : bool).
Let D := mkAttrDecoder v (mkProductDecoder v c p s t ti) rl.
Let D' := mkAttrDecoder w (mkProductDecoder w c p s t ti) rl.

Lemma same_vector : vector3i_decode B (v_net v) = vector3i_decode B (v_net w).
Proof.
  unfold vector3i_decode, vector3i_eof_decode, size_limit.
  destruct H as (_ & _ & _ & _ & _ & -> & _). reflexivity.
Qed.
Lemma same_vector_f : vector3f_decode B (v_net v) = vector3f_decode B (v_net w).
Proof. unfold vector3f_decode. now rewrite same_vector. Qed.
Lemma same_explosion : decode_explosion B (v_net v) = decode_explosion B (v_net w).
Proof. unfold decode_explosion. now rewrite same_vector_f. Qed.
Lemma same_trajectory sp : trajectory_from_spawn B sp (v_net v) = trajectory_from_spawn B sp (v_net w).
Proof. destruct sp; unfold trajectory_from_spawn; rewrite ?same_vector; reflexivity. Qed.

Lemma same_products : inner_decode_online_loadout B D = inner_decode_online_loadout B D'.
Proof.
  unfold inner_decode_online_loadout, decode_product, product_value_decode, D, D'.
  cbn [ad_product pd_version pd_color_ind pd_painted_ind pd_title_ind pd_special_edition_ind pd_team_edition_ind].
  destruct H as (_ & -> & _ & -> & _). reflexivity.
Qed.

Lemma same_unique_tail : decode_unique_id_with_system_id B (v_net v) = decode_unique_id_with_system_id B (v_net w).
Proof.
  unfold decode_unique_id_with_system_id, decode_ps4, decode_psynet.
  destruct H as (_ & _ & _ & _ & -> & _ & ->). reflexivity.
Qed.
Lemma same_unique : decode_unique_id B (v_net v) = decode_unique_id B (v_net w).
Proof. unfold decode_unique_id. now rewrite same_unique_tail. Qed.

Lemma same_attribute : decode_attribute B D = decode_attribute B D'.
Proof.
  unfold decode_attribute, decode_uncommon.
  unfold decode_rigid_body, decode_applied_damage, decode_damage_state, decode_cam_settings, decode_demolish,
    decode_demolish_extended, decode_demolish_fx, decode_explosion_attr, decode_extended_explosion, decode_game_mode,
    decode_location, decode_qword_string, decode_welded, decode_unique_id_attr, decode_reservation, decode_party_leader,
    decode_loadout_online, decode_loadouts_online.
  rewrite same_products. unfold D, D'. cbn [ad_version ad_product ad_is_rl_223].
  rewrite same_vector_f, same_explosion, same_unique, same_unique_tail.
  destruct H as (-> & _ & -> & _ & _ & -> & _). reflexivity.
Qed.

(** ** Frame decoders that do not differ otherwise *)

Context (len mc cb : Z) (objects : list str) (data : list byte) (spawns : list spawn_trajectory)
  (caches : list (option cache_info)) (l l' : bool).
Let F := mkFrameDecoder len (mkProductDecoder v c p s t ti) mc cb objects data spawns caches v l rl.
Let F' := mkFrameDecoder len (mkProductDecoder w c p s t ti) mc cb objects data spawns caches w l' rl.
Context (N : do_parse_name F = do_parse_name F') (ho : hash_order).

Lemma same_new id : parse_new_actor B F id = parse_new_actor B F' id.
Proof.
  unfold parse_new_actor. rewrite N. unfold F, F'. cbn [fd_version fd_spawns]. unfold trajectory_from_spawn.
  now rewrite same_vector.
Qed.

Lemma bind_ext {S E A C} (m m' : comp S E A) (k k' : A -> comp S E C) s0 : m s0 = m' s0 ->
  (forall a s1, k a s1 = k' a s1) -> (let* x := m in k x) s0 = (let* x := m' in k' x) s0.
Proof. intros M K. unfold bind. rewrite M. destruct (m' s0) as [[a|e|q] s']; auto. Qed.

Lemma same_attributes fuel : forall id o ci s0, attributes_loop B F fuel id o ci s0 = attributes_loop B F' fuel id o ci s0.
Proof.
  induction fuel as [|fuel IH]; intros id o ci s0; [reflexivity|]. cbn [attributes_loop].
  assert (A : attr_decoder F = D /\ attr_decoder F' = D') by (split; reflexivity). destruct A as [-> ->].
  rewrite same_attribute.
  apply bind_ext; [reflexivity|]. intros [|] s1; [|reflexivity].
  apply bind_ext; [reflexivity|]. intros ? s2. apply bind_ext; [reflexivity|]. intros la s3.
  destruct (la <? _); [reflexivity|]. apply bind_ext; [reflexivity|]. intros x s4.
  apply bind_ext; [reflexivity|]. intros at_ s5. apply bind_ext; [reflexivity|]. intros y s6.
  apply bind_ext; [reflexivity|]. intros ? s7. apply IH.
Qed.

Lemma same_actors afuel fuel : forall s0, actors_loop B F afuel fuel s0 = actors_loop B F' afuel fuel s0.
Proof.
  induction fuel as [|fuel IH]; intros s0; [reflexivity|]. cbn [actors_loop].
  change (cache_of F) with (cache_of F'). change (fd_channel_bits F) with (fd_channel_bits F'). change (fd_max_channels F) with (fd_max_channels F').
  apply bind_ext; [reflexivity|]. intros [|] s1; [|reflexivity].
  apply bind_ext; [reflexivity|]. intros ? s2. apply bind_ext; [reflexivity|]. intros la s3.
  destruct (la <? _); [reflexivity|]. apply bind_ext; [reflexivity|]. intros x s4.
  apply bind_ext; [reflexivity|]. intros alive s5. apply bind_ext; [|intros ? s6; apply IH].
  destruct (alive =? 1); [|reflexivity]. apply bind_ext; [reflexivity|]. intros [|] s6.
  - now rewrite same_new.
  - apply bind_ext; [reflexivity|]. intros found s7. apply bind_ext; [reflexivity|]. intros oc s8. apply same_attributes.
Qed.

Lemma same_frame fuel s0 : decode_frame B F fuel s0 = decode_frame B F' fuel s0.
Proof.
  unfold decode_frame. apply bind_ext; [reflexivity|]. intros x s1. destruct (out_of_range x); [reflexivity|].
  apply bind_ext; [reflexivity|]. intros d s2. destruct (out_of_range d); [reflexivity|]. destruct (_ && _); [reflexivity|].
  apply bind_ext; [apply same_actors|reflexivity].
Qed.

Lemma same_frames fuel n : forall acc s0, frames_loop B ho F fuel n acc s0 = frames_loop B ho F' fuel n acc s0.
Proof.
  induction n as [|n IH]; intros acc s0; [reflexivity|]. cbn [frames_loop]. rewrite same_frame.
  destruct (is_empty (fs_r s0)); [reflexivity|].
  destruct (decode_frame B F' fuel s0) as [[[f|]|e|q] s1]; auto.
Qed.

Lemma same_decode : decode_frames B ho F = decode_frames B ho F'.
Proof. unfold decode_frames. apply same_frames. Qed.
End Alike.

(** ** Headers *)

Lemma reached_geb h a b c : version_geb (version_of h) (mkVersion a b c) = true <-> reached h a b c.
Proof.
  unfold version_geb, version_of, reached, net_of. cbn [v_major v_minor v_net].
  destruct (Z.eqb_spec (h_major h) a); [|lia]. destruct (Z.eqb_spec (h_minor h) b); lia.
Qed.

Lemma bool_iff (x y : bool) : (x = true <-> y = true) -> x = y.
Proof. destruct x, y; intuition congruence. Qed.

Lemma agree_version a b c h h' : agree (Version a b c) h h' <->
  version_geb (version_of h) (mkVersion a b c) = version_geb (version_of h') (mkVersion a b c).
Proof.
  cbn [agree]. rewrite <- !reached_geb. split; [apply bool_iff|]. intros ->. reflexivity.
Qed.

Lemma says_int_find h name x : says_int h name x <-> opt_bind (find_prop name (h_properties h)) prop_as_i32 = Some x.
Proof.
  unfold says_int. rewrite <- find_prop_first. destruct (find_prop name (h_properties h)) as [[]|]; cbn; split; congruence.
Qed.
Lemma says_text_find h name x : says_text h name x <-> opt_bind (find_prop name (h_properties h)) as_string = Some x.
Proof.
  unfold says_text. rewrite <- !find_prop_first.
  destruct (find_prop name (h_properties h)) as [[]|]; cbn; split; try intros [|]; try congruence; intros E; injection E as ->; auto.
Qed.

Lemma some_iff {A} (x y : option A) : (forall z, x = Some z <-> y = Some z) -> x = y.
Proof.
  intros Q. destruct x as [x|].
  - symmetry. now apply Q.
  - destruct y as [y|]; [|reflexivity]. now apply Q.
Qed.

Lemma agree_frames h h' : agree Frames h h' <-> num_frames h = num_frames h'.
Proof.
  cbn [agree]. unfold num_frames. split.
  - intros Q. apply some_iff. intros z. rewrite <- !says_int_find. apply Q.
  - intros Q z. rewrite !says_int_find, Q. reflexivity.
Qed.

Definition channels_of (h : header) : Z := match max_channels h with Some x => x | None => 1023 end.
Lemma channels_find h x : channels h x <-> x = channels_of h.
Proof.
  unfold channels, channels_of, max_channels. split.
  - intros [Q|[Q ->]]; [apply says_int_find in Q; now rewrite Q|].
    destruct (opt_bind _ _) as [y|] eqn:E; [|reflexivity]. apply says_int_find in E. now apply Q in E.
  - intros ->. destruct (opt_bind _ _) as [y|] eqn:E; [left; now apply says_int_find|].
    right. split; [|reflexivity]. intros y Q. apply says_int_find in Q. congruence.
Qed.
Lemma agree_channels h h' : agree Channels h h' <-> channels_of h = channels_of h'.
Proof.
  cbn [agree]. split.
  - intros Q. symmetry. apply channels_find, Q, channels_find. reflexivity.
  - intros Q x. rewrite !channels_find, Q. reflexivity.
Qed.

Lemma lan_find h : over_lan h <-> is_lan_of h = true.
Proof.
  unfold over_lan, is_lan_of, match_type. rewrite says_text_find. destruct (opt_bind _ _) as [x|]; [|split; discriminate].
  rewrite str_eqb_spec. split; congruence.
Qed.
Lemma build_find h : new_build h <-> is_rl_223_of h = true.
Proof.
  unfold new_build, is_rl_223_of, build_version. split.
  - intros (x & Q & L). apply says_text_find in Q. rewrite Q. now apply lex_le_geb.
  - destruct (opt_bind _ _) as [x|] eqn:E; [|discriminate]. intros Q. exists x.
    split; [now apply says_text_find|now apply lex_le_geb].
Qed.
Lemma agree_build h h' : agree Build h h' <-> is_rl_223_of h = is_rl_223_of h'.
Proof. cbn [agree]. rewrite !build_find. split; [apply bool_iff|]. intros ->. reflexivity. Qed.

Definition header_names (h : header) : bool :=
  version_geb (version_of h) (mkVersion 868 20 0) ||
  (version_geb (version_of h) (mkVersion 868 14 0) && negb (is_lan_of h)).

Lemma agree_names h h' : agree_all h h' -> header_names h = header_names h'.
Proof.
  intros A. unfold header_names.
  assert (E1 : agree (Version 868 20 0) h h') by (apply A; cbn; tauto). apply agree_version in E1 as <-.
  assert (E2 : agree (Version 868 14 0) h h') by (apply A; cbn; tauto). apply agree_version in E2 as <-.
  assert (E3 : agree Lan h h') by (apply A; cbn; tauto). cbn [agree] in E3.
  rewrite <- !reached_geb, !lan_find in E3.
  destruct (version_geb (version_of h) (mkVersion 868 20 0)); [reflexivity|].
  destruct (version_geb (version_of h) (mkVersion 868 14 0)); [|reflexivity]. cbn.
  f_equal. apply bool_iff, E3; auto.
Qed.

Theorem same_network_frames B ho h h' b b' : agree_all h h' -> same_network b b' ->
  network_parse_frames B ho h b = network_parse_frames B ho h' b'.
Proof.
  intros A (Eo & Ec & Ed). unfold network_parse_frames. rewrite Eo, Ec, Ed.
  destruct (compute_spawns _ _) as [spawns|e|q]; cbn [obind]; [|reflexivity..].
  destruct (compute_caches _ _ _ _) as [caches|e|q]; cbn [obind]; [|reflexivity..].
  assert (E : agree Frames h h') by (apply A; cbn; tauto). apply agree_frames in E as <-.
  destruct (num_frames h) as [n|]; [|reflexivity]. destruct (_ <? _); [reflexivity|].
  assert (E : agree Channels h h') by (apply A; cbn; tauto). apply agree_channels in E.
  assert (Em : max_channels_of h = max_channels_of h') by (unfold max_channels_of; now f_equal).
  unfold channel_bits_of. rewrite <- Em.
  assert (Eb : agree Build h h') by (apply A; cbn; tauto). apply agree_build in Eb as <-.
  apply same_decode; [|exact (agree_names _ _ A)].
  assert (V : forall a b c, In (Version a b c) aspects ->
    version_geb (version_of h) (mkVersion a b c) = version_geb (version_of h') (mkVersion a b c))
    by (intros; apply agree_version, A; auto).
  assert (Nn : forall n, In (Net n) aspects -> n <= v_net (version_of h) <-> n <= v_net (version_of h')) by (intros m Hm; apply (A _ Hm)).
  unfold alike. rewrite !V by (cbn; tauto).
  pose proof (Nn 1 ltac:(cbn; tauto)) as N1. pose proof (Nn 7 ltac:(cbn; tauto)) as N7. pose proof (Nn 10 ltac:(cbn; tauto)) as N10.
  clear - N1 N7 N10. repeat split; lia.
Qed.

Theorem same_files B ho data data' h h' b b' rest rest' n : lenZ data < 2 ^ 31 -> lenZ data' < 2 ^ 31 ->
  f_file data (h, b) rest -> f_file data' (h', b') rest' ->
  agree_all (sec_value h) (sec_value h') -> same_network (sec_value b) (sec_value b') ->
  match parse_with B ho CrcNever n data, parse_with B ho CrcNever n data' with
  | Ok r, Ok r' => r_network_frames r = r_network_frames r'
  | Err e, Err e' => e = e'
  | Panic p, Panic p' => p = p'
  | _, _ => False
  end.
Proof.
  intros L L' F F' A S. rewrite (fate_file B ho _ _ _ _ L F), (fate_file B ho _ _ _ _ L' F'). cbn [mismatch].
  rewrite (same_network_frames B ho _ _ _ _ A S).
  destruct (net_result n _) as [fs|e|q]; reflexivity.
Qed.
