(** * Proofs: [Debug] of whole replays *)

From Coq Require Import ZArith List Bool Lia.
From Verif Require Import Base F32 NetTypes Errors Core Header Body BitReader ObjectIndex Network Parser Json Debug DebugNet DebugReplay
  SpecBasic SpecText SpecFacts SpecJson SpecFile SpecReplay SpecNan SpecShown SpecDebug FileFacts BitLemmas ParseProofs CoreLogic SizeProofs AlikeProofs
  DebugLogic DebugProofs DebugTextProofs DebugNetProofs DebugFacts.
Open Scope Z_scope.

(** ** One NaN *)

Definition dbg_entry (kv : str * header_prop) : dbg := match kv with (k, v) => DTuple [] [DStr k; dbg_header_prop v] end.
Lemma props_eq l : dbg_props l = DList (map dbg_entry l).
Proof. reflexivity. Qed.
Lemma array_eq rows : dbg_header_prop (HArray rows) = DTuple (lit "Array") [DList (map dbg_props rows)].
Proof. reflexivity. Qed.
Lemma struct_eq n f : dbg_header_prop (HStruct n f) = DStruct (lit "Struct") [(lit "name", DStr n); (lit "fields", dbg_props f)].
Proof. reflexivity. Qed.

Lemma inj_entries f : Forall (fun kv => forall q, dbg_header_prop (snd kv) = dbg_header_prop q -> snd kv = q) f ->
  forall g, dbg_props f = dbg_props g -> f = g.
Proof.
  intros H g E. rewrite !props_eq in E. injection E as E. revert g E.
  induction H as [|[k v] f Hv _ IH]; intros [|[k' v'] g] E; try discriminate E; [reflexivity|].
  cbn [map dbg_entry] in E. injection E as Ek Ev Es. cbn [snd] in Hv. apply Hv in Ev. apply IH in Es. now subst.
Qed.
Lemma inj_prop : inj dbg_header_prop.
Proof.
  intros p. induction p using header_prop_nested; intros q E; destruct q; cbn in E; try discriminate E; try (injection E as E; now subst).
  - change (dbg_header_prop (HArray rows) = dbg_header_prop (HArray rows0)) in E. rewrite !array_eq in E. injection E as E. f_equal. revert rows0 E.
    induction H as [|r rows Hr _ IH]; intros [|r' rows'] E; try discriminate E; [reflexivity|]. cbn [map] in E.
    assert (E1 : dbg_props r = dbg_props r') by congruence. assert (E2 : map dbg_props rows = map dbg_props rows') by congruence.
    apply (inj_entries _ Hr) in E1. apply IH in E2. now subst.
  - injection E as -> E. apply inj_opt in E; [now subst|apply inj_DStr].
  - change (dbg_header_prop (HStruct name f) = dbg_header_prop (HStruct name0 fields)) in E. rewrite !struct_eq in E.
    assert (E1 : dbg_props f = dbg_props fields) by congruence. assert (name = name0) by congruence. apply (inj_entries _ H) in E1. now subst.
Qed.
Lemma inj_props : inj dbg_props.
Proof. intros f g. apply inj_entries. rewrite Forall_forall. intros kv _ q. apply inj_prop. Qed.

Lemma nan_entries f : Forall (fun kv => dbg_header_prop (one_nan_prop (snd kv)) = norm (dbg_header_prop (snd kv))) f ->
  dbg_props (one_nan_props f) = norm (dbg_props f).
Proof.
  intros H. rewrite !props_eq. cbn [norm]. f_equal. unfold one_nan_props. rewrite !map_map. rewrite Forall_forall in H.
  apply map_ext_in. intros [k v] Hk. apply H in Hk. cbn [snd] in Hk. cbn [dbg_entry fst snd norm map]. now rewrite Hk.
Qed.
Lemma nan_prop : nans dbg_header_prop one_nan_prop.
Proof.
  intros p. induction p using header_prop_nested; try reflexivity.
  - change (one_nan_prop (HArray rows)) with (HArray (map one_nan_props rows)). rewrite !array_eq. cbn [norm map]. do 3 f_equal. rewrite !map_map.
    rewrite Forall_forall in H. apply map_ext_in. intros r Hr. apply nan_entries. now apply H.
  - cbn [dbg_header_prop one_nan_prop norm map]. now destruct v.
  - change (one_nan_prop (HStruct name f)) with (HStruct name (one_nan_props f)). rewrite !struct_eq. cbn [norm map]. now rewrite <- nan_entries.
Qed.
Lemma nan_props : nans dbg_props one_nan_props.
Proof. intros f. apply nan_entries. rewrite Forall_forall. intros kv _. apply nan_prop. Qed.

Lemma inj_key_frame : inj dbg_key_frame. Proof. dbg_inj dbg_key_frame. Qed.
Lemma nan_key_frame : nans dbg_key_frame one_nan_key_frame. Proof. intros a. reflexivity. Qed.
Lemma inj_tick_mark : inj dbg_tick_mark. Proof. dbg_inj dbg_tick_mark. Qed.
Lemma nan_tick_mark : nans dbg_tick_mark (fun v => v). Proof. intros a. reflexivity. Qed.
Lemma inj_debug_info : inj dbg_debug_info. Proof. dbg_inj dbg_debug_info. Qed.
Lemma nan_debug_info : nans dbg_debug_info (fun v => v). Proof. intros a. reflexivity. Qed.
Lemma inj_class_index : inj dbg_class_index. Proof. dbg_inj dbg_class_index. Qed.
Lemma nan_class_index : nans dbg_class_index (fun v => v). Proof. intros a. reflexivity. Qed.
Lemma inj_cache_prop : inj dbg_cache_prop. Proof. dbg_inj dbg_cache_prop. Qed.
Lemma nan_cache_prop : nans dbg_cache_prop (fun v => v). Proof. intros a. reflexivity. Qed.
#[export] Hint Resolve inj_props inj_key_frame inj_tick_mark inj_debug_info inj_class_index inj_cache_prop
  nan_props nan_key_frame nan_tick_mark nan_debug_info nan_class_index nan_cache_prop : dbg.
Lemma inj_net_cache : inj dbg_class_net_cache.
Proof.
  intros [a1 a2 a3 a4] [b1 b2 b3 b4] E. unfold dbg_class_net_cache in E. cbn [nc_object_ind nc_parent_id nc_cache_id nc_properties] in E.
  assert (E4 : dbg_vec dbg_cache_prop a4 = dbg_vec dbg_cache_prop b4) by congruence. apply (inj_vec _ inj_cache_prop) in E4. congruence.
Qed.
Lemma nan_net_cache : nans dbg_class_net_cache (fun v => v).
Proof. intros a. unfold dbg_class_net_cache. cbn [norm map]. now rewrite <- (nan_vec_id _ nan_cache_prop). Qed.
#[export] Hint Resolve inj_net_cache nan_net_cache : dbg.
Lemma inj_network_frames : inj dbg_network_frames.
Proof. intros a b E. unfold dbg_network_frames in E. assert (E1 : dbg_vec dbg_frame a = dbg_vec dbg_frame b) by congruence. now apply (inj_vec _ inj_frame) in E1. Qed.
Lemma nan_network_frames : nans dbg_network_frames (map one_nan_frame).
Proof. intros a. unfold dbg_network_frames. cbn [norm map]. now rewrite <- (nan_vec _ _ nan_frame). Qed.
#[export] Hint Resolve inj_network_frames nan_network_frames : dbg.

Lemma field_eq n n' l l' : DStruct n l = DStruct n' l' -> map snd l = map snd l'.
Proof. congruence. Qed.
Lemma cons_eq {A} (a b : A) l m : a :: l = b :: m -> a = b /\ l = m.
Proof. intros E. now injection E. Qed.
Lemma inj_replay : inj dbg_replay.
Proof.
  intros r s E. apply field_eq in E. cbn [map snd] in E.
  repeat match type of E with _ :: _ = _ :: _ => let K := fresh "K" in apply cons_eq in E as [K E] end. clear E.
  repeat match goal with
  | K : ?f ?a = ?f ?b |- _ => let J := fresh in assert (J : inj f) by (auto with dbg); apply J in K; clear J
  end.
  destruct r, s. cbn in *. subst. reflexivity.
Qed.
Lemma nan_replay : nans dbg_replay one_nan_replay.
Proof.
  intros r. unfold dbg_replay at 2. cbn [norm map].
  rewrite <- (nan_props _), <- (nan_opt _ _ nan_network_frames), <- (nan_vec _ _ nan_key_frame), <- (nan_opt_id _ nan_DInt),
    <- !(nan_vec_id _ nan_DStr), <- (nan_vec_id _ nan_debug_info), <- (nan_vec_id _ nan_tick_mark), <- (nan_vec_id _ nan_class_index), <- (nan_vec_id _ nan_net_cache).
  reflexivity.
Qed.

(** ** What is read can be shown *)

Lemma f_str_utf8 i s o : f_str i s o -> valid_utf8 s.
Proof. intros (n & m & _ & H). destruct (n <? 0); [destruct H|]. destruct H as (l & _ & _ & H). exact H. Qed.
Lemma ok_text s : valid_utf8 s -> ok_dbg (DStr s).
Proof. apply ok_str. Qed.
Lemma f_f32_range i x o : f_f32 i x o -> is_u32 x.
Proof. intros (l & _ & R & _). exact R. Qed.

Definition gives {A} (P : form A) (d : A -> dbg) : Prop := forall i v o, P i v o -> ok_dbg (d v).
Lemma g_list {A} (P : form A) d : gives P d -> gives (f_list P) (dbg_vec d).
Proof.
  intros HP i v o (n & m & _ & K). unfold f_counted in K. destruct (_ || _); [destruct K|]. constructor.
  revert m v o K. induction (Z.to_nat n) as [|k IH]; intros m v o K.
  - destruct K as [-> ->]. constructor.
  - destruct K as (x & m' & Hx & xs & m'' & Hxs & -> & ->). cbn [map]. constructor; [eapply HP; eauto|eapply IH; eauto].
Qed.
Lemma g_text : gives f_text DStr. Proof. intros i v o H. apply ok_str, (f_text_utf8 _ _ _ H). Qed.

Ltac reads := repeat match goal with
  | H : f_bind _ _ _ _ _ |- _ => destruct H as (? & ? & ? & H)
  | H : f_ret _ _ _ _ |- _ => destruct H as [-> ->]
  | H : f_text _ _ _ |- _ => apply f_text_utf8 in H
  | H : f_str _ _ _ |- _ => apply f_str_utf8 in H
  | H : f_f32 _ _ _ |- _ => apply f_f32_range in H
  end.
Ltac shown := repeat first [assumption | apply Forall_nil | apply Forall_cons | apply ok_int | apply ok_bool | (apply ok_f32; assumption) | (apply ok_str; assumption)
  | (apply ok_struct; [reflexivity|discriminate|reflexivity|cbn [map snd]]) | (apply ok_tuple; [reflexivity|discriminate|]) | (apply ok_name; reflexivity)].
Lemma g_keyframe : gives f_keyframe dbg_key_frame.
Proof. intros i v o H. unfold f_keyframe in H. reads. unfold dbg_key_frame. shown. Qed.
Lemma g_debug : gives f_debug dbg_debug_info.
Proof. intros i v o H. unfold f_debug in H. reads. unfold dbg_debug_info. shown. Qed.
Lemma g_tickmark : gives f_tickmark dbg_tick_mark.
Proof. intros i v o H. unfold f_tickmark in H. reads. unfold dbg_tick_mark. shown. Qed.
Lemma g_class_index : gives f_class_index dbg_class_index.
Proof. intros i v o H. unfold f_class_index in H. reads. unfold dbg_class_index. shown. Qed.
Lemma g_cache_prop : gives f_cache_prop dbg_cache_prop.
Proof. intros i v o H. unfold dbg_cache_prop. shown. Qed.
Lemma g_net_cache : gives f_net_cache dbg_class_net_cache.
Proof.
  intros i v o H. unfold f_net_cache in H. reads. unfold dbg_class_net_cache. cbn [nc_object_ind nc_parent_id nc_cache_id nc_properties].
  match goal with H : f_list _ _ _ _ |- _ => apply (g_list _ _ g_cache_prop) in H end. shown.
Qed.

Lemma g_props_all q :
  (forall i ps o, f_props q i ps o -> ok_dbg (dbg_props ps)) /\
  (forall k i v o, f_value q k i v o -> ok_dbg (dbg_header_prop v)) /\
  (forall n i rows o, f_rows q n i rows o -> Forall ok_dbg (map dbg_props rows)).
Proof.
  apply f_props_mut.
  - intros i o _. rewrite props_eq. constructor. constructor.
  - intros i key m1 kind m2 ign m3 v m4 rest o Hk _ _ _ _ IHv _ IHp. rewrite props_eq in *. inversion IHp; subst.
    constructor. cbn [map]. constructor; [|assumption]. apply ok_pair; [apply ok_str, (f_str_utf8 _ _ _ Hk)|exact IHv].
  - intros i key m1 m2 ign m3 m4 b m5 rest o _ _ _ _ _ _ _ _ IHp. exact IHp.
  - intros i b l o _. cbn [dbg_header_prop]. shown.
  - intros i kind m v o _ Hk _ Hv. reads. cbn [dbg_header_prop dbg_opt]. shown.
  - intros i kind o _ Hk. reads. cbn [dbg_header_prop dbg_opt]. shown.
  - intros i n m rows o _ _ _ IH. rewrite array_eq. shown. now apply ok_list.
  - intros i x o H. reads. cbn [dbg_header_prop]. shown.
  - intros i x o H. cbn [dbg_header_prop]. shown.
  - intros i x o H. cbn [dbg_header_prop]. shown.
  - intros i x o H. reads. cbn [dbg_header_prop]. shown.
  - intros i x o H. reads. cbn [dbg_header_prop]. shown.
  - intros i name m fields o H _ IH. reads. rewrite struct_eq. shown.
  - intros i. constructor.
  - intros n i r m rows o _ IHp _ IHr. cbn [map]. constructor; assumption.
Qed.
Lemma g_props q i v o : f_props q i v o -> ok_dbg (dbg_props v).
Proof. apply (g_props_all q). Qed.

Section Replay.
Context (B : bitter) (HB : bitter_ok B) (ho : hash_order) (Hho : hash_order_ok ho).

Lemma replay_ok c n data r : lenZ data < 2 ^ 31 -> parse_with B ho c n data = Ok r -> ok_dbg (dbg_replay r).
Proof.
  intros L E.
  assert (Q : ok_dbg (dbg_opt dbg_network_frames (r_network_frames r))).
  { destruct (r_network_frames r) as [fs|] eqn:Ef; cbn [dbg_opt]; [|shown].
    pose proof (frames_ok B HB ho Hho _ _ _ _ _ L E Ef) as T. unfold dbg_network_frames. shown. apply ok_list. now apply Forall_map. }
  destruct (parse_ok_file B ho _ _ _ _ L E) as (h & b & rest & (h' & o & Sh & b' & o' & Sb & [= -> ->] & ->) & Er).
  destruct Sh as (s1 & c1 & cov1 & m1 & x1 & _ & A3 & ->).
  destruct Sb as (s2 & c2 & cov2 & m2 & x2 & _ & B3 & ->).
  rewrite Er. set (nf := r_network_frames r) in *. clearbody nf. clear Er E.
  unfold f_header in A3. unfold f_body in B3. reads.
  repeat match goal with
  | H : f_list f_text _ _ _ |- _ => apply (g_list _ _ g_text) in H
  | H : f_list f_keyframe _ _ _ |- _ => apply (g_list _ _ g_keyframe) in H
  | H : f_list f_debug _ _ _ |- _ => apply (g_list _ _ g_debug) in H
  | H : f_list f_tickmark _ _ _ |- _ => apply (g_list _ _ g_tickmark) in H
  | H : f_list f_class_index _ _ _ |- _ => apply (g_list _ _ g_class_index) in H
  | H : f_list f_net_cache _ _ _ |- _ => apply (g_list _ _ g_net_cache) in H
  | H : f_props _ _ _ _ |- _ => apply g_props in H
  end.
  assert (N : forall v, ok_dbg (dbg_opt DInt v)) by (intros [v|]; cbn [dbg_opt]; shown).
  unfold dbg_replay, replay_of. cbn [r_header_size r_header_crc r_major_version r_minor_version r_net_version r_game_type r_properties r_content_size r_content_crc
    r_network_frames r_levels r_keyframes r_debug_info r_tick_marks r_packages r_objects r_names r_class_indices r_net_cache
    sec_value h_major h_minor h_net h_game_type h_properties b_levels b_keyframes b_debug_info b_tick_marks b_packages b_objects b_names b_class_indices b_net_cache].
  repeat first [assumption | apply N | progress shown].
Qed.

Theorem replay_shown shown c n data r : lenZ data < 2 ^ 31 -> parse_with B ho c n data = Ok r ->
  literal (dbg_replay r) (debug_text shown (dbg_replay r)) /\ visible (debug_text shown (dbg_replay r)).
Proof.
  intros L E. assert (K : literal (dbg_replay r) (debug_text shown (dbg_replay r))) by (apply debug_literal; exact (replay_ok _ _ _ _ L E)).
  split; [exact K|]. now apply (proj1 literal_visible (dbg_replay r)).
Qed.

Theorem replay_determined shown c n data r c' n' data' r' : lenZ data < 2 ^ 31 -> lenZ data' < 2 ^ 31 ->
  parse_with B ho c n data = Ok r -> parse_with B ho c' n' data' = Ok r' ->
  debug_text shown (dbg_replay r) = debug_text shown (dbg_replay r') <-> one_nan_replay r = one_nan_replay r'.
Proof.
  intros L L' E E'. rewrite debug_same; [|exact (replay_ok _ _ _ _ L E)|exact (replay_ok _ _ _ _ L' E')]. rewrite <- !(nan_replay _). split; [apply inj_replay|congruence].
Qed.
End Replay.
