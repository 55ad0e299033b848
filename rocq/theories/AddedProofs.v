(** * Added table entries: frames and whole files *)

From Coq Require Import ZArith List Bool Lia.
From Verif Require Import Base F32 Text NetTypes SegArray Errors Core Header Body BitReader
  NetModels Attributes Data ObjectIndex FrameDecoder Network Crc Parser SpecBasic SpecReplay FileProofs
  BasicProofs MapProofs CacheProofs TableProofs WidthCore Added SpecAdded AddedCaches.
Import ListNotations.
Open Scope Z_scope.
#[local] Opaque PARENT_CLASSES SPAWN_STATS ATTRIBUTES.

Lemma model B ho c n data : parse_with_t shipped ho B c n data = parse_with B ho c n data.
Proof. reflexivity. Qed.

Lemma network_model B ho h b : network_parse_frames_t shipped ho B h b = network_parse_frames B ho h b.
Proof. reflexivity. Qed.

Section Frames.
Context (A : list (str * attribute_tag)) (B : bitter) (ho : hash_order).
Context (F : frame_decoder).
Notation objects := (fd_objects F).
Notation up := (up A objects).
Notation up_cache := (up_cache A objects).

Definition up_decoder : frame_decoder :=
  mkFrameDecoder (fd_frames_len F) (fd_product_decoder F) (fd_max_channels F) (fd_channel_bits F)
    (fd_objects F) (fd_network_data F) (fd_spawns F) (map (option_map up_cache) (fd_object_ind_attributes F))
    (fd_version F) (fd_is_lan F) (fd_is_rl_223 F).

Definition aval (v : Z * cache_info) : Z * cache_info := (fst v, up_cache (snd v)).
Definition up_state (s : fstate) : fstate :=
  mkFState (fs_r s) (smap aval (fs_actors s)) (fs_new s) (fs_deleted s) (fs_updated s).

(** the second program does the same, except that it may go on where the first fails with [X] *)
Definition follows {E D C} (X : E -> Prop) (R : D -> C -> Prop) (m : comp fstate E D) (m' : comp fstate E C) : Prop :=
  forall s, match m s, m' (up_state s) with
    | (Ok a, t), (o', t') => t' = up_state t /\ exists c, o' = Ok c /\ R a c
    | (Err e, t), (o', t') => X e \/ t' = up_state t /\ o' = Err e
    | (Panic p, _), (o', _) => o' = Panic p
    end.

Lemma f_bind {E D D' C C'} X (R : D -> D' -> Prop) (Q : C -> C' -> Prop)
  (m : comp fstate E D) m' (k : D -> comp fstate E C) k' :
  follows X R m m' -> (forall a a', R a a' -> follows X Q (k a) (k' a')) -> follows X Q (bind m k) (bind m' k').
Proof.
  intros H K s. specialize (H s). unfold bind.
  destruct (m s) as [[a|e|p] t], (m' (up_state s)) as [o' t'].
  - destruct H as [-> (c & -> & Hc)]. apply (K a c Hc t).
  - destruct H as [H|[-> ->]]; [|right; auto]. destruct o' as [c|e'|p']; [|left; exact H|left; exact H].
    destruct (k' c t'). left. exact H.
  - now subst o'.
Qed.

Lemma f_ret {E D C} X (R : D -> C -> Prop) a c : R a c -> follows X R (@ret fstate E D a) (ret c).
Proof. intros H s. cbn. split; eauto. Qed.
Lemma f_fail {E D C} (X : E -> Prop) (R : D -> C -> Prop) e : follows X R (@fail fstate E D e) (fail e).
Proof. intros s. cbn. auto. Qed.
Lemma f_panics {E D C} X (R : D -> C -> Prop) p : follows X R (@panics fstate E D p) (panics p).
Proof. intros s. reflexivity. Qed.
Lemma f_reader {E D} X (m : rd E D) : follows X eq (on_reader m) (on_reader m).
Proof.
  intros s. unfold on_reader. change (fs_r (up_state s)) with (fs_r s). destruct (m (fs_r s)) as [[a|e|p] r]; cbv beta iota.
  - split; [reflexivity|]. eauto.
  - right. split; reflexivity.
  - reflexivity.
Qed.
Lemma f_not_enough_ {D} what X (m : rd unit D) : follows X eq (f_not_enough what m) (f_not_enough what m).
Proof. apply f_reader. Qed.
Lemma f_fmap {E D D' C C'} X (R : D -> D' -> Prop) (Q : C -> C' -> Prop) (f : D -> C) (g : D' -> C')
  (m : comp fstate E D) m' :
  follows X R m m' -> (forall a a', R a a' -> Q (f a) (g a')) -> follows X Q (fmap f m) (fmap g m').
Proof. intros H K. eapply f_bind; [exact H|]. intros a a' Ha. apply f_ret. auto. Qed.
Lemma f_map_err {E E' D C} (X : E -> Prop) (Y : E' -> Prop) (R : D -> C -> Prop) (f : E -> E') (m : comp fstate E D) m' :
  follows X R m m' -> (forall e, X e -> Y (f e)) ->
  follows Y R (map_err (fun _ e => f e) m) (map_err (fun _ e => f e) m').
Proof.
  intros H XY s. specialize (H s). unfold map_err.
  destruct (m s) as [[a|e|p] t], (m' (up_state s)) as [o' t'].
  - destruct H as [-> (c & -> & Hc)]. split; eauto.
  - destruct H as [H|[-> ->]]; [|right; auto]. destruct o'; left; auto.
  - now subst o'.
Qed.
Lemma f_need {E D C} (X : E -> Prop) (e : E) (R : D -> C -> Prop) o o' :
  match o, o' with Some a, Some a' => R a a' | None, None => True | _, _ => False end ->
  follows X R (need e o) (need e o').
Proof. destruct o, o'; intros H; try contradiction; [now apply f_ret|apply f_fail]. Qed.
Lemma f_refl_need {E D} (X : E -> Prop) (e : E) (o : option D) : follows X eq (need e o) (need e o).
Proof. apply f_need. destruct o; auto. Qed.

(** ** Frames *)

(** the error that an added attribute may take away *)
Definition excused (e : frame_error) : Prop :=
  (exists actor obj stream, e = FMissingAttribute actor obj stream) /\ newly_known A objects.

Lemma new_actor_up X id : follows X eq (parse_new_actor B F id) (parse_new_actor B up_decoder id).
Proof.
  unfold parse_new_actor.
  change (do_parse_name up_decoder) with (do_parse_name F).
  change (fd_spawns up_decoder) with (fd_spawns F).
  change (fd_version up_decoder) with (fd_version F).
  eapply f_bind with (R := eq).
  { destruct (do_parse_name F); [apply f_not_enough_|now apply f_ret]. }
  intros name ? <-. eapply f_bind; [apply f_not_enough_|]. intros _ _ _.
  eapply f_bind; [apply f_not_enough_|]. intros obj ? <-.
  eapply f_bind; [apply f_refl_need|]. intros sp ? <-.
  eapply f_bind; [apply f_not_enough_|]. intros tr ? <-. now apply f_ret.
Qed.

Lemma up_or a : up a = a \/ oa_attribute a = TNotImplemented /\ newly_known A objects.
Proof.
  unfold AddedCaches.up. destruct (oa_attribute a) eqn:E; auto.
  destruct (getZ (as_usize (oa_object_id a)) objects) as [n|] eqn:G; [|auto].
  destruct (str_assoc n ATTRIBUTES) as [t|] eqn:S1; [auto|].
  destruct (str_assoc n A) as [t|] eqn:S2; [|auto]. right. split; [reflexivity|].
  exists n. split; [eapply getZ_in; exact G|]. apply str_assoc_none in S1. split; [|exact S1].
  destruct (in_dec (list_eq_dec Byte.byte_eq_dec) n (map fst A)) as [|N]; [assumption|].
  apply str_assoc_none in N. congruence.
Qed.

Lemma attribute_up a : follows (fun e => e = AUnimplemented /\ newly_known A objects) eq
  (on_reader (decode_attribute B (attr_decoder F) (oa_attribute a)))
  (on_reader (decode_attribute B (attr_decoder up_decoder) (oa_attribute (up a)))).
Proof.
  change (attr_decoder up_decoder) with (attr_decoder F).
  destruct (up_or a) as [->|[E N]]; [apply f_reader|]. rewrite E. intros s.
  change (on_reader (decode_attribute B (attr_decoder F) TNotImplemented) s)
    with (@Err attribute_error attribute AUnimplemented, set_r (fs_r s) s). cbv beta iota.
  destruct (on_reader _ (up_state s)). left. auto.
Qed.

Lemma attributes_up fuel : forall id obj ci,
  follows excused eq (attributes_loop B F fuel id obj ci) (attributes_loop B up_decoder fuel id obj (up_cache ci)).
Proof.
  induction fuel as [|fuel IH]; intros id obj ci; cbn [attributes_loop]; [apply f_panics|].
  eapply f_bind; [apply f_not_enough_|]. intros more ? <-. destruct more; [|now apply f_ret].
  eapply f_bind; [apply f_reader|]. intros _ _ _.
  eapply f_bind; [apply f_reader|]. intros la ? <-.
  cbn [AddedCaches.up_cache ci_prop_id_bits ci_max_prop_id ci_attributes].
  destruct (la <? ci_prop_id_bits ci + 1); [apply f_fail|].
  eapply f_bind; [apply f_reader|]. intros raw ? <-. cbv zeta.
  eapply f_bind with (R := fun a a' => a' = up a).
  { apply f_need. rewrite smap_get. destruct (seg_get (as_i32 raw) (ci_attributes ci)); cbn [option_map]; auto. }
  intros a ? ->. eapply f_bind with (R := eq).
  { eapply (f_map_err _ excused eq (attr_error id obj (as_i32 raw))); [apply attribute_up|].
    intros e [-> N]. split; [|exact N]. cbn [attr_error]. eauto. }
  intros v ? <-. rewrite up_id. eapply f_bind with (R := eq).
  { intros s. unfold push_updated. split; [reflexivity|]. eauto. }
  intros _ _ _. apply IH.
Qed.

Lemma actors_up afuel fuel : follows excused eq (actors_loop B F afuel fuel) (actors_loop B up_decoder afuel fuel).
Proof.
  induction fuel as [|fuel IH]; cbn [actors_loop]; [apply f_panics|].
  change (fd_channel_bits up_decoder) with (fd_channel_bits F).
  change (fd_max_channels up_decoder) with (fd_max_channels F).
  eapply f_bind; [apply f_not_enough_|]. intros more ? <-. destruct more; [|now apply f_ret].
  eapply f_bind; [apply f_reader|]. intros _ _ _.
  eapply f_bind; [apply f_reader|]. intros la ? <-.
  destruct (la <? fd_channel_bits F + 1 + 1); [apply f_fail|].
  eapply f_bind; [apply f_reader|]. intros raw ? <-. cbv zeta.
  eapply f_bind; [apply f_reader|]. intros alive ? <-.
  eapply f_bind with (R := eq); [|intros _ _ _; exact IH].
  destruct (alive =? 1).
  - eapply f_bind; [apply f_not_enough_|]. intros new ? <-. destruct new.
    + eapply f_bind; [apply new_actor_up|]. intros a ? <-.
      eapply f_bind with (R := fun c c' => c' = up_cache c).
      { apply f_need. unfold cache_of. cbn [up_decoder fd_object_ind_attributes]. rewrite map_getZ.
        destruct (getZ (as_usize (n_object_id a)) (fd_object_ind_attributes F)) as [[c|]|]; cbn [option_map]; auto. }
      intros c ? ->. eapply f_bind with (R := eq).
      { intros s. unfold actors_insert. cbn [up_state fs_r fs_new fs_deleted fs_updated fs_actors].
        change (n_object_id a, up_cache c) with (aval (n_object_id a, c)). rewrite smap_insert. split; [reflexivity|]. eauto. }
      intros _ _ _ s. unfold push_new. split; [reflexivity|]. eauto.
    + eapply f_bind with (R := fun o o' => o' = option_map aval o).
      { intros s. unfold actors_get. cbn [up_state fs_actors]. rewrite smap_get. split; [reflexivity|]. eauto. }
      intros o ? ->. eapply f_bind with (R := fun v v' => v' = aval v).
      { apply f_need. destruct o; cbn [option_map]; auto. }
      intros v ? ->. cbn [aval fst snd]. apply attributes_up.
  - eapply f_bind with (R := eq).
    { intros s. unfold push_deleted. split; [reflexivity|]. eauto. }
    intros _ _ _ s. unfold actors_delete. cbn [up_state fs_r fs_new fs_deleted fs_updated fs_actors].
    rewrite smap_delete. split; [reflexivity|]. eauto.
Qed.

Lemma frame_up fuel : follows excused eq (decode_frame B F fuel) (decode_frame B up_decoder fuel).
Proof.
  unfold decode_frame.
  eapply f_bind; [apply f_not_enough_|]. intros time ? <-. destruct (out_of_range time); [apply f_fail|].
  eapply f_bind; [apply f_not_enough_|]. intros delta ? <-. destruct (out_of_range delta); [apply f_fail|].
  destruct (_ && _); [now apply f_ret|].
  eapply f_bind; [apply actors_up|]. intros _ _ _. eapply f_fmap with (R := eq).
  - intros s. unfold finish_frame. split; [reflexivity|]. eauto.
  - intros f ? <-. reflexivity.
Qed.

(** what becomes of the outcome *)
Definition outcome_up {C} (o o' : outcome network_error C) : Prop :=
  match o with
  | Ok a => o' = Ok a
  | Err e => (exists x c, e = NFrameError x c /\ excused x /\ fc_objects c = objects) \/ exists e', o' = Err e' /\ same_failure e e'
  | Panic p => o' = Panic p
  end.

Lemma frames_up fuel n : forall acc s, outcome_up (frames_loop B ho F fuel n acc s) (frames_loop B ho up_decoder fuel n acc (up_state s)).
Proof.
  induction n as [|n IH]; intros acc s; cbn [frames_loop]; [reflexivity|].
  change (fs_r (up_state s)) with (fs_r s). destruct (is_empty (fs_r s)); [reflexivity|].
  pose proof (frame_up fuel s) as H.
  destruct (decode_frame B F fuel s) as [[o|e|p] t], (decode_frame B up_decoder fuel (up_state s)) as [o' t'].
  - destruct H as [-> (c & -> & <-)]. destruct o as [f|]; [apply IH|reflexivity].
  - destruct H as [H|[-> ->]]; cbn [outcome_up].
    + left. do 2 eexists. split; [reflexivity|]. split; [exact H|reflexivity].
    + right. eexists. split; [reflexivity|]. cbn. auto.
  - now subst o'.
Qed.

Lemma decode_up : outcome_up (decode_frames B ho F) (decode_frames B ho up_decoder).
Proof.
  unfold decode_frames. change (loop_fuel up_decoder) with (loop_fuel F).
  change (fd_frames_len up_decoder) with (fd_frames_len F).
  change (fd_network_data up_decoder) with (fd_network_data F).
  rewrite <- (smap_new aval 200).
  apply (frames_up _ _ [] (mkFState (reader_new (fd_network_data F) (repeat x00 1024)) (seg_new 200) [] [] [])).
Qed.

End Frames.

Lemma with_attributes_eq A : with_attributes A = mkTables PARENT_CLASSES SPAWN_STATS (ATTRIBUTES ++ A).
Proof. unfold with_attributes, added. now rewrite !app_nil_r. Qed.

Section Network.
Context (P : list (str * str)) (S0 : list (str * spawn_trajectory)) (A : list (str * attribute_tag)).
Context (B : bitter) (ho : hash_order) (Ho : hash_order_ok ho) (h : header) (b : body).
Context (L : lenZ (b_objects b) <= 2 ^ 31).

Definition missing (x : frame_error) : Prop := exists actor obj stream, x = FMissingAttribute actor obj stream.

(** what becomes of the outcome when attributes are added *)
Definition net_up {C} (o o' : outcome network_error C) : Prop :=
  match o with
  | Ok a => o' = Ok a
  | Err e => (exists x c, e = NFrameError x c /\ missing x /\ newly_known A (fc_objects c)) \/
             exists e', o' = Err e' /\ same_failure e e'
  | Panic p => o' = Panic p
  end.

Lemma same_self e : same_failure e e.
Proof. destruct e; cbn; auto. Qed.

Lemma network_up (CI : net_cache_ok (b_net_cache b)) :
  net_up (network_parse_frames B ho h b) (network_parse_frames_t (with_attributes A) ho B h b).
Proof.
  unfold network_parse_frames_t, network_parse_frames. rewrite spawns_plain.
  destruct (compute_spawns (object_index_new (b_objects b)) (b_objects b)) as [sp|e|p]; cbn [obind];
    [|right; eexists; split; [reflexivity|apply same_self]|reflexivity].
  rewrite (caches_up A (b_objects b) ho Ho (b_net_cache b) L CI).
  destruct (compute_caches ho (object_index_new (b_objects b)) (b_objects b) (b_net_cache b)) as [t|e|p]; cbn [obind];
    [|right; eexists; split; [reflexivity|apply same_self]|reflexivity].
  destruct (num_frames h) as [n|]; [|reflexivity].
  destruct (lenZ (b_network_data b) <? as_usize n); [right; eexists; split; [reflexivity|reflexivity]|].
  match goal with |- net_up (decode_frames _ _ ?G) _ => pose proof (decode_up A B ho G) as D end.
  unfold up_decoder in D. cbn [fd_frames_len fd_product_decoder fd_max_channels fd_channel_bits fd_objects fd_network_data
    fd_spawns fd_object_ind_attributes fd_version fd_is_lan fd_is_rl_223] in D.
  match goal with |- net_up ?o _ => destruct o as [fs|e|p]; cbn [outcome_up net_up] in *; try exact D end.
  destruct D as [(x & c & E1 & [E2 E3] & E4)|D]; [left|right; exact D].
  exists x, c. split; [exact E1|]. split; [exact E2|]. rewrite E4. exact E3.
Qed.

Lemma network_classes : new_classes P (b_objects b) -> new_spawns S0 (b_objects b) ->
  network_parse_frames_t (added P S0 A) ho B h b = network_parse_frames_t (with_attributes A) ho B h b.
Proof.
  intros NC NS. rewrite with_attributes_eq. unfold network_parse_frames_t, added.
  rewrite (spawns_same P S0 _ (b_objects b) L NC NS), (caches_same P S0 _ (b_objects b) L NC). reflexivity.
Qed.

Lemma network_plain : new_attributes A (b_objects b) ->
  network_parse_frames_t (with_attributes A) ho B h b = network_parse_frames B ho h b.
Proof.
  intros NA. unfold network_parse_frames_t, network_parse_frames. rewrite spawns_plain.
  rewrite with_attributes_eq, (caches_plain A (b_objects b) NA). reflexivity.
Qed.

End Network.

(** ** Whole files *)

Section Files.
Context (B : bitter) (ho : hash_order) (Ho : hash_order_ok ho).

(** what the file looks like before its network data is read; [W] is the width that the library has *)
Lemma split_file c data : lenZ data < 2 ^ 31 ->
  (exists o, (forall r, o <> Ok r) /\ forall T n, parse_with_t T ho B c n data = o) \/
  exists h b (f : option (list frame) -> replay), body_ok b /\
    (forall fs, r_network_frames (f fs) = fs /\ r_objects (f fs) = b_objects b) /\
    forall T n, parse_with_t T ho B c n data = out_map f (net_result n (network_parse_frames_t T ho B h b)).
Proof.
  intros L. assert (W : 32 <= 64 <= 64) by lia.
  set (N := fun _ : network_error => True).
  assert (F0 : fits (core_new data)) by exact L.
  unfold parse_with_t, parse_replay_t.
  Ltac stop := left; eexists; split; [|intros T n; reflexivity]; discriminate.
  unfold bind.
  destruct (nar_take_i32 64 N "header size" _ F0) as (_ & F1 & V1).
  destruct (take_i32 "header size" (core_new data)) as [[hs|e|p] s1]; cbn [fst snd] in *; [|stop|stop].
  destruct (nar_take_u32 64 N "header crc" _ F1) as (_ & F2 & _).
  destruct (take_u32 "header crc" s1) as [[hc|e|p] s2]; cbn [fst snd] in *; [|stop|stop].
  destruct (nar_section 64 N _ "header data" _ _ (nar_view_usize 64 W N hs V1) _ F2) as (_ & F3 & _).
  destruct (in_section "header data" (view_data (as_usize hs)) s2) as [[hd|e|p] s3]; cbn [fst snd] in *; [|stop|stop].
  destruct (nar_crc 64 N _ c hd hc "header" _ _ (nar_header 64 W N) _ F3) as (_ & F4 & _).
  destruct (crc_section c hd hc "header" parse_header s3) as [[h|e|p] s4]; cbn [fst snd] in *; [|stop|stop].
  destruct (nar_take_i32 64 N "content size" _ F4) as (_ & F5 & V5).
  destruct (take_i32 "content size" s4) as [[cs|e|p] s5]; cbn [fst snd] in *; [|stop|stop].
  destruct (nar_take_u32 64 N "content crc" _ F5) as (_ & F6 & _).
  destruct (take_u32 "content crc" s5) as [[cc|e|p] s6]; cbn [fst snd] in *; [|stop|stop].
  destruct (nar_section 64 N _ "content data" _ _ (nar_view_usize 64 W N cs V5) _ F6) as (_ & F7 & _).
  destruct (in_section "content data" (view_data (as_usize cs)) s6) as [[cd|e|p] s7]; cbn [fst snd] in *; [|stop|stop].
  destruct (nar_crc 64 N _ c cd cc "body" _ _ (nar_body 64 W N) _ F7) as (_ & F8 & V8).
  destruct (crc_section c cd cc "body" parse_body s7) as [[b|e|p] s8]; cbn [fst snd] in *; [|stop|stop].
  right. exists h, b, (fun network => mkReplay hs hc (h_major h) (h_minor h) (h_net h) (h_game_type h)
         (h_properties h) cs cc network (b_levels b) (b_keyframes b)
         (b_debug_info b) (b_tick_marks b) (b_packages b) (b_objects b) (b_names b)
         (b_class_indices b) (b_net_cache b)).
  split; [exact V8|]. split; [intros fs; split; reflexivity|]. intros T n.
  unfold parse_network_t, ret.
  destruct n, (network_parse_frames_t T ho B h b); reflexivity.
Qed.

Lemma body_caches b : body_ok b -> lenZ (b_objects b) <= 2 ^ 31 /\ net_cache_ok (b_net_cache b).
Proof.
  intros (H1 & _ & H3). split; [lia|]. unfold net_cache_ok. eapply Forall_impl; [|exact H3]. intros x [_ H]. exact H.
Qed.

Lemma kept_result A (f : option (list frame) -> replay) n r o o' : (forall fs, r_network_frames (f fs) = fs) ->
  net_up A o o' -> out_map f (net_result n o) = Ok r -> n <> NetIgnoreOnError \/ r_network_frames r <> None ->
  out_map f (net_result n o') = Ok r.
Proof.
  intros Hf U E H. destruct n; cbn [net_result] in *.
  - destruct o; cbn [net_up out_map] in *; try discriminate. now subst o'.
  - exact E.
  - destruct o; cbn [net_up out_map] in *; try discriminate; [now subst o'|].
    exfalso. injection E as <-. destruct H as [H|H]; [now apply H|]. apply H. apply Hf.
Qed.

Lemma error_result A (f : option (list frame) -> replay) n e o o' :
  net_up A o o' -> out_map f (net_result n o) = Err e ->
  (exists actor object stream ctx, e = ENetworkError (NFrameError (FMissingAttribute actor object stream) ctx) /\
     newly_known A (fc_objects ctx)) \/
  exists e', out_map f (net_result n o') = Err e' /\ same_error e e'.
Proof.
  intros U E. destruct n; cbn [net_result] in *; [|discriminate|destruct o; discriminate].
  destruct o as [fs|x|p]; cbn [net_up out_map] in *; try discriminate.
  injection E as <-. destruct U as [(y & ctx & -> & (a & ob & st & ->) & N)|(e' & -> & S)].
  - left. eauto 8.
  - right. exists (ENetworkError e'). split; [reflexivity|exact S].
Qed.

Lemma attributes_kept A c n data r : lenZ data < 2 ^ 31 -> parse_with B ho c n data = Ok r ->
  n <> NetIgnoreOnError \/ r_network_frames r <> None -> parse_with_t (with_attributes A) ho B c n data = Ok r.
Proof.
  intros L E H. rewrite <- model in E. destruct (split_file c data L) as [(o & No & Eo)|(h & b & f & Hb & Hf & Ef)].
  { rewrite Eo in E. exfalso. exact (No r E). }
  rewrite Ef in E |- *. destruct (body_caches b Hb) as [Lo CI].
  pose proof (network_up A B ho Ho h b Lo CI) as U.
  rewrite network_model in E.
  eapply kept_result; [intros fs; apply Hf|exact U|exact E|exact H].
Qed.

Lemma attributes_errors A c n data e : lenZ data < 2 ^ 31 -> parse_with B ho c n data = Err e ->
  (exists actor object stream ctx, e = ENetworkError (NFrameError (FMissingAttribute actor object stream) ctx) /\
     newly_known A (fc_objects ctx)) \/
  exists e', parse_with_t (with_attributes A) ho B c n data = Err e' /\ same_error e e'.
Proof.
  intros L E. rewrite <- model in E. destruct (split_file c data L) as [(o & No & Eo)|(h & b & f & Hb & Hf & Ef)].
  { rewrite Eo in E |- *. right. exists e. split; [exact E|]. destruct e; cbn; try reflexivity. apply same_self. }
  rewrite Ef in E |- *. destruct (body_caches b Hb) as [Lo CI].
  pose proof (network_up A B ho Ho h b Lo CI) as U.
  rewrite network_model in E. exact (error_result _ _ _ _ _ _ U E).
Qed.

Lemma classes_kept P S0 A c n data : lenZ data < 2 ^ 31 ->
  (forall r, parse_with B ho c NetNever data = Ok r -> new_classes P (r_objects r) /\ new_spawns S0 (r_objects r)) ->
  parse_with_t (added P S0 A) ho B c n data = parse_with_t (with_attributes A) ho B c n data.
Proof.
  intros L H. destruct (split_file c data L) as [(o & No & Eo)|(h & b & f & Hb & Hf & Ef)]; [now rewrite !Eo|].
  rewrite !Ef. destruct (body_caches b Hb) as [Lo CI].
  destruct (H (f None)) as [NC NS].
  { rewrite <- model, Ef. reflexivity. }
  rewrite (proj2 (Hf None)) in NC, NS. now rewrite (network_classes P S0 A B ho h b Lo NC NS).
Qed.

Lemma unaffected P S0 A c n data : lenZ data < 2 ^ 31 ->
  (forall r, parse_with B ho c NetNever data = Ok r ->
     new_classes P (r_objects r) /\ new_spawns S0 (r_objects r) /\ new_attributes A (r_objects r)) ->
  parse_with_t (added P S0 A) ho B c n data = parse_with B ho c n data.
Proof.
  intros L H. rewrite classes_kept; [|exact L|intros r E; destruct (H r E) as (H1 & H2 & _); auto].
  rewrite <- model. destruct (split_file c data L) as [(o & No & Eo)|(h & b & f & Hb & Hf & Ef)]; [now rewrite !Eo|].
  rewrite !Ef. destruct (H (f None)) as (_ & _ & NA).
  { rewrite <- model, Ef. reflexivity. }
  rewrite (proj2 (Hf None)) in NA. now rewrite (network_plain A B ho h b NA).
Qed.

Lemma newer P S0 A c n data r : lenZ data < 2 ^ 31 -> parse_with B ho c n data = Ok r ->
  n <> NetIgnoreOnError \/ r_network_frames r <> None ->
  new_classes P (r_objects r) -> new_spawns S0 (r_objects r) -> parse_with_t (added P S0 A) ho B c n data = Ok r.
Proof.
  intros L E K NC NS. rewrite classes_kept; [now apply attributes_kept|exact L|].
  intros r' E'. rewrite <- model in E, E'.
  destruct (split_file c data L) as [(o & No & Eo)|(h & b & f & Hb & Hf & Ef)].
  { rewrite Eo in E. exfalso. exact (No r E). }
  rewrite Ef in E, E'. cbn [net_result out_map] in E'. injection E' as <-.
  destruct (net_result n (network_parse_frames_t shipped ho B h b)) as [o|e|p]; cbn [out_map] in E; [|discriminate|discriminate].
  injection E as <-. rewrite (proj2 (Hf o)) in NC, NS. rewrite (proj2 (Hf None)). auto.
Qed.

End Files.
