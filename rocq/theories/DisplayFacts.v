(** * Proofs: messages of the errors that parsing reports *)

From Coq Require Import ZArith List Bool Lia ZifyBool ZifyNat.
From Verif Require Import Base F32 Text NetTypes SegArray Errors Core Header Body BitReader BitLemmas Attributes Data ObjectIndex
  FrameDecoder Network Parser Json Display Wire SpecBasic BasicProofs HierarchyProofs MapProofs SpecNet
  TableProofs CacheProofs TableFacts SpecFrames FrameFacts NetworkProofs SpecCrc SpecFile SpecReplay FileProofs FileFacts
  ParseProofs SpecFacts SpecAttrErrors SpecErrors ErrorFacts SpecDisplay DisplayProofs.
Open Scope Z_scope.
#[local] Opaque PARENT_CLASSES SPAWN_STATS ATTRIBUTES.

(** ** Values *)

Lemma int_i32 n i x o : (n <= 32)%nat -> w_int n i x o -> is_i32 x.
Proof.
  intros L [H _]. unfold is_i32. assert (2 ^ (Z.of_nat n - 1) <= 2 ^ 31) by (apply Z.pow_le_mono_r; lia). lia.
Qed.

Lemma vec3i_ok net i v o : w_vec3i net i v o -> is_i32 (v3i_x v) /\ is_i32 (v3i_y v) /\ is_i32 (v3i_z v).
Proof.
  intros (s & i1 & [Hs _] & x & i2 & Hx & y & i3 & Hy & z & i4 & Hz & -> & _). cbn [v3i_x v3i_y v3i_z].
  assert (G : forall i x o, w_component s i x o -> is_i32 x).
  { intros j w k (d & [Hd _] & ->). unfold vec_bound in Hs. assert (0 <= s < 22) by (destruct (net <? 7); lia).
    rewrite Z2Nat.id in Hd by lia. assert (2 ^ (s + 2) <= 2 ^ 23) by (apply Z.pow_le_mono_r; lia).
    assert (2 ^ (s + 1) <= 2 ^ 22) by (apply Z.pow_le_mono_r; lia). assert (0 < 2 ^ (s + 1)) by (apply Z.pow_pos_nonneg; lia).
    unfold is_i32. lia. }
  split; [|split]; eapply G; eauto.
Qed.

Lemma opt8_ok i x o : w_opt (w_int 8) i x o -> opt_ok is_i32 x.
Proof.
  intros (b & m & _ & H). destruct b.
  - destruct H as (a & H & ->). eapply int_i32; [|exact H]. lia.
  - destruct H as [-> _]. exact Logic.I.
Qed.

Lemma rotation_ok i r o : w_rotation i r o -> opt_ok is_i32 (r_yaw r) /\ opt_ok is_i32 (r_pitch r) /\ opt_ok is_i32 (r_roll r).
Proof.
  intros (y & i1 & Hy & p & i2 & Hp & x & i3 & Hx & -> & _). cbn [r_yaw r_pitch r_roll].
  split; [|split]; eapply opt8_ok; eauto.
Qed.

Lemma trajectory_ok sp net i t o : w_trajectory sp net i t o -> loc_ok (t_location t) /\ rot_ok (t_rotation t).
Proof.
  destruct sp; cbn [w_trajectory].
  - intros [-> _]. cbn. auto.
  - intros (l & m & H & -> & _). split; [eapply vec3i_ok; eauto|exact Logic.I].
  - intros (l & m & H & r & m' & H' & -> & _). split; [eapply vec3i_ok; eauto|eapply rotation_ok; eauto].
Qed.

(** ** Errors of attributes *)

Lemma m_short_ok {A} what (P : wire A) i x : m_short what P i x -> attribute_error_ok x.
Proof. intros [-> _]. exact Logic.I. Qed.
Lemma m_part_ok {A} (X : misfit) (P : wire A) (Y : A -> misfit) i x : (forall i x, X i x -> attribute_error_ok x) ->
  (forall a i x m, P m a i -> Y a i x -> attribute_error_ok x) -> m_part X P Y i x -> attribute_error_ok x.
Proof. intros HX HY [H|(a & m & H1 & H2)]; eauto. Qed.
Lemma m_named_ok {A} what (P : wire A) (Y : A -> misfit) i x :
  (forall a i x m, P m a i -> Y a i x -> attribute_error_ok x) -> m_named what P Y i x -> attribute_error_ok x.
Proof. intros H. apply m_part_ok; auto. intros j y. apply m_short_ok. Qed.

Lemma m_text_ok i x : m_text i x -> attribute_error_ok x.
Proof. apply m_named_ok. intros n j y m Hn [-> _]. eapply int_i32; [|exact Hn]. lia. Qed.

Lemma m_remote_ok net sys i x : 0 <= sys < 256 -> m_remote net sys i x -> attribute_error_ok x.
Proof.
  intros Hs. assert (Q : x = AUnrecognizedRemoteId sys -> attribute_error_ok x).
  { intros ->. cbn [attribute_error_ok]. unfold is_i32. lia. }
  destruct sys as [|p|p]; [apply m_short_ok| |lia].
  do 4 (try destruct p as [p|p|]); try exact Q; cbn [m_remote];
    repeat first [apply m_short_ok|apply m_text_ok|apply m_named_ok; intros ? ? ? ? _].
  destruct (net <? 10); [apply m_short_ok|intros []].
Qed.
Lemma m_tail_ok net sys i x : 0 <= sys < 256 -> m_unique_tail net sys i x -> attribute_error_ok x.
Proof.
  intros Hs. apply m_part_ok; [intros j y; now apply m_remote_ok|]. intros a j y m _. apply m_short_ok.
Qed.
Lemma m_unique_ok net i x : m_unique net i x -> attribute_error_ok x.
Proof. apply m_named_ok. intros sys j y m [Hs _]. apply m_tail_ok. change (2 ^ Z.of_nat 8) with 256 in Hs. lia. Qed.

Lemma m_attribute_ok D tag i x : m_attribute D tag i x -> attribute_error_ok x.
Proof.
  destruct tag; cbn [m_attribute]; try apply m_short_ok; try (intros ->; exact Logic.I);
    repeat first [apply m_short_ok|apply m_text_ok|apply m_unique_ok
      |apply m_named_ok; intros ? ? ? ? ?|apply m_part_ok; [intros ? ?|intros ? ? ? ? ?]].
  - destruct (ad_is_rl_223 D); [apply m_text_ok|apply m_short_ok].
  - unfold m_reservation_name. destruct (_ =? _); [apply m_short_ok|apply m_text_ok].
  - destruct (_ =? _); [intros []|]. apply m_tail_ok. destruct H as [H _]. change (2 ^ Z.of_nat 8) with 256 in H. lia.
Qed.

(** ** Records *)

Section Env.
Context (e : net_env) (Hc : 0 <= e_max_channels e < 2 ^ 32).
Notation objects := (e_objects e).
Notation caches := (e_caches e).

Lemma actor_i32 i id o : w_actor_id e i id o -> is_i32 id.
Proof.
  intros (x & [Hx _] & ->). unfold signed32, is_i32. destruct (Z.ltb_spec x (2 ^ 31)); lia.
Qed.

Lemma new_is_ok id i a o : is_i32 id -> w_new e id i a o -> new_ok objects a /\ exists cls, spawnable objects (n_object_id a) cls.
Proof.
  intros Hi (name & i1 & b & i2 & obj & i3 & cls & sp & t & H1 & _ & _ & H4 & _ & H6 & ->). cbn [n_object_id]. split; [|eauto].
  apply trajectory_ok in H6 as [T1 T2]. constructor; cbn [n_actor_id n_name_id n_object_id n_traj]; auto.
  - unfold w_when in H1. destruct (e_names e).
    + destruct H1 as (x & H1 & ->). eapply int_i32; [|exact H1]. lia.
    + destruct H1 as [-> _]. exact Logic.I.
  - exists cls. now apply spawnable_at.
Qed.

Lemma bound_i32 cls bound s i o : stream_bound objects caches cls bound -> w_bounded (Z.max 1 bound) i s o -> is_i32 s.
Proof.
  intros H [Hs _]. unfold is_i32. destruct H as [[_ ->]|(s' & p & _ & _ & ->)]; lia.
Qed.
Lemma bound_i32' cls bound s i o : stream_bound objects caches cls bound -> w_bounded bound i s o -> is_i32 s.
Proof.
  intros H [Hs _]. unfold is_i32. destruct H as [[_ ->]|(s' & p & _ & _ & ->)]; lia.
Qed.

Lemma update_is_ok id cls i u o : is_i32 id -> w_update e id cls i u o -> update_ok objects u.
Proof.
  intros Hi (bound & s & i1 & p & pname & tag & v & H1 & H2 & _ & H4 & _ & _ & ->).
  constructor; cbn [u_actor_id u_stream_id u_object_id]; eauto. eapply bound_i32'; eauto.
Qed.
Lemma many_ok id cls i us o : is_i32 id -> w_many (w_update e id cls) i us o -> forall u, In u us -> update_ok objects u.
Proof.
  intros Hi H. induction H as [|i x m xs o H _ IH]; intros u; [intros []|]. intros [<-|Hu]; auto. eapply update_is_ok; eauto.
Qed.
Lemma before_ok id cls i us o : is_i32 id -> many_before (good_update e id cls) i us o -> forall u, In u us -> update_ok objects u.
Proof.
  intros Hi H. induction H as [|i x m xs o [_ H] _ IH]; intros u; [intros []|]. intros [<-|Hu]; auto. eapply update_is_ok; eauto.
Qed.

(** only objects that can be spawned are ever announced *)
Definition ops_ok (h : list (map_op Z)) : Prop := forall k v, In (MInsert k v) h -> exists cls, spawnable objects v cls.

Lemma actor_spawnable h id obj : ops_ok h -> actor_object h id obj -> exists cls, spawnable objects obj cls.
Proof.
  intros H A. apply map_after_last in A as (h1 & h2 & -> & _). apply (H id). apply in_or_app. cbn. auto.
Qed.

Record record_ok (r : record) : Prop := {
  ro_new : forall a, In a (new_of r) -> new_ok objects a;
  ro_updated : forall u, In u (updated_of r) -> update_ok objects u;
  ro_ops : ops_ok (record_ops r) }.

Lemma record_is_ok h i r o : w_record e h i r o -> record_ok r.
Proof.
  intros (id & i1 & Hid & H). apply actor_i32 in Hid. destruct r as [a|id'|id' us].
  - destruct H as (i2 & _ & H). destruct (new_is_ok _ _ _ _ Hid H) as [N S]. constructor; cbn.
    + intros x [<-|[]]. exact N.
    + intros x [].
    + intros k v [[= <- <-]|[]]. exact S.
  - constructor; cbn; intros; try tauto. intros k v [[=]|[]].
  - destruct H as [-> (i2 & obj & cls & _ & _ & _ & H)]. constructor; cbn; intros; try tauto.
    + eapply many_ok; eauto.
    + intros k v [].
Qed.

Lemma records_ok h i rs o : w_records e h i rs o -> Forall record_ok rs.
Proof. intros H. induction H; constructor; auto. eapply record_is_ok; eauto. Qed.
Lemma records_before_ok h i rs o : records_before e h i rs o -> Forall record_ok rs.
Proof. intros H. induction H; constructor; auto. eapply record_is_ok; eauto. Qed.

Lemma all_new rs : Forall record_ok rs -> forall a, In a (flat_map new_of rs) -> new_ok objects a.
Proof.
  intros H a Ha. apply in_flat_map in Ha as (r & Hr & Ha). rewrite Forall_forall in H. apply (ro_new r (H _ Hr) _ Ha).
Qed.
Lemma all_updated rs : Forall record_ok rs -> forall u, In u (flat_map updated_of rs) -> update_ok objects u.
Proof.
  intros H a Ha. apply in_flat_map in Ha as (r & Hr & Ha). rewrite Forall_forall in H. apply (ro_updated r (H _ Hr) _ Ha).
Qed.
Lemma all_ops h rs : ops_ok h -> Forall record_ok rs -> ops_ok (h ++ flat_map record_ops rs).
Proof.
  intros Hh H k v Hk. apply in_app_iff in Hk as [Hk|Hk]; [eauto|]. apply in_flat_map in Hk as (r & Hr & Hk).
  rewrite Forall_forall in H. apply (ro_ops r (H _ Hr) _ _ Hk).
Qed.

Lemma frames_before_ok h i xs h' o : frames_before e h i xs h' o -> ops_ok h ->
  ops_ok h' /\ forall t d rs, In (t, d, rs) xs -> Forall record_ok rs.
Proof.
  intros H. induction H as [h i|h i t d rs m xs h' j (i1 & i2 & _ & _ & _ & _ & _ & R) _ IH]; intros Hh.
  - split; auto. intros ? ? ? [].
  - apply records_ok in R. destruct IH as [I1 I2]; [now apply all_ops|]. split; auto.
    intros t' d' rs' [[= <- <- <-]|Q]; eauto.
Qed.

(** ** Errors *)

Lemma new_fails_ok id i x : is_i32 id -> new_fails e id i x -> ids_ok objects caches x.
Proof.
  intros Hi [ | name i1 b i2 obj i3 _ _ H _| |name i1 b i2 obj i3 cls sp t o _ _ _ H _ _ _]; cbn [ids_ok]; auto.
  - eapply int_i32; [|exact H]. lia.
  - eauto.
Qed.

Lemma update_fails_ok id obj cls i x : is_i32 id -> spawnable objects obj cls -> update_fails e id obj cls i x ->
  ids_ok objects caches x.
Proof.
  intros Hi Hs [bound _ _|bound s j _ B H N|bound s j p pname _ B H R O K|bound s j p pname tag y _ B H R O K N _ M]; cbn [ids_ok]; auto.
  - split; auto. split; [eapply bound_i32; eauto|]. eauto.
  - split; auto. split; [eapply bound_i32'; eauto|]. exists cls. split; auto. right. eauto.
  - split; auto. split; [eapply bound_i32'; eauto|]. split; [eapply m_attribute_ok; eauto|]. exists cls, p, pname, tag. auto.
Qed.

Lemma record_fails_ok h i us x : ops_ok h -> record_fails e h i us x ->
  ids_ok objects caches x /\ forall u, In u us -> update_ok objects u.
Proof.
  intros Hh [ | |id i1 y _ H1 H2|id i1 _ H1 _|id i1 obj cls vs _ H1 H2 H3 H4|id i1 obj cls vs j y _ H1 H2 H3 H4 H5];
    try (split; [exact Logic.I|intros u []]).
  - apply actor_i32 in H1. split; [eapply new_fails_ok; eauto|intros u []].
  - apply actor_i32 in H1. split; [exact H1|intros u []].
  - apply actor_i32 in H1. split; [exact Logic.I|eapply before_ok; eauto].
  - apply actor_i32 in H1. split; [eapply update_fails_ok; eauto|eapply before_ok; eauto].
Qed.

Lemma frame_fails_ok h i rs us x : ops_ok h -> frame_fails e h i rs us x ->
  ids_ok objects caches x /\ Forall record_ok rs /\ forall u, In u us -> update_ok objects u.
Proof.
  intros Hh [ | | | |t i1 d i2 rs' _ _ _ _ _ R|t i1 d i2 rs' us' j y _ _ _ _ _ R F];
    try (split; [exact Logic.I|split; [constructor|intros u []]]).
  - apply records_before_ok in R. split; [exact Logic.I|]. split; auto. intros u [].
  - apply records_before_ok in R. apply record_fails_ok in F as [F1 F2]; auto. now apply all_ops.
Qed.

Lemma frames_fail_ok n i x ctx : Z.of_nat n <= 2 ^ 31 -> frames_fail e n i x ctx -> ids_ok objects caches x /\ context_ok objects ctx.
Proof.
  intros Hn (xs & h & j & rs & us & FB & Lx & _ & FF & E1 & E2 & E3 & E4 & ND & A).
  apply frames_before_ok in FB as [Hh Hxs]; [|intros ? ? []]. apply frame_fails_ok in FF as (I & R & U); auto. split; auto.
  assert (Fr : forall f, In f (fc_frames ctx) -> exists t d rs', f = frame_of t d rs' /\ Forall record_ok rs').
  { intros f Hf. rewrite E2 in Hf. apply in_map_iff in Hf as ([[t d] rs'] & <- & Hx). exists t, d, rs'. split; eauto. }
  constructor; auto.
  - rewrite E2. unfold lenZ. rewrite map_length. lia.
  - intros u Hu. rewrite E4 in Hu. apply in_app_iff in Hu as [Hu|Hu]; auto. eapply all_updated; eauto.
  - intros a Ha. rewrite E3 in Ha. eapply all_new; eauto.
  - intros f u Hf Hu. apply Fr in Hf as (t & d & rs' & -> & R'). eapply all_updated; eauto.
  - intros f a Hf Ha. apply Fr in Hf as (t & d & rs' & -> & R'). eapply all_new; eauto.
  - intros a o Ho. apply A in Ho as [_ Ho]. apply actor_spawnable in Ho as [cls Ho]; [|now apply all_ops].
    exists cls. now apply spawnable_at.
Qed.

End Env.

(** ** Whole files *)

Lemma channels_range h b env : env_of h b env -> 0 <= e_max_channels env < 2 ^ 32.
Proof.
  intros (channels & lan & build & color & painted & special & team & title & rl & H).
  repeat match goal with H : _ /\ _ |- _ => destruct H as [_ H] end. cbv zeta in H. rewrite H. cbn [e_max_channels].
  apply Z.mod_pos_bound. lia.
Qed.
Lemma env_lists h b env : env_of h b env -> e_objects env = b_objects b /\ e_caches env = b_net_cache b.
Proof.
  intros (channels & lan & build & color & painted & special & team & title & rl & H).
  repeat match goal with H : _ /\ _ |- _ => destruct H as [_ H] end. cbv zeta in H. rewrite H. auto.
Qed.

Lemma loop_context B ho F fuel : forall n acc s x ctx, frames_loop B ho F fuel n acc s = Err (NFrameError x ctx) ->
  fc_object_attributes ctx = fd_object_ind_attributes F.
Proof.
  induction n as [|n IH]; intros acc s x ctx; cbn [frames_loop]; [discriminate|].
  destruct (is_empty (fs_r s)); [discriminate|].
  destruct (decode_frame B F fuel s) as [[[f|]|y|p] s']; try discriminate; [apply IH|]. intros [= _ <-]. reflexivity.
Qed.

Lemma network_context B ho h b x ctx : hash_order_ok ho -> net_ready h b ->
  network_parse_frames B ho h b = Err (NFrameError x ctx) ->
  compute_caches ho (object_index_new (b_objects b)) (b_objects b) (b_net_cache b) = Ok (fc_object_attributes ctx).
Proof.
  intros Hho [L _ CI _]. unfold network_parse_frames.
  destruct (compute_spawns_ok (b_objects b) L) as (v & -> & _). cbn [obind].
  destruct (compute_caches_ok (b_objects b) L (b_net_cache b) ho Hho CI) as [[_ (cs & -> & _)]|(y & _ & ->)]; cbn [obind]; [|discriminate].
  destruct (num_frames h) as [n|]; [|discriminate]. destruct (_ <? _); [discriminate|].
  unfold decode_frames. intros H. apply loop_context in H. now rewrite H.
Qed.

Lemma network_message B (HB : bitter_ok B) ho (Hho : hash_order_ok ho) h b x ctx show_f32 debug_attribute : net_ready h b ->
  network_parse_frames B ho h b = Err (NFrameError x ctx) ->
  exists l, frame_error_message show_f32 debug_attribute (b_objects b) (b_net_cache b) ctx x l /\
    reads l (display_network_error show_f32 debug_attribute (NFrameError x ctx)).
Proof.
  intros R E. pose proof (network_context B ho h b x ctx Hho R E) as Ec.
  apply (network_err B HB ho Hho h b _ R) in E as (PR & n & env & _ & Hn & He & FF).
  pose proof R as [L Ld CI _]. pose proof (channels_range _ _ _ He) as Hc. destruct (env_lists _ _ _ He) as [E1 E2].
  apply (frames_fail_ok env Hc) in FF as [I C]; [|unfold lenZ in Ld; lia]. rewrite E1, E2 in *.
  eapply error_render; eauto. apply (co_objects _ _ C).
Qed.

Lemma parse_message B (HB : bitter_ok B) ho (Hho : hash_order_ok ho) show_f32 debug_attribute c n data x ctx : lenZ data < 2 ^ 31 ->
  parse_with B ho c n data = Err (ENetworkError (NFrameError x ctx)) ->
  exists h b rest l, f_file data (h, b) rest /\
    frame_error_message show_f32 debug_attribute (b_objects (sec_value b)) (b_net_cache (sec_value b)) ctx x l /\
    reads l (display_parse_error show_f32 debug_attribute (ENetworkError (NFrameError x ctx))).
Proof.
  intros L E.
  destruct (net_policies B HB ho Hho data c L) as [(e & Ne & He)|(r & _ & Hr & [(fs & Hf)|(e & H1 & H2)])].
  - rewrite He in E. injection E as ->. exfalso. apply Ne. eexists. reflexivity.
  - destruct n; [rewrite Hf in E by discriminate|rewrite Hr in E|rewrite Hf in E by discriminate]; discriminate.
  - destruct n; [|congruence|congruence]. rewrite H2 in E. injection E as ->.
    destruct (parse_ok_file B ho _ _ _ _ L Hr) as (h & b & rest & F & Er). exists h, b, rest.
    rewrite (fate_file B ho _ _ _ _ L F) in H2.
    destruct (mismatch c (sec_crc h) (sec_bytes h)); [discriminate|].
    destruct (mismatch c (sec_crc b) (sec_bytes b)); [discriminate|].
    destruct (network_parse_frames B ho (sec_value h) (sec_value b)) as [fs|e|p] eqn:En; cbn [net_result out_map] in H2; try discriminate.
    injection H2 as ->. apply file_ready in F as R.
    destruct (network_message B HB ho Hho _ _ x ctx show_f32 debug_attribute R En) as (l & M & Q). exists l. auto.
Qed.

(** what the decoder's tables say about an object *)
Lemma no_attribute B (HB : bitter_ok B) ho (Hho : hash_order_ok ho) c data r x ctx obj cls s : lenZ data < 2 ^ 31 ->
  parse_with B ho c NetNever data = Ok r -> parse_with B ho c NetAlways data = Err (ENetworkError (NFrameError x ctx)) ->
  is_i32 s -> object_at (r_objects r) obj cls ->
  match getZ obj (fc_object_attributes ctx) with Some (Some ci) => seg_get s (ci_attributes ci) = None | _ => False end ->
  forall p, ~ resolves (r_objects r) (r_net_cache r) cls s p.
Proof.
  intros L Hr H2 Hs Ho Ht p Hp.
  destruct (parse_ok_file B ho _ _ _ _ L Hr) as (h & b & rest & F & Er). rewrite (fate_file B ho _ _ _ _ L F) in H2.
  destruct (mismatch c (sec_crc h) (sec_bytes h)); [discriminate|].
  destruct (mismatch c (sec_crc b) (sec_bytes b)); [discriminate|].
  destruct (network_parse_frames B ho (sec_value h) (sec_value b)) as [fs|e|q] eqn:En; cbn [net_result out_map] in H2; try discriminate.
  injection H2 as ->. apply file_ready in F as R. pose proof R as [Lo Ld CI _].
  pose proof (network_context B ho _ _ x ctx Hho R En) as Ec. apply (network_err B HB ho Hho _ _ _ R) in En as (PR & _).
  assert (Q : r_objects r = b_objects (sec_value b) /\ r_net_cache r = b_net_cache (sec_value b)).
  { rewrite Er. auto. }
  destruct Q as [Q1 Q2]. rewrite Q1, Q2 in *.
  destruct (getZ obj (fc_object_attributes ctx)) as [[ci|]|] eqn:G; try contradiction.
  destruct (attribute_table_only _ _ _ _ _ _ Hho Lo CI Ec G) as [cls' Hc].
  assert (cls' = cls) as -> by (apply spawnable_at in Hc; destruct Hc, Ho; congruence).
  destruct (attribute_table ho _ _ Hho Lo CI PR) as (v & Ev & Hv). rewrite Ec in Ev. injection Ev as <-.
  destruct (Hv _ _ Hc) as (ci' & G' & T'). rewrite G in G'. apply some_inj, some_inj in G'. subst ci'.
  assert (I : exists name, object_at (b_objects (sec_value b)) (cp_object_ind p) name).
  { apply PR. destruct Hp as (ids & _ & (bf & y & af & _ & Hm & _)). apply mention_in in Hm. tauto. }
  destruct I as [name Hn]. destruct (kind_total name) as [t Hk].
  assert (seg_get s (ci_attributes ci) = Some (mkObjAttr t (cp_object_ind p))) by (apply T'; auto; exists p, name; auto).
  congruence.
Qed.
