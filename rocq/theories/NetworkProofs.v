(** * Proofs: the network data as a whole *)

From Coq Require Import ZArith List Bool Lia ZifyBool ZifyNat Permutation.
From Verif Require Import Base F32 NetTypes SegArray Errors Header Body BitReader NetModels Attributes Data ObjectIndex
  FrameDecoder Network BitLemmas Wire ReaderLogic LeafProofs TextWireProofs AttrProofs SpecBasic BasicProofs
  HierarchyProofs MapProofs SpecNet TableProofs CacheProofs SpecFrames FrameLogic FrameProofs RecordProofs StreamProofs.
Open Scope Z_scope.
#[local] Opaque PARENT_CLASSES SPAWN_STATS ATTRIBUTES.

(** what holds of every parsed header and body *)
Record net_ready (h : header) (b : body) : Prop := {
  nr_objects : lenZ (b_objects b) <= 2 ^ 31;
  nr_data : lenZ (b_network_data b) <= 2 ^ 31;
  nr_caches : net_cache_ok (b_net_cache b);
  nr_frames : forall n, num_frames h = Some n -> is_i32 n }.

(** ** The environment *)

Lemma entry_find h name r : entry h name r <-> r = find_prop name (h_properties h).
Proof.
  unfold entry. destruct (find_prop name (h_properties h)) as [p|] eqn:E.
  - pose proof E as E2. apply find_prop_first in E2. split.
    + intros [(q & Hq & ->)|[N _]]; [apply find_prop_first in Hq; congruence|].
      exfalso. apply find_prop_none in N. congruence.
    + intros ->. left. eauto.
  - pose proof E as E2. apply find_prop_none in E2. split.
    + intros [(q & Hq & ->)|[N ->]]; auto. apply find_prop_first in Hq. congruence.
    + intros ->. auto.
Qed.

Lemma int_of_find h name : int_of (find_prop name (h_properties h)) = opt_bind (find_prop name (h_properties h)) prop_as_i32.
Proof. destruct (find_prop name (h_properties h)) as [p|]; auto. Qed.
Lemma text_of_find h name : text_of (find_prop name (h_properties h)) = opt_bind (find_prop name (h_properties h)) as_string.
Proof. destruct (find_prop name (h_properties h)) as [p|]; auto. Qed.

Lemma lex_le_geb a : forall b, str_geb a b = true <-> lex_le b a.
Proof.
  induction a as [|x a IH]; intros [|y b]; cbn [str_geb].
  - split; [constructor|auto].
  - split; [discriminate|]. intros H. inversion H.
  - split; [constructor|auto].
  - unfold byteZ. destruct (Z.eqb_spec (Z.of_N (Byte.to_N x)) (Z.of_N (Byte.to_N y))) as [E|N].
    + apply N2Z.inj in E. assert (x = y) as ->.
      { pose proof (Byte.of_to_N x) as O1. pose proof (Byte.of_to_N y) as O2. rewrite E in O1. congruence. }
      rewrite IH. split; [now constructor|]. intros H. inversion H; subst; auto. lia.
    + split.
      * intros H. apply lex_lt. lia.
      * intros H. inversion H; subst; [lia|congruence].
Qed.

Definition id_of (objects : list str) (name : string) : Z :=
  match by_name (object_index_new objects) (lit name) with Some i => i | None => 0 end.

Lemma id_or_zero_spec objects name id : lenZ objects <= 2 ^ 31 ->
  id_or_zero objects name id <-> id = id_of objects name.
Proof.
  intros L. unfold id_or_zero, id_of. destruct (by_name (object_index_new objects) (lit name)) as [i|] eqn:E.
  - split.
    + intros [H|[H ->]]; [apply by_name_spec in H; auto; congruence|]. apply by_name_none in H; auto. congruence.
    + intros ->. left. now apply by_name_spec.
  - split.
    + intros [H|[H ->]]; auto. apply by_name_spec in H; auto. congruence.
    + intros ->. right. split; auto. now apply by_name_none in E.
Qed.

Definition the_env (h : header) (b : body) : net_env :=
  {| e_max_channels := max_channels_of h;
     e_names := version_geb (version_of h) (mkVersion 868 20 0)
                || (version_geb (version_of h) (mkVersion 868 14 0) && negb (is_lan_of h));
     e_objects := b_objects b;
     e_caches := b_net_cache b;
     e_attr := mkAttrDecoder (version_of h) (product_decoder_create (version_of h) (object_index_new (b_objects b)))
                 (is_rl_223_of h) |}.

Lemma env_of_spec h b e : lenZ (b_objects b) <= 2 ^ 31 -> env_of h b e <-> e = the_env h b.
Proof.
  intros L. unfold env_of.
  assert (RL : forall rl, (rl = true <-> exists s, text_of (find_prop "BuildVersion" (h_properties h)) = Some s /\
      lex_le (lit "221120.42953.406184") s) <-> rl = is_rl_223_of h).
  { intros rl. rewrite text_of_find. fold (build_version h). unfold is_rl_223_of.
    destruct (build_version h) as [s|].
    - split.
      + intros H. apply eq_true_iff_eq. rewrite H, lex_le_geb.
        split; [intros (s' & [= <-] & Hs); auto|intros Hs; exists s; auto].
      + intros ->. rewrite lex_le_geb. split; [intros Hs; exists s; auto|intros (s' & [= <-] & Hs); auto].
    - split.
      + intros H. destruct rl; auto. destruct (proj1 H eq_refl) as (s & E & _). discriminate.
      + intros ->. split; [discriminate|]. intros (s & E & _). discriminate. }
  assert (EQ : forall rl, rl = is_rl_223_of h ->
    the_env h b = {| e_max_channels := (match int_of (find_prop "MaxChannels" (h_properties h)) with Some x => x | None => 1023 end) mod 2 ^ 32;
           e_names := at_least (version_of h) 868 20 0 ||
                      (at_least (version_of h) 868 14 0 &&
                       negb (match text_of (find_prop "MatchType" (h_properties h)) with Some s => str_eqb s (lit "Lan") | None => false end));
           e_objects := b_objects b;
           e_caches := b_net_cache b;
           e_attr := mkAttrDecoder (version_of h) (mkProductDecoder (version_of h)
              (id_of (b_objects b) "TAGame.ProductAttribute_UserColor_TA")
              (id_of (b_objects b) "TAGame.ProductAttribute_Painted_TA")
              (id_of (b_objects b) "TAGame.ProductAttribute_SpecialEdition_TA")
              (id_of (b_objects b) "TAGame.ProductAttribute_TeamEdition_TA")
              (id_of (b_objects b) "TAGame.ProductAttribute_TitleID_TA")) rl |}).
  { intros rl ->. unfold the_env. rewrite !version_at_least, int_of_find, text_of_find. reflexivity. }
  split.
  - intros (ch & lan & bu & c & p & s & t & ti & rl & H1 & H2 & H3 & H4 & H5 & H6 & H7 & H8 & H9 & ->).
    apply entry_find in H1. apply entry_find in H2. apply entry_find in H3. subst ch lan bu.
    apply id_or_zero_spec in H4; auto. apply id_or_zero_spec in H5; auto. apply id_or_zero_spec in H6; auto.
    apply id_or_zero_spec in H7; auto. apply id_or_zero_spec in H8; auto. subst.
    apply RL in H9. symmetry. now apply EQ.
  - intros ->. eexists _, _, _, _, _, _, _, _, (is_rl_223_of h).
    split; [now apply entry_find|]. split; [now apply entry_find|]. split; [now apply entry_find|].
    split; [now apply id_or_zero_spec|]. split; [now apply id_or_zero_spec|]. split; [now apply id_or_zero_spec|].
    split; [now apply id_or_zero_spec|]. split; [now apply id_or_zero_spec|].
    split; [now apply RL|]. now apply EQ.
Qed.

(** ** The decoder *)

Definition the_decoder (h : header) (b : body) (n : Z) (spawns : list (option spawn_trajectory))
  (caches : list (option cache_info)) : frame_decoder :=
  mkFrameDecoder (as_usize n) (product_decoder_create (version_of h) (object_index_new (b_objects b))) (max_channels_of h)
    (channel_bits_of h) (b_objects b) (b_network_data b)
    (map (fun x => match x with Some s => s | None => SpNone end) spawns)
    caches (version_of h) (is_lan_of h) (is_rl_223_of h).

Lemma getZ_map {A C} (f : A -> C) l : forall i, getZ i (map f l) = match getZ i l with Some x => Some (f x) | None => None end.
Proof. induction l as [|x l IH]; intros i; cbn [map getZ]; auto. destruct (i =? 0); auto. Qed.

Lemma props_range_good objects caches : props_in_range objects caches <->
  Forall (good_prop objects) (flat_map nc_properties caches).
Proof. unfold props_in_range. rewrite Forall_forall. reflexivity. Qed.

Lemma i32_usize_range (id len : Z) : is_i32 id -> len <= 2 ^ 31 -> 0 <= as_usize id < len -> as_usize id = id.
Proof. intros H L. rewrite as_usize_i32 by auto. unfold is_i32 in H. destruct (Z.leb_spec 0 id); lia. Qed.

Lemma decoder_ok h b n spawns caches : net_ready h b ->
  compute_spawns (object_index_new (b_objects b)) (b_objects b) = Ok spawns ->
  Forall (good_prop (b_objects b)) (flat_map nc_properties (b_net_cache b)) ->
  length caches = length (b_objects b) ->
  (forall id ci, getZ id caches = Some (Some ci) <-> cache_at (b_objects b) (b_net_cache b) id ci) ->
  decoder_for (the_decoder h b n spawns caches) (the_env h b).
Proof.
  intros [L Ld CI NF] Es G Lc Hc.
  destruct (compute_spawns_ok (b_objects b) L) as (v & E & Lv & Ck & _ & Sp).
  rewrite Es in E. injection E as <-.
  assert (Rg : forall obj cls, spawnable (b_objects b) obj cls -> 0 <= obj < lenZ (b_objects b)).
  { intros obj cls [Hf _]. eapply first_index_range; eauto. }
  split; cbn [the_env e_objects e_caches e_max_channels e_names e_attr the_decoder fd_max_channels fd_channel_bits].
  - exact L.
  - reflexivity.
  - unfold max_channels_of, as_u32. apply Z.mod_pos_bound. lia.
  - reflexivity.
  - reflexivity.
  - reflexivity.
  - exact CI.
  - now apply props_range_good.
  - intros obj ci Hi. unfold cache_of. cbn [fd_object_ind_attributes the_decoder].
    destruct (getZ (as_usize obj) caches) as [[c|]|] eqn:E; try discriminate. intros [= <-].
    pose proof (getZ_some _ _ _ E) as R. unfold lenZ in R, L. rewrite Lc in R.
    rewrite (i32_usize_range obj _ Hi L R) in E. apply Hc in E. eapply cache_at_for; eauto.
  - intros obj cls Hs. destruct (spawnable_cache_at _ L (b_net_cache b) _ _ Hs) as [ci Hci]. exists ci.
    unfold cache_of. cbn [fd_object_ind_attributes the_decoder].
    rewrite (index_usize _ L) by eauto. apply Hc in Hci. now rewrite Hci.
  - intros obj cls t Hs. cbn [fd_spawns the_decoder]. rewrite getZ_map, (index_usize _ L) by eauto.
    destruct (Sp _ _ Hs) as [t' Et]. rewrite Et. pose proof (Ck _ _ Et) as C. destruct Hs as [Hf [q Hp]].
    rewrite (spawns_as_lineage _ L cls q t Hp).
    destruct (spawnable_ids _ L _ _ (conj Hf (ex_intro _ q Hp))) as [ids Hids].
    assert (A : along (b_objects b) (obj :: ids) t').
    { destruct C as [C|(n' & ids' & F' & C' & A)]; [apply along_cons; auto|].
      rewrite (first_index_inj _ _ _ _ F' Hf) in C'. now rewrite (class_ids_fun _ L _ _ _ Hids C'). }
    split.
    + intros [= <-]. destruct Hids as (ls & H1 & H2). exists ls, (obj :: ids). auto.
    + intros (ls & ids' & H1 & H2 & H3). assert (C' : class_ids (b_objects b) cls ids') by (exists ls; auto).
      rewrite (class_ids_fun _ L _ _ _ C' Hids) in H3. f_equal. eapply along_fun; eauto.
Qed.

(** ** Main results *)

(** the network data decode exactly according to the grammar *)
Lemma network_spec B (HB : bitter_ok B) ho (Hho : hash_order_ok ho) h b : net_ready h b ->
  match network_parse_frames B ho h b with
  | Ok fs => forall fs', (exists xs, frames_of h b xs /\ fs' = map to_frame xs) <-> fs' = fs
  | Err _ => forall xs, ~ frames_of h b xs
  | Panic _ => False
  end.
Proof.
  intros R. pose proof R as [L Ld CI NF]. unfold network_parse_frames, frames_of.
  destruct (compute_spawns_ok (b_objects b) L) as (v & Es & _). rewrite Es. cbn [obind].
  destruct (compute_caches_ok (b_objects b) L (b_net_cache b) ho Hho CI) as [[G (cs & Ec & Lc & Hc)]|(x & Hx & Ec)];
    rewrite Ec; cbn [obind].
  2: { intros xs [H _]. apply props_range_good in H. destruct Hx as (bf & af & E & _ & N). rewrite E in H.
       apply Forall_app in H as [_ H]. inversion H; auto. }
  assert (CE : forall count, entry h "NumFrames" count <-> count = find_prop "NumFrames" (h_properties h))
    by (intros; apply entry_find).
  assert (NE : int_of (find_prop "NumFrames" (h_properties h)) = num_frames h) by apply int_of_find.
  destruct (num_frames h) as [n|] eqn:En.
  - specialize (NF n eq_refl). destruct (Z.ltb_spec (lenZ (b_network_data b)) (as_usize n)) as [Lt|Ge].
    + intros xs (_ & count & Hcnt & H). apply CE in Hcnt. subst count. rewrite NE in H.
      destruct H as [[H1 H2] _]. rewrite as_usize_i32 in Lt by auto. unfold lenZ in Lt.
      destruct (Z.leb_spec 0 n); lia.
    + assert (Un : as_usize n = n).
      { rewrite as_usize_i32 in * by auto. unfold is_i32 in NF. destruct (Z.leb_spec 0 n); lia. }
      pose proof (decode_frames_spec _ _ (decoder_ok h b n v cs R Es G Lc Hc) B HB ho) as H.
      fold (the_decoder h b n v cs). cbn [fd_frames_len fd_network_data the_decoder] in H. fold (the_decoder h b n v cs) in H.
      rewrite Un in H.
      assert (P0 : 0 <= n <= Z.of_nat (length (b_network_data b))).
      { unfold lenZ in Ge. rewrite <- Un at 2. split; [|lia]. rewrite <- Un. unfold as_usize. apply Z.mod_pos_bound. lia. }
      assert (Q : forall xs, (props_in_range (b_objects b) (b_net_cache b) /\
          exists count, entry h "NumFrames" count /\
            match int_of count with
            | None => xs = []
            | Some n => 0 <= n <= Z.of_nat (length (b_network_data b)) /\
                exists e, env_of h b e /\ w_frames e (Z.to_nat n) [] (enc_bytes (b_network_data b)) xs
            end) <-> w_frames (the_env h b) (Z.to_nat n) [] (enc_bytes (b_network_data b)) xs).
      { intros xs. split.
        - intros (_ & count & Hcnt & H'). apply CE in Hcnt. subst count. rewrite NE in H'.
          destruct H' as (_ & e & He & Hw). apply env_of_spec in He; auto. now subst.
        - intros Hw. split; [now apply props_range_good|]. eexists. split; [apply CE; reflexivity|]. rewrite NE.
          split; auto. exists (the_env h b). split; auto. now apply env_of_spec. }
      destruct (decode_frames B ho (the_decoder h b n v cs)) as [fs|x|p].
      * intros fs'. rewrite <- H. split; intros (xs & H1 & H2); exists xs; (split; [now apply Q|exact H2]).
      * intros xs Hx. apply (H xs). now apply Q.
      * exact H.
  - intros fs'. split.
    + intros (xs & (_ & count & Hcnt & H) & ->). apply CE in Hcnt. subst count. rewrite NE in H. now subst.
    + intros ->. exists []. split; [|reflexivity]. split; [now apply props_range_good|].
      eexists. split; [apply CE; reflexivity|]. now rewrite NE.
Qed.

Lemma first_bad_fun objects ps x y : first_bad objects ps x -> first_bad objects ps y -> x = y.
Proof.
  intros (b & a & -> & H1 & H2) (b' & a' & E & H1' & H2'). revert b' E H1'.
  induction b as [|z b IH]; intros b' E H1'; destruct b' as [|w b']; cbn [app] in E; injection E as E1 E2.
  - auto.
  - subst. inversion H1'; tauto.
  - subst. inversion H1; tauto.
  - inversion H1; inversion H1'; subst. eauto.
Qed.

(** neither buffering nor hash order matters, also for errors *)
Lemma network_same B1 B2 (H1 : bitter_ok B1) (H2 : bitter_ok B2)
  ho1 ho2 (Ho1 : hash_order_ok ho1) (Ho2 : hash_order_ok ho2) h b : net_ready h b ->
  network_parse_frames B1 ho1 h b = network_parse_frames B2 ho2 h b.
Proof.
  intros R. pose proof R as [L Ld CI NF]. unfold network_parse_frames.
  destruct (compute_spawns_ok (b_objects b) L) as (v & Es & _). rewrite Es. cbn [obind].
  assert (E : compute_caches ho1 (object_index_new (b_objects b)) (b_objects b) (b_net_cache b) =
              compute_caches ho2 (object_index_new (b_objects b)) (b_objects b) (b_net_cache b)).
  { destruct (compute_caches_ok (b_objects b) L (b_net_cache b) ho1 Ho1 CI) as [[G1 (c1 & -> & L1 & C1)]|(x1 & X1 & ->)];
    destruct (compute_caches_ok (b_objects b) L (b_net_cache b) ho2 Ho2 CI) as [[G2 (c2 & -> & L2 & C2)]|(x2 & X2 & ->)].
    - f_equal. apply getZ_ext. intros i.
      assert (Hn : forall c : list (option cache_info), length c = length (b_objects b) ->
        (getZ i c = None <-> ~ 0 <= i < lenZ (b_objects b))).
      { intros c Hl. rewrite getZ_none. unfold lenZ. now rewrite Hl. }
      destruct (getZ i c1) as [[ci|]|] eqn:A1.
      + symmetry. apply C2, C1, A1.
      + destruct (getZ i c2) as [[ci|]|] eqn:A2; auto.
        * apply C2, C1 in A2. congruence.
        * apply (Hn c2 L2), (Hn c1 L1) in A2. congruence.
      + symmetry. apply (Hn c2 L2), (Hn c1 L1), A1.
    - exfalso. destruct X2 as (bf & af & E & _ & N). rewrite E in G1. apply Forall_app in G1 as [_ G1].
      inversion G1; auto.
    - exfalso. destruct X1 as (bf & af & E & _ & N). rewrite E in G2. apply Forall_app in G2 as [_ G2].
      inversion G2; auto.
    - now rewrite (first_bad_fun _ _ _ _ X1 X2). }
  rewrite E.
  destruct (compute_caches_ok (b_objects b) L (b_net_cache b) ho2 Ho2 CI) as [[G (cs & Ec & Lc & Hc)]|(x & Hx & Ec)];
    rewrite Ec; cbn [obind]; auto.
  destruct (num_frames h) as [n|]; auto. destruct (lenZ (b_network_data b) <? as_usize n); auto.
  apply (decode_frames_same _ _ (decoder_ok h b n v cs R Es G Lc Hc)); auto.
Qed.
