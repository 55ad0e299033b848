(** * Proofs: the frame decoder implements the frame grammar *)

From Coq Require Import ZArith List Bool Lia ZifyBool ZifyNat.
From Verif Require Import Base F32 NetTypes SegArray Errors Header Body BitReader NetModels Attributes Data ObjectIndex
  FrameDecoder BitLemmas Wire ReaderLogic LeafProofs VectorProofs AttrProofs AttrSame SpecBasic BasicProofs HierarchyProofs
  MapProofs SpecNet TableProofs CacheProofs SpecFrames FrameLogic TimeProofs.
Open Scope Z_scope.
#[local] Opaque PARENT_CLASSES SPAWN_STATS ATTRIBUTES.

(** ** Extensionality and bounded integers *)

Lemma facc_ext {A} I N K (m m' : fcomp A) P N' K' :
  (forall s, m s = m' s) -> facc I N K m P N' K' -> facc I N K m' P N' K'.
Proof. intros E H s W L K0. rewrite <- E. now apply H. Qed.

Lemma fsame_ext {A} I N K (m1 m2 m1' m2' : fcomp A) N' K' :
  (forall s, m1 s = m1' s) -> (forall s, m2 s = m2' s) -> fsame I N K m1 m2 N' K' -> fsame I N K m1' m2' N' K'.
Proof.
  intros E1 E2 H s1 s2 W1 W2 Fb Vs L Ka Kb. rewrite <- E1, <- E2. now apply H.
Qed.

Lemma map_err_reader {A E} (g : E -> frame_error) (m : rd E A) s :
  on_reader (map_err (fun _ x => g x) m) s = map_err (fun _ x => g x) (on_reader m) s.
Proof.
  unfold on_reader, map_err. destruct (m (fs_r s)) as [[v|e|p] r]; reflexivity.
Qed.

Lemma accp_bounded0 {E} n max k : 0 <= max -> Z.of_nat n = Z.max (bit_width max - 1) 0 ->
  (S n <= k)%nat -> (n <= 56)%nat ->
  @accp E Z k (peek_bits_max_computed n max) (w_bounded (Z.max 1 max)) (k - S n).
Proof.
  intros H0 Hn K N. destruct (Z.eq_dec max 0) as [->|].
  - change (Z.max 1 0) with 1. change (Z.max (bit_width 0 - 1) 0) with 0 in Hn.
    assert (n = 0%nat) as -> by lia.
    intros r W Kr. exists 0, r. unfold peek_bits_max_computed, bind, assert_width.
    change (Z.max (bit_width 0) 1 =? Z.of_nat 0 + 1) with true. cbv iota.
    unfold ret, peek_and_consume. cbn [take_list]. split.
    { destruct r; reflexivity. }
    split; [exact W|]. split; [apply shorter_refl|]. split; [reflexivity|]. split; [lia|].
    intros v' rest'. unfold w_bounded. split.
    + intros [R E1]. assert (v' = 0) by lia. subst v'. split; [reflexivity|exact (eq_sym E1)].
    + intros [-> ->]. split; [lia|reflexivity].
  - rewrite Z.max_r by lia. apply accp_bounded; auto; [lia|].
    rewrite bit_width_log2 in Hn by lia. pose proof (Z.log2_nonneg max). lia.
Qed.

Lemma w_bounded_shorter max i x o : w_bounded max i x o -> (length o <= length i)%nat.
Proof. intros H. apply w_bounded_length in H. lia. Qed.

(** ** Many values *)

Lemma w_many_length {A} (P : wire A) i xs o : (forall i x o, P i x o -> (length o <= length i)%nat) ->
  w_many P i xs o -> (length o < length i)%nat.
Proof.
  intros HP. induction 1 as [|i x m xs o Hx Hxs IH]; simpl; [lia|]. apply HP in Hx. lia.
Qed.

(** any bit string can be the contents of a reader *)
Lemma bytes_of_bits n : forall i, length i = (8 * n)%nat -> exists l, bytes_bits l = i.
Proof.
  induction n as [|n IH]; intros i H.
  - destruct i; [exists []; reflexivity|discriminate].
  - do 8 (destruct i as [|? i]; [simpl in H; lia|]).
    destruct (IH i ltac:(simpl in H; lia)) as [l Hl].
    exists (byte_of_bits [b; b0; b1; b2; b3; b4; b5; b6] :: l). unfold bytes_bits in *. cbn [flat_map].
    rewrite Hl, byte_bits_of_bits by reflexivity. reflexivity.
Qed.

Lemma reader_for i : exists r, wf r /\ flat r = i.
Proof.
  destruct (bytes_of_bits (length i / 8) (skipn (length i mod 8) i)) as [l Hl].
  { rewrite skipn_length. pose proof (Nat.div_mod (length i) 8 ltac:(lia)). lia. }
  exists (mkRs (firstn (length i mod 8) i) l (repeat x00 1024)). split.
  - split; cbn [lk buf]; [|apply repeat_length]. rewrite firstn_length.
    pose proof (Nat.mod_upper_bound (length i) 8 ltac:(lia)). lia.
  - unfold flat. cbn [lk rest]. rewrite Hl. apply firstn_skipn.
Qed.

Lemma acc_shorter {E A} (m : rd E A) P i v o : acc m P -> P i v o -> (length o <= length i)%nat.
Proof.
  intros H HP. destruct (reader_for i) as (r & W & Fr). specialize (H r W). rewrite Fr in H.
  destruct (m r) as [[a|x|p] s]; destruct H as (_ & Sh & H).
  - apply H in HP as [-> ->]. unfold shorter in Sh. now rewrite Fr in Sh.
  - exfalso. eapply H; eauto.
  - destruct H.
Qed.

Section Decoder.
Context (F : frame_decoder) (e : net_env).

Record decoder_for : Prop := {
  df_len : lenZ (e_objects e) <= 2 ^ 31;
  df_channels : fd_max_channels F = e_max_channels e;
  df_range : 0 <= e_max_channels e < 2 ^ 32;
  df_bits : fd_channel_bits F = Z.max (bit_width (e_max_channels e) - 1) 0;
  df_names : do_parse_name F = e_names e;
  df_attr : attr_decoder F = e_attr e;
  df_ci : net_cache_ok (e_caches e);
  df_props : props_in_range (e_objects e) (e_caches e);
  df_cache : forall obj ci, is_i32 obj -> cache_of F obj = Some ci ->
    exists cls, spawnable (e_objects e) obj cls /\ cache_for (e_objects e) (e_caches e) cls ci;
  df_cached : forall obj cls, spawnable (e_objects e) obj cls -> exists ci, cache_of F obj = Some ci;
  df_spawn : forall obj cls t, spawnable (e_objects e) obj cls ->
    (getZ (as_usize obj) (fd_spawns F) = Some t <-> spawns_as (e_objects e) cls t) }.

Context (D : decoder_for).

Lemma df_net : v_net (fd_version F) = e_net e.
Proof. unfold e_net. rewrite <- (df_attr D). reflexivity. Qed.

(** ** Attributes of an actor *)

Lemma resolves_listed cls s p : resolves (e_objects e) (e_caches e) cls s p ->
  In p (flat_map nc_properties (e_caches e)) /\ cp_stream_id p = s.
Proof.
  intros (ids & _ & (b & id & a & _ & (b' & a' & El & Es & _) & _)). split; auto.
  assert (Hin : In p (listed (e_caches e) id)) by (rewrite El; apply in_or_app; simpl; auto).
  unfold listed in Hin. apply in_flat_map in Hin as (c & Hc & Hp). apply filter_In in Hc as [Hc _].
  apply in_flat_map. eauto.
Qed.

Lemma resolves_i32 cls s p : resolves (e_objects e) (e_caches e) cls s p -> is_i32 s /\ is_i32 (cp_object_ind p).
Proof.
  intros H. apply resolves_listed in H as [Hin <-]. apply in_flat_map in Hin as (c & Hc & Hp).
  pose proof (df_ci D) as CI. unfold net_cache_ok in CI. rewrite Forall_forall in CI. specialize (CI _ Hc).
  rewrite Forall_forall in CI. destruct (CI _ Hp). auto.
Qed.

Lemma stream_bound_fun cls m m' : stream_bound (e_objects e) (e_caches e) cls m ->
  stream_bound (e_objects e) (e_caches e) cls m' -> m = m'.
Proof.
  intros [[N ->]|(s & p & R & U & ->)] [[N' ->]|(s' & p' & R' & U' & ->)]; auto.
  - exfalso. eapply N; eauto.
  - exfalso. eapply N'; eauto.
  - apply U in R'. apply U' in R. f_equal. lia.
Qed.

Lemma stream_bound_range cls m : stream_bound (e_objects e) (e_caches e) cls m -> - 2 ^ 31 <= m < 2 ^ 31.
Proof.
  intros [[N ->]|(s & p & R & U & ->)]; [lia|]. apply resolves_i32 in R as [R _]. unfold is_i32 in R. lia.
Qed.

Lemma resolves_fun cls s p q : resolves (e_objects e) (e_caches e) cls s p ->
  resolves (e_objects e) (e_caches e) cls s q -> p = q.
Proof.
  intros (ids & C & H) (ids' & C' & H'). rewrite (class_ids_fun _ (df_len D) _ _ _ C C') in H.
  clear C C'. revert H H'. induction ids' as [|id ids' IH]; intros H H'.
  - destruct H as (b & x & a & E & _). destruct b; discriminate.
  - apply first_with_cons in H. apply first_with_cons in H'.
    destruct H as [H|[N H]], H' as [H'|[N' H']]; auto.
    + eapply mention_fun; eauto.
    + exfalso; eapply N'; eauto.
    + exfalso; eapply N; eauto.
Qed.

(** the record kept for a property *)
Lemma conv_kind p pname : is_i32 (cp_object_ind p) -> object_at (e_objects e) (cp_object_ind p) pname ->
  forall tag, kind_of pname tag <-> snd (conv (e_objects e) p) = mkObjAttr tag (cp_object_ind p).
Proof.
  intros Hi Ho tag. unfold conv. cbn [snd]. apply (object_at_usize _ (df_len D)) in Ho; auto. rewrite Ho.
  rewrite kind_of_spec. split; [intros ->; reflexivity|]. intros H. injection H as H. auto.
Qed.

Definition add_updates (us : list updated_attribute) (x : vis_state) : vis_state :=
  mkVis (vs_actors x) (vs_new x) (vs_deleted x) (vs_updated x ++ us).

Definition f_attrs (id : Z) (cls : str) : fwire unit := fun x i v y o =>
  v = tt /\ exists us, w_many (w_update e id cls) i us o /\ y = add_updates us x.

(** what the decoder reads for one attribute *)
Definition f_attr (id mx : Z) (ci : cache_info) (k : fwire unit) : fwire unit :=
  f_bind (f_lift (w_bounded (Z.max 1 mx))) (fun raw =>
    match seg_get (as_i32 raw) (ci_attributes ci) with
    | None => f_none
    | Some a => f_bind (f_lift (w_attribute (e_attr e) (oa_attribute a))) (fun v =>
        f_bind (f_mod (add_updates [mkUpdated id (as_i32 raw) (oa_object_id a) v])) (fun _ => k))
    end).

Lemma as_i32_small x : 0 <= x < 2 ^ 31 -> as_i32 x = x.
Proof. intros H. unfold as_i32. apply to_signed_id; lia. Qed.

Lemma bound_zero_none cls m s p : stream_bound (e_objects e) (e_caches e) cls m -> m <= 0 -> 0 <= s ->
  ~ resolves (e_objects e) (e_caches e) cls s p.
Proof.
  intros [[N ->]|(s' & p' & R & U & ->)] Hm Hs R'; [lia|]. apply U in R'. lia.
Qed.

Lemma add_updates_cons u us x : add_updates us (add_updates [u] x) = add_updates (u :: us) x.
Proof. unfold add_updates. cbn [vs_actors vs_new vs_deleted vs_updated]. now rewrite <- app_assoc. Qed.

Lemma f_attr_iff id cls ci mx x i v y o : cache_for (e_objects e) (e_caches e) cls ci ->
  stream_bound (e_objects e) (e_caches e) cls mx ->
  f_attr id mx ci (f_attrs id cls) x i v y o <->
  v = tt /\ exists u us m, w_update e id cls i u m /\ w_many (w_update e id cls) m us o /\ y = add_updates (u :: us) x.
Proof.
  intros [CA _] SB. pose proof (stream_bound_range _ _ SB) as R. unfold f_attr, f_bind, f_lift, f_mod. split.
  - intros (raw & z & i1 & [Hb ->] & H). destruct (seg_get (as_i32 raw) (ci_attributes ci)) as [a|] eqn:G; [|destruct H].
    destruct H as (w & z2 & i2 & [Ha ->] & u' & z3 & i3 & (-> & -> & ->) & (-> & us & Hus & ->)).
    assert (Hr : 0 <= raw < 2 ^ 31) by (destruct Hb as [Hb _]; lia).
    rewrite as_i32_small in * by auto.
    apply CA in G as (p & Hp & ->); [|unfold is_i32; lia].
    destruct (Z_le_dec mx 0) as [Z0|Z0]; [exfalso; eapply bound_zero_none; eauto; lia|].
    rewrite Z.max_r in Hb by lia.
    split; auto. exists (mkUpdated id raw (cp_object_ind p) w), us, i2. rewrite add_updates_cons. split; auto.
    destruct (df_props D p) as [pname Ho]; [apply (resolves_listed cls raw), Hp|].
    exists mx, raw, i1, p, pname, (oa_attribute (snd (conv (e_objects e) p))), w.
    do 4 (split; [assumption|]). split; [|split; [exact Ha|reflexivity]].
    apply (conv_kind p pname); auto. apply (resolves_i32 cls raw p Hp).
  - intros (-> & u & us & m & (bd & s & i1 & p & pname & tag & w & H1 & H2 & H3 & H4 & H5 & H6 & ->) & Hus & ->).
    rewrite (stream_bound_fun _ _ _ H1 SB) in H2. clear bd H1.
    assert (Hs : 0 <= s < mx) by apply H2. rewrite Z.max_r by lia.
    exists s, x, i1. split; [split; auto|]. rewrite as_i32_small by lia.
    assert (G : seg_get s (ci_attributes ci) = Some (snd (conv (e_objects e) p)))
      by (apply CA; [unfold is_i32; lia|eauto]).
    apply (conv_kind p pname) in H5; auto. 2: { apply (resolves_i32 cls s p H3). }
    rewrite G, H5. exists w, x, m. split; [split; auto|].
    exists tt, (add_updates [mkUpdated id s (cp_object_ind p) w] x), m. split; [auto|].
    split; [reflexivity|]. exists us. split; auto. now rewrite add_updates_cons.
Qed.

Lemma w_attribute_shorter tag i v o : w_attribute (e_attr e) tag i v o -> (length o <= length i)%nat.
Proof. apply (acc_shorter (decode_attribute std_bitter (e_attr e) tag)), acc_attribute, std_bitter_ok. Qed.

Lemma w_update_shorter id cls i u o : w_update e id cls i u o -> (length o <= length i)%nat.
Proof.
  intros (bd & s & i1 & p & pname & tag & w & _ & H & _ & _ & _ & H2 & _).
  apply w_bounded_shorter in H. apply w_attribute_shorter in H2. lia.
Qed.

Lemma many_updates_length id cls i us o : w_many (w_update e id cls) i us o -> (length o < length i)%nat.
Proof. apply w_many_length. intros. eapply w_update_shorter; eauto. Qed.

Section Run.
Context (I : vis_state -> Prop) (IU : forall us x, I x -> I (add_updates us x)).

(** [need] *)
Lemma facc_need {A C} N K (err : frame_error) (a : option A) (k : A -> fcomp C) (Q : A -> fwire C) N' K' :
  (forall v, a = Some v -> facc I N K (k v) (Q v) N' K') ->
  facc I N K (bind (need err a) k) (match a with Some v => Q v | None => f_none end) N' K'.
Proof.
  intros H. destruct a as [v|]; cbn [need].
  - eapply facc_ext; [|apply H; reflexivity]. reflexivity.
  - eapply facc_ext; [|apply facc_fail]. reflexivity.
Qed.
Lemma fsame_need {A C} N K (err : frame_error) (a : option A) (k1 k2 : A -> fcomp C) N' K' :
  (forall v, a = Some v -> fsame I N K (k1 v) (k2 v) N' K') ->
  fsame I N K (bind (need err a) k1) (bind (need err a) k2) N' K'.
Proof.
  intros H. destruct a as [v|]; cbn [need].
  - eapply fsame_ext; [| |apply H; reflexivity]; reflexivity.
  - eapply fsame_ext; [| |apply (fsame_fail I N K err)]; reflexivity.
Qed.

Lemma w_bit_dec i v o : w_bit i v o -> (length o < length i)%nat.
Proof. intros ->. simpl. lia. Qed.

Lemma cache_bits cls ci mx : ci_max_prop_id ci = as_u32 mx ->
  ci_prop_id_bits ci = Z.max (bit_width (as_u64 mx)) 1 - 1 -> stream_bound (e_objects e) (e_caches e) cls mx ->
  mx < 0 /\ ci_prop_id_bits ci = 63 \/
  0 <= mx /\ ci_max_prop_id ci = mx /\ exists n, (n <= 31)%nat /\ ci_prop_id_bits ci = Z.of_nat n /\
    Z.of_nat n = Z.max (bit_width mx - 1) 0.
Proof.
  intros -> -> SB. pose proof (stream_bound_range _ _ SB) as R. destruct (Z_lt_le_dec mx 0) as [N|N].
  - left. split; auto.
    assert (Eq : as_u64 mx = mx + 2 ^ 64) by (unfold as_u64; symmetry; apply Z.mod_unique with (-1); lia).
    rewrite Eq, bit_width_log2 by lia.
    assert (Z.log2 (mx + 2 ^ 64) = 63) by (apply Z.log2_unique; lia). lia.
  - right. split; auto. unfold as_u32, as_u64. rewrite !Z.mod_small by lia. split; auto.
    exists (Z.to_nat (Z.max (bit_width mx - 1) 0)).
    assert (bit_width mx <= 31).
    { unfold bit_width. destruct (Z.leb_spec mx 0); [lia|].
      assert (Z.log2 mx < 31) by (apply Z.log2_lt_pow2; lia). lia. }
    lia.
Qed.

Lemma facc_attributes B (HB : bitter_ok B) id obj cls ci : cache_for (e_objects e) (e_caches e) cls ci ->
  forall fuel, facc I fuel 0 (attributes_loop B F fuel id obj ci) (f_attrs id cls) fuel 0.
Proof.
  intros CF. pose proof CF as [_ (mx & SB & C1 & C2)].
  induction fuel as [|fuel IH]; [intros s W L; lia|]. cbn [attributes_loop].
  eapply facc_weaken with (N' := fuel) (K' := 0%nat); [|reflexivity|reflexivity|lia|lia].
  eapply facc_iff.
  - unfold f_not_enough.
    apply facc_bind with (N1 := fuel) (K1 := 0%nat)
      (Q := fun more => if more : bool then (if mx <? 0 then f_none else f_attr id mx ci (f_attrs id cls)) else f_ret tt).
    + apply facc_reader_dec; [apply acc_ok_or, acc_read_bit, HB|apply w_bit_dec].
    + intros [|]; [|apply facc_ret].
      destruct (cache_bits _ _ _ C1 C2 SB) as [[Hm Hb]|(Hm & Hmax & n & Hn & Hb & Hn2)].
      * destruct (Z.ltb_spec mx 0); [|lia]. apply facc_guard_fails; [exact HB|lia].
      * destruct (Z.ltb_spec mx 0); [lia|].
        replace (ci_prop_id_bits ci + 1) with (Z.of_nat (S n)) by lia.
        apply facc_guard; [exact HB|lia| |].
        -- unfold f_attr. rewrite Hb, Hmax, Nat2Z.id.
           eapply facc_bind; [apply facc_accp, accp_bounded0; auto; lia|]. intros raw.
           apply facc_need. intros a _. eapply facc_bind.
           { eapply facc_ext; [intros s; symmetry; symmetry; apply map_err_reader|].
             apply facc_reader, acc_map_err. rewrite (df_attr D). apply acc_attribute, HB. }
           intros v. eapply facc_bind; [|intros _; exact IH].
           apply facc_mod; auto.
        -- intros x i v y o _ H'. apply (f_attr_iff id cls ci mx) in H'; auto.
           destruct H' as (_ & u & us & m & Hu & Hus & _).
           apply many_updates_length in Hus.
           destruct Hu as (bd & s & i1 & p & pname & tag & w & Hbd & Hw & _ & _ & _ & Ha & _).
           rewrite (stream_bound_fun _ _ _ Hbd SB) in Hw. apply w_attribute_shorter in Ha.
           assert (1 <= mx) by (destruct Hw as [Hw _]; lia).
           apply w_bounded_length in Hw. rewrite bit_width_log2 in Hn2 by lia.
           pose proof (Z.log2_nonneg mx). lia.
  - intros x i v y o _ _. cbn beta. unfold f_bind at 1, f_lift at 1. split.
    + intros (more & z & m & [-> ->] & H). destruct more.
      * destruct (Z.ltb_spec mx 0); [destruct H|]. apply f_attr_iff in H; auto.
        destruct H as (-> & u & us & m' & H1 & H2 & ->). split; auto.
        exists (u :: us). split; auto. econstructor; eauto.
      * destruct H as (-> & -> & ->). split; auto. exists []. split; [constructor|].
        unfold add_updates. rewrite app_nil_r. now destruct x.
    + intros (-> & us & H & ->). destruct H as [o|i u m us o Hu Hus].
      * exists false, x, o. split; [split; [reflexivity|auto]|]. split; auto. split; auto.
        unfold add_updates. rewrite app_nil_r. now destruct x.
      * exists true, x, i. split; [split; [reflexivity|auto]|].
        destruct (Z.ltb_spec mx 0).
        -- exfalso. destruct Hu as (bd & s & i1 & p & pname & tag & w & Hbd & [Hw _] & _).
           rewrite (stream_bound_fun _ _ _ Hbd SB) in Hw. lia.
        -- apply f_attr_iff; auto. split; auto. exists u, us, m. auto.
Qed.

Lemma fsame_attributes B1 B2 (H1 : bitter_ok B1) (H2 : bitter_ok B2) id obj cls ci :
  cache_for (e_objects e) (e_caches e) cls ci ->
  forall fuel, fsame I fuel 0 (attributes_loop B1 F fuel id obj ci) (attributes_loop B2 F fuel id obj ci) fuel 0.
Proof.
  intros [_ (mx & SB & C1 & C2)].
  induction fuel as [|fuel IH]; [intros s1 s2 W1 W2 Fb Vs L; lia|]. cbn [attributes_loop].
  eapply fsame_weaken with (N' := fuel) (K' := 0%nat); [|reflexivity|reflexivity|lia|lia].
  unfold f_not_enough.
  apply fsame_bind with (N1 := fuel) (K1 := 0%nat).
  - eapply fsame_reader_dec; [|apply acc_ok_or, acc_read_bit, H1|apply w_bit_dec].
    apply same_ok_or. eapply acc_same; apply acc_read_bit; auto.
  - intros [|]; [|apply fsame_ret].
    destruct (cache_bits _ _ _ C1 C2 SB) as [[Hm Hb]|(Hm & Hmax & n & Hn & Hb & Hn2)].
    + apply fsame_guard_fails; auto. lia.
    + replace (ci_prop_id_bits ci + 1) with (Z.of_nat (S n)) by lia.
      apply fsame_guard; auto; [lia|]. rewrite Hb, Hmax, Nat2Z.id.
      eapply fsame_bind; [eapply fsame_accp, accp_bounded0; eauto; lia|]. intros raw.
      apply fsame_need. intros a _. eapply fsame_bind.
      { eapply fsame_ext; [intros s; apply map_err_reader|intros s; apply map_err_reader|].
        apply fsame_reader, same_map_err, same_attribute; auto. }
      intros v. eapply fsame_bind; [|intros _; exact IH].
      eapply fsame_mod with (g := add_updates [mkUpdated id (as_i32 raw) (oa_object_id a) v]); auto.
Qed.

End Run.
End Decoder.
