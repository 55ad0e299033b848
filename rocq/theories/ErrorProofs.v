(** * Proofs: the errors of the frame decoder are those of the specification *)

From Coq Require Import ZArith List Bool Lia ZifyBool ZifyNat Permutation.
From Verif Require Import Base F32 NetTypes SegArray Errors Header Body BitReader NetModels Attributes Data ObjectIndex
  FrameDecoder BitLemmas Wire ReaderLogic LeafProofs VectorProofs TextWireProofs AttrProofs AttrSame SpecBasic BasicProofs
  HierarchyProofs MapProofs SpecNet TableProofs CacheProofs SpecFrames FrameLogic TimeProofs FrameProofs RecordProofs
  StreamProofs SpecAttrErrors AttrErrors SpecErrors ErrorLogic.
Open Scope Z_scope.
#[local] Opaque PARENT_CLASSES SPAWN_STATS ATTRIBUTES.

Lemma no_bit i : (forall b o, ~ w_bit i b o) -> i = [].
Proof. intros H. destruct i as [|b i]; auto. exfalso. apply (H b i). reflexivity. Qed.

Lemma skip_bits n x o : skipn n (enc_bits n x ++ o) = o.
Proof.
  pose proof (enc_bits_length n x) as L. rewrite skipn_app, L, Nat.sub_diag, skipn_all2 by lia. reflexivity.
Qed.

Lemma ferr_attr I B (HB : bitter_ok B) N K D id obj s tag :
  ferr I N K (map_err (fun _ x => attr_error id obj s x) (on_reader (decode_attribute B D tag)))
    (fun x i err y => y = x /\ (forall v o, ~ w_attribute D tag i v o) /\
       (tag = TNotImplemented /\ err = FMissingAttribute id obj s \/
        tag <> TNotImplemented /\ exists e0, m_attribute D tag i e0 /\ err = FAttributeError id obj s e0)).
Proof.
  intros st [W1 W2] L K0. unfold map_err, on_reader.
  pose proof (acc_attribute B HB D tag (fs_r st) W1) as A. pose proof (aerr_attribute B HB D tag (fs_r st) W1) as X.
  destruct (decode_attribute B D tag (fs_r st)) as [[v|x|p] r] eqn:Ed; auto.
  destruct A as (V & Sh & A). split; [reflexivity|]. split; [exact A|].
  assert (Q : {tag = TNotImplemented} + {tag <> TNotImplemented}) by (destruct tag; (left; reflexivity) || (right; discriminate)).
  destruct Q as [->|Q].
  - left. split; auto. cbn in Ed. injection Ed as <- <-. reflexivity.
  - right. split; auto. exists x.
    assert (x <> AUnimplemented) by (intros ->; eapply (impl_attribute B D tag Q); eauto).
    split; [apply X; reflexivity|]. destruct x; auto. congruence.
Qed.

Section Decoder.
Context (F : frame_decoder) (e : net_env) (D : decoder_for F e)
  (SL : length (fd_spawns F) = length (e_objects e))
  (SP : forall obj cls sp, is_i32 obj -> object_at (e_objects e) obj cls ->
     getZ (as_usize obj) (fd_spawns F) = Some sp -> spawn_of (e_objects e) obj cls sp).
Notation hist_ok := (hist_ok F).
Notation of_hist := (of_hist F).
Notation Inv := (Inv F).
Notation apply_recs := (apply_recs F).
Notation apply_rec := (apply_rec F).

Lemma add_none x : add_updates [] x = x.
Proof. unfold add_updates. rewrite app_nil_r. now destruct x. Qed.

(** ** Attributes *)

Definition fail_attrs (id obj : Z) (cls : str) : failure := fun x i err y =>
  exists us, y = add_updates us x /\
    (many_before (good_update e id cls) i us [] /\ err = FNotEnoughDataFor "Is prop present" \/
     exists j, many_before (good_update e id cls) i us (true :: j) /\ update_fails e id obj cls j err).

Lemma log2_bits n mx : 0 <= mx -> Z.of_nat n = Z.max (bit_width mx - 1) 0 -> Z.of_nat n = Z.log2 (Z.max 1 mx).
Proof.
  intros H ->. destruct (Z.eq_dec mx 0) as [->|]; [reflexivity|].
  rewrite bit_width_log2, (Z.max_r 1 mx) by lia. pose proof (Z.log2_nonneg mx). lia.
Qed.

Lemma ferr_attributes B (HB : bitter_ok B) id obj cls ci : cache_for (e_objects e) (e_caches e) cls ci ->
  forall fuel, ferr Inv fuel 0 (attributes_loop B F fuel id obj ci) (fail_attrs id obj cls).
Proof.
  intros CF. pose proof CF as [CA (mx & SB & C1 & C2)]. pose proof (stream_bound_range F e D _ _ SB) as Rg.
  induction fuel as [|fuel IH]; [intros s W L; lia|]. cbn [attributes_loop].
  eapply ferr_imp.
  - unfold f_not_enough at 1.
    apply ferr_bind with (N1 := fuel) (K1 := 0%nat) (P := f_lift w_bit)
      (Q := fun more : bool => if more then (fun x i err y =>
          update_fails e id obj cls i err /\ y = x \/
          exists u m z, good_update e id cls i u m /\ z = add_updates [u] x /\ fail_attrs id obj cls z m err y) else no_fail).
    + apply facc_reader_dec; [apply acc_ok_or, acc_read_bit, HB|apply w_bit_dec].
    + apply ferr_reader, acc_read_bit, HB.
    + intros x0 i0 more y0 o0 _ _. destruct more; [|apply ferr_ret].
      destruct (cache_bits F e D _ _ _ C1 C2 SB) as [[Hm Hb]|(Hm & Hmax & n & Hn & Hb & Hn2)].
      * eapply ferr_imp; [apply ferr_guard_fails; [exact HB|lia]|].
        intros x i err y _ _ [-> ->]. left. split; auto. eapply uf_stream; eauto.
      * replace (ci_prop_id_bits ci + 1) with (Z.of_nat (S n)) by lia.
        eapply ferr_imp.
        -- apply ferr_guard; [exact HB|lia|]. rewrite Hb, Hmax, Nat2Z.id.
           eapply ferr_bind with (N1 := fuel) (K1 := 0%nat).
           { apply (facc_weaken Inv fuel (S n) fuel (S n) _ (f_lift (w_bounded (Z.max 1 mx))) fuel (S n - S n)); [apply facc_accp, accp_bounded0; auto; lia|lia|lia|lia|lia]. }
           { eapply ferr_accp, accp_bounded0; eauto; lia. }
           intros x1 i1 raw y1 o1 _ [Hraw _].
           apply ferr_need with (Q := fun a x i err y =>
             (y = x /\ (forall v o, ~ w_attribute (e_attr e) (oa_attribute a) i v o) /\
               (oa_attribute a = TNotImplemented /\ err = FMissingAttribute id obj (as_i32 raw) \/
                oa_attribute a <> TNotImplemented /\ exists e0, m_attribute (e_attr e) (oa_attribute a) i e0 /\ err = FAttributeError id obj (as_i32 raw) e0)) \/
             exists v z m, f_lift (w_attribute (e_attr e) (oa_attribute a)) x i v z m /\ Inv z /\
               (no_fail z m err y \/ exists (u : unit) z' m', f_mod (add_updates [mkUpdated id (as_i32 raw) (oa_object_id a) v]) z m u z' m' /\
                  Inv z' /\ fail_attrs id obj cls z' m' err y)).
           intros a _.
           apply ferr_bind with (N1 := fuel) (K1 := 0%nat).
           { eapply facc_ext; [intros s; apply map_err_reader|].
             apply facc_reader, acc_map_err. rewrite (df_attr _ _ D). apply acc_attribute, HB. }
           { rewrite (df_attr _ _ D). apply ferr_attr, HB. }
           intros x2 i2 v y2 o2 _ _.
           apply ferr_bind with (N1 := fuel) (K1 := 0%nat).
           { apply facc_mod; auto. }
           { apply ferr_mod. }
           intros; exact IH.
        -- intros x i err y Hx Li [(Hl & -> & ->)|(Hl & [[]|(raw & z & j & [Hw ->] & _ & H)])].
           { left. split; auto. eapply uf_stream; [exact SB|]. right. unfold too_few.
             rewrite <- (log2_bits n mx); auto. lia. }
           assert (Am : ample_stream e cls i).
           { intros bd Hbd. rewrite (stream_bound_fun e _ _ _ Hbd SB). split; [exact Hm|]. unfold too_few.
             rewrite <- (log2_bits n mx); auto. lia. }
           assert (Hr : 0 <= raw < 2 ^ 31) by (destruct Hw as [Hw _]; lia).
           rewrite as_i32_small in H by auto. destruct (seg_get raw (ci_attributes ci)) as [a|] eqn:G.
           2: { destruct H as [-> ->]. left. split; auto. eapply uf_unknown; eauto.
                intros p Hp. rewrite (proj2 (CA raw (snd (conv (e_objects e) p)) ltac:(unfold is_i32; lia))) in G; [discriminate|eauto]. }
           apply CA in G as (p & Hp & ->); [|unfold is_i32; lia].
           destruct (Z_le_dec mx 0) as [Z0|Z0]; [exfalso; apply (bound_zero_none e cls mx raw p SB Z0 ltac:(lia) Hp)|].
           rewrite Z.max_r in Hw by lia.
           destruct (df_props _ _ D p) as [pname Ho]; [apply (resolves_listed e cls raw), Hp|].
           assert (Kd : kind_of pname (oa_attribute (snd (conv (e_objects e) p)))).
           { apply (conv_kind F e D p pname); auto. apply (resolves_i32 F e D cls raw p Hp). }
           destruct H as [(-> & Hno & [[Et ->]|(Nt & e0 & Ne & ->)])|(v & z & m & [Ha ->] & _ & [[]|(u & z' & m' & (_ & -> & ->) & _ & H)])].
           { left. split; auto. rewrite Et in Kd. eapply uf_unimplemented; eauto. }
           { left. split; auto. eapply uf_value; eauto. }
           right. eexists _, m, _. split; [|split; [reflexivity|exact H]]. split; [exact Am|].
           exists mx, raw, j, p, pname, (oa_attribute (snd (conv (e_objects e) p))), v.
           do 6 (split; [assumption|]). reflexivity.
  - intros x i err y Hx Li [(-> & -> & H)|(more & z & j & [-> ->] & _ & H)].
    + apply no_bit in H as ->. exists []. rewrite add_none. split; auto. left. split; auto. constructor.
    + destruct more; [|destruct H]. destruct H as [[H ->]|(u & m & z & Hu & -> & us & -> & H)].
      * exists []. rewrite add_none. split; auto. right. exists j. split; auto. constructor.
      * exists (u :: us). rewrite add_updates_cons. split; auto.
        destruct H as [[H ->]|(j' & H & Hf)]; [left|right]; eauto using @mb_cons.
Qed.

(** ** One record *)

Lemma object_found obj : is_i32 obj ->
  match getZ (as_usize obj) (fd_spawns F) with
  | Some _ => exists cls, object_at (e_objects e) obj cls
  | None => forall cls, ~ object_at (e_objects e) obj cls
  end.
Proof.
  intros Hi. destruct (getZ (as_usize obj) (fd_spawns F)) as [sp|] eqn:G.
  - apply getZ_some in G. unfold lenZ in G. rewrite SL in G.
    destruct (getZ (as_usize obj) (e_objects e)) as [cls|] eqn:O.
    + exists cls. apply (object_at_usize _ (df_len _ _ D)); auto.
    + apply getZ_none in O. unfold lenZ in O. lia.
  - intros cls H. apply (object_at_usize _ (df_len _ _ D)) in H; auto. apply getZ_some in H.
    apply getZ_none in G. unfold lenZ in *. lia.
Qed.

Lemma ferr_new B (HB : bitter_ok B) N K id :
  ferr Inv N K (parse_new_actor B F id) (fun x i err y => new_fails e id i err /\ y = x).
Proof.
  eapply ferr_weaken with (K := 0%nat); [|reflexivity|lia].
  unfold parse_new_actor. eapply ferr_imp.
  - eapply ferr_bind with (N1 := N) (K1 := 0%nat) (P := f_lift (w_when (e_names e) (w_int 32)))
      (R := fun x i err y => err = FNotEnoughDataFor "New Actor" /\ y = x /\ forall v o, ~ w_when (e_names e) (w_int 32) i v o).
    { rewrite (df_names _ _ D). unfold w_when. destruct (e_names e).
      - apply facc_reader, acc_ok_or, acc_fmap, acc_read_i32, HB.
      - eapply facc_iff; [apply facc_ret|]. intros x i v y o _ _. unfold f_ret, f_lift, w_ret. tauto. }
    { rewrite (df_names _ _ D). unfold w_when. destruct (e_names e).
      - apply ferr_reader, acc_fmap, acc_read_i32, HB.
      - eapply ferr_imp; [apply ferr_ret|]. intros x i err y _ _ []. }
    intros x0 i0 name y0 o0 _ _.
    eapply ferr_bind with (N1 := N) (K1 := 0%nat).
    { apply facc_reader, acc_ok_or, acc_read_bit, HB. }
    { apply ferr_reader, acc_read_bit, HB. }
    intros x1 i1 b y1 o1 _ _.
    eapply ferr_bind with (N1 := N) (K1 := 0%nat)
      (Q := fun obj x i err y => match getZ (as_usize obj) (fd_spawns F) with
         | None => err = FObjectIdOutOfRange obj /\ y = x
         | Some sp => err = FNotEnoughDataFor "New Actor" /\ y = x /\ forall v o, ~ w_trajectory sp (e_net e) i v o
         end).
    { apply facc_reader, acc_ok_or, acc_read_i32, HB. }
    { apply ferr_reader, acc_read_i32, HB. }
    intros x2 i2 obj y2 o2 _ [Hobj _].
    eapply ferr_need with (Q := fun sp x i err y => err = FNotEnoughDataFor "New Actor" /\ y = x /\
      forall v o, ~ w_trajectory sp (e_net e) i v o).
    intros sp _. rewrite (df_net _ _ D).
    eapply ferr_imp.
    + eapply ferr_bind with (N1 := N) (K1 := 0%nat).
      { apply facc_reader, acc_ok_or, (acc_trajectory B HB sp). }
      { apply ferr_reader, (acc_trajectory B HB sp). }
      intros x3 i3 t y3 o3 _ _. apply ferr_ret.
    + intros x i err y _ _ [H|(t & z & j & _ & _ & [])]. exact H.
  - intros x i err y _ _ [(-> & -> & H)|(name & z & i1 & [H1 ->] & _ & H)].
    { split; auto. apply nf_start. intros name i1 b i2 obj i3 (H1 & _). eapply H; eauto. }
    assert (Wf : forall name' i1', w_when (e_names e) (w_int 32) i name' i1' -> i1' = i1).
    { intros name' i1' H'. unfold w_when in *. destruct (e_names e).
      - destruct H1 as (a & H1 & ->), H' as (a' & H1' & ->). destruct H1 as [_ E], H1' as [_ E'].
        apply (f_equal (skipn 32)) in E. apply (f_equal (skipn 32)) in E'.
        rewrite skip_bits in E, E'. congruence.
      - destruct H1 as [_ ->], H' as [_ ->]. reflexivity. }
    destruct H as [(-> & -> & H)|(b & z & i2 & [H2 ->] & _ & H)].
    { split; auto. apply nf_start. intros name' i1' b i2 obj i3 (H1' & H2' & _).
      rewrite (Wf _ _ H1') in H2'. eapply H; eauto. }
    destruct H as [(-> & -> & H)|(obj & z & i3 & [H3 ->] & _ & H)].
    { split; auto. apply nf_start. intros name' i1' b' i2' obj i3 (H1' & H2' & H3').
      rewrite (Wf _ _ H1') in H2'. unfold w_bit in H2, H2'. rewrite H2 in H2'. injection H2' as <- <-. eapply H; eauto. }
    assert (Hi : is_i32 obj) by (destruct H3 as [H3 _]; exact H3).
    pose proof (object_found obj Hi) as Of.
    destruct (getZ (as_usize obj) (fd_spawns F)) as [sp|] eqn:G.
    + destruct H as (-> & -> & H). split; auto. destruct Of as [cls Ho]. eapply nf_trajectory; eauto.
    + destruct H as [-> ->]. split; auto. eapply nf_object; eauto.
Qed.

Definition fail_body (id : Z) : failure := fun x i err y =>
  forall h, hist_ok h -> vs_actors x = of_hist h ->
    exists us, y = add_updates us x /\ forall i0, ample_actor e i0 -> w_actor_id e i0 id i -> record_fails e h i0 us err.

Lemma ferr_body B (HB : bitter_ok B) N afuel id : is_i32 id -> (N <= afuel)%nat ->
  ferr Inv N 1 (bind (on_reader (peek_and_consume 1)) (body_code F B afuel id))
    (fail_body id).
Proof.
  intros Hid Hf. eapply ferr_imp.
  - eapply ferr_bind with (N1 := N) (K1 := 0%nat) (P := f_lift (w_uint 1))
      (Q := fun alive x i err y => alive = 1 /\
        (err = FNotEnoughDataFor "Is new actor" /\ y = x /\ i = [] \/
         exists j, (i = true :: j /\ new_fails e id j err /\ y = x) \/
           i = false :: j /\ match seg_get id (vs_actors x) with
             | None => err = FMissingActor id /\ y = x
             | Some oc => exists cls, spawnable (e_objects e) (fst oc) cls /\ fail_attrs id (fst oc) cls x j err y
             end)).
    { apply (facc_accp Inv N 1 0). apply (accp_peek 1 1); lia. }
    { eapply ferr_accp. apply (accp_peek 1 1); lia. }
    intros x0 i0 alive y0 o0 _ _. unfold body_code. destruct (Z.eqb_spec alive 1) as [->|].
    2: { eapply ferr_imp.
         - eapply ferr_bind with (N1 := N) (K1 := 0%nat) (Q := fun _ => no_fail).
           + apply facc_mod with (g := vis_deleted id); try reflexivity. intros x Hx. exact Hx.
           + apply ferr_mod.
           + intros. apply ferr_mod.
         - intros x i err y _ _ [[]|(u & z & j & _ & _ & [])]. }
    eapply ferr_imp.
    { eapply ferr_bind with (N1 := N) (K1 := 0%nat)
        (Q := fun is_new : bool => if is_new then (fun x i err y => new_fails e id i err /\ y = x)
              else fun x i err y => match seg_get id (vs_actors x) with
                   | None => err = FMissingActor id /\ y = x
                   | Some oc => exists cls, spawnable (e_objects e) (fst oc) cls /\ fail_attrs id (fst oc) cls x i err y
                   end).
      { apply facc_reader, acc_ok_or, acc_read_bit, HB. }
      { apply ferr_reader, acc_read_bit, HB. }
      intros x1 i1 is_new y1 o1 _ _. destruct is_new.
      - eapply ferr_imp.
        + eapply ferr_bind with (N1 := N) (K1 := 0%nat).
          { apply (facc_new F e D B HB). }
          { apply ferr_new, HB. }
          intros x2 i2 a y2 o2 _ [Hm _]. pose proof Hm as Hm2. apply m_new_ids in Hm as [Hobj Hida].
          apply ferr_need with (Q := fun _ => no_fail). intros ci Hci. eapply ferr_imp.
          * eapply ferr_bind with (N1 := N) (K1 := 0%nat) (Q := fun _ => no_fail)
              (P := f_mod (vis_insert (n_actor_id a) (n_object_id a, ci))).
            { apply facc_mod; try reflexivity. intros x. apply (inv_insert F); auto. now rewrite Hida. }
            { apply ferr_mod. }
            intros. apply ferr_mod.
          * intros x i err y _ _ [[]|(u & z & j & _ & _ & [])].
        + intros x i err y _ _ [H|(a & z & j & [Hm ->] & _ & H)]; [exact H|].
          destruct (cache_of F (n_object_id a)) as [ci|] eqn:C; [destruct H|]. destruct H as [-> ->].
          split; auto. destruct Hm as (name & i1' & b & i2 & obj & i3 & sp & t & H1 & H2 & H3 & H4 & H5 & ->).
          cbn [n_object_id] in *. assert (Hi : is_i32 obj) by (destruct H3 as [H3 _]; exact H3).
          pose proof (object_found obj Hi) as Of. rewrite H4 in Of. destruct Of as [n Ho].
          eapply nf_cache; eauto. intros S. destruct (df_cached _ _ D obj n S) as [ci Hc]. congruence.
      - eapply (ferr_get Inv N 0 (fun x => seg_get id (vs_actors x))
          (fun found => bind (need (FMissingActor id) found) (fun oc => attributes_loop B F afuel id (fst oc) (snd oc)))
          (fun found x i err y => match found with
                   | None => err = FMissingActor id /\ y = x
                   | Some oc => exists cls, spawnable (e_objects e) (fst oc) cls /\ fail_attrs id (fst oc) cls x i err y
                   end)).
        intros x Hx. eapply ferr_imp.
        + apply ferr_need with (Q := fun oc x i err y => exists cls, spawnable (e_objects e) (fst oc) cls /\ fail_attrs id (fst oc) cls x i err y).
          intros oc G. destruct (inv_get F x id Hx Hid oc G) as [Ho Hc].
          destruct (df_cache _ _ D _ _ Ho Hc) as (cls & Hs & Hcf).
          eapply ferr_imp.
          * eapply ferr_weaken; [apply (ferr_attributes B HB id (fst oc) cls (snd oc) Hcf afuel)|lia|lia].
          * intros x' i err y _ _ H. exists cls. auto.
        + intros x' i err y _ _ H. exact H. }
    intros x i err y _ _ H0. split; [reflexivity|].
    destruct H0 as [(Q1 & Q2 & Q3)|(is_new & z & j & [Q1 Q2] & _ & Q3)].
    + left. apply no_bit in Q3. auto.
    + right. exists j. unfold w_bit in Q1. subst z. destruct is_new; [left|right].
      * destruct Q3 as [Q3 Q4]. auto.
      * auto.
  - intros x i err y Hx _ [[]|(alive & z & j & [Ha ->] & _ & -> & H)].
    apply w_uint1 in Ha as (b & E & ->). destruct b; [|discriminate E].
    intros h Hh Eh. destruct H as [(-> & -> & ->)|(j' & [(-> & Hn & ->)|[-> H]])].
    + exists []. rewrite add_none. split; auto. intros i0 Am H. econstructor; eauto.
    + exists []. rewrite add_none. split; auto. intros i0 Am H. eapply rf_new; eauto.
    + rewrite Eh, (of_hist_get F) in H by auto. destruct (map_after 200 h id) as [obj|] eqn:M.
      * cbn [fst] in H. destruct H as (cls & Hs & us & -> & [[Hb ->]|(j2 & Hb & Hu)]); exists us; (split; [reflexivity|]); intros i0 Am Hi0.
        -- eapply rf_more; eauto.
        -- eapply rf_update; eauto.
      * destruct H as [-> ->]. exists []. rewrite add_none. split; auto. intros i0 Am Hi0.
        eapply rf_actor; eauto. unfold actor_object. congruence.
Qed.

(** ** The records of a frame *)

Definition fail_records : failure := fun x i err y =>
  forall h, hist_ok h -> vs_actors x = of_hist h ->
    exists rs us, y = add_updates us (apply_recs rs x) /\
      (records_before e h i rs [] /\ us = [] /\ err = FNotEnoughDataFor "Actor data" \/
       exists j, records_before e h i rs (true :: j) /\ record_fails e (h ++ flat_map record_ops rs) j us err).

Lemma ferr_records B (HB : bitter_ok B) afuel : forall fuel, (fuel <= afuel)%nat ->
  ferr Inv fuel 0 (actors_loop B F afuel fuel) fail_records.
Proof.
  induction fuel as [|fuel IH]; intros Hf; [intros s W L; lia|]. cbn [actors_loop].
  specialize (IH ltac:(lia)). destruct (channel_bits_nat F e D) as (n & Hb & Hn & Hn2).
  pose proof (df_range _ _ D) as M.
  eapply ferr_imp.
  - unfold f_not_enough at 1.
    apply ferr_bind with (N1 := fuel) (K1 := 0%nat) (P := f_lift w_bit)
      (Q := fun more : bool => if more then (fun x i err y =>
          too_few i (e_max_channels e) 2 /\ err = FNotEnoughDataFor "Actor Id" /\ y = x \/
          exists raw i1, ample_actor e i /\ w_bounded (Z.max 1 (e_max_channels e)) i raw i1 /\
            (fail_body (as_i32 raw) x i1 err y \/
             exists z m, f_body F e (as_i32 raw) x i1 tt z m /\ fail_records z m err y)) else no_fail).
    + apply facc_reader_dec; [apply acc_ok_or, acc_read_bit, HB|apply w_bit_dec].
    + apply ferr_reader, acc_read_bit, HB.
    + intros x0 i0 more y0 o0 _ _. destruct more; [|apply ferr_ret].
      replace (fd_channel_bits F + 1 + 1) with (Z.of_nat (S (S n))) by lia.
      eapply ferr_imp.
      * apply ferr_guard; [exact HB|lia|]. rewrite Hb, Nat2Z.id, (df_channels _ _ D).
        eapply ferr_bind with (N1 := fuel) (K1 := (S (S n) - S n)%nat).
        { apply facc_accp, accp_bounded0; eauto; lia. }
        { eapply ferr_accp, accp_bounded0; eauto; lia. }
        intros x1 i1 raw y1 o1 _ _. replace (S (S n) - S n)%nat with 1%nat by lia.
        eapply ferr_ext; [intros s; apply (bind_assoc (on_reader (peek_and_consume 1)) (body_code F B afuel (as_i32 raw)))|].
        eapply ferr_bind with (N1 := fuel) (K1 := 0%nat).
        { apply (facc_body F e D B HB); [apply as_i32_range|lia]. }
        { apply (ferr_body B HB); [apply as_i32_range|lia]. }
        intros; exact IH.
      * intros x i err y _ _ [(Hl & -> & ->)|(Hl & [[]|(raw & z & i1 & [Hw ->] & _ & H)])].
        { left. split; auto. unfold too_few. rewrite <- (log2_bits n (e_max_channels e)); auto; lia. }
        right. exists raw, i1. split.
        { unfold ample_actor, too_few. rewrite <- (log2_bits n (e_max_channels e)); auto; lia. }
        split; auto. destruct H as [H|(u & z & m & H1 & _ & H2)]; [left; exact H|].
        right. destruct u. eauto.
  - intros x i err y Hx Li H0 h Hh Eh. destruct H0 as [(-> & -> & H)|(more & z & j & [Wb ->] & _ & H)].
    + apply no_bit in H as ->. exists [], []. rewrite add_none, apply_recs_nil. split; auto. left. split; auto. constructor.
    + red in Wb. destruct more; [|destruct H]. subst i. destruct H as [(H & -> & ->)|(raw & i1 & Am & Hw & H)].
      * exists [], []. rewrite add_none, apply_recs_nil. split; auto. right. exists j. split; [constructor|].
        cbn [flat_map]. now constructor.
      * assert (Hid : w_actor_id e j (as_i32 raw) i1).
        { exists raw. split; auto. destruct Hw as [R _]. apply signed32_as_i32. lia. }
        destruct H as [H|(z & m & (_ & h0 & r & Hh0 & Eh0 & Hr & Ez) & H)].
        -- destruct (H h Hh Eh) as (us & -> & Hu). exists [], us. rewrite apply_recs_nil. split; auto.
           right. exists j. split; [constructor|]. cbn [flat_map]. rewrite app_nil_r. auto.
        -- assert (Hrec : w_record e h0 j r m) by (exists (as_i32 raw), i1; auto).
           apply (w_record_ext F e D h0 h) in Hrec.
           2: { intros k Hk. apply (of_hist_inj F); auto. congruence. }
           pose proof (w_record_ops_ok F e D h j r m Hh Hrec) as Hh1.
           destruct (H (h ++ record_ops r) Hh1) as (rs & us & -> & Hc).
           { subst z. cbn [RecordProofs.apply_rec vs_actors]. rewrite Eh. symmetry. apply of_hist_app. }
           exists (r :: rs), us. rewrite apply_recs_cons, <- Ez. split; auto.
           cbn [flat_map]. rewrite app_assoc.
           destruct Hc as [(Hc & -> & ->)|(j' & Hc & Hc2)]; [left|right].
           ++ split; auto. econstructor; eauto.
           ++ exists j'. split; auto. econstructor; eauto.
Qed.

(** ** One frame *)

Definition fail_frame : failure := fun x i err y =>
  forall h, hist_ok h -> x = mkVis (of_hist h) [] [] [] ->
    exists rs us, frame_fails e h i rs us err /\ hist_ok (h ++ flat_map record_ops rs) /\
      y = mkVis (of_hist (h ++ flat_map record_ops rs)) (flat_map new_of rs) (flat_map deleted_of rs) (flat_map updated_of rs ++ us).

Lemma records_before_ok h i rs j : records_before e h i rs j -> hist_ok h -> hist_ok (h ++ flat_map record_ops rs).
Proof.
  induction 1 as [h i|h i r m rs j Ha Hr Hrs IH]; intros Hh; cbn [flat_map]; [now rewrite app_nil_r|].
  rewrite app_assoc. apply IH. eapply (w_record_ops_ok F e D); eauto.
Qed.

Lemma ferr_frame B (HB : bitter_ok B) fuel : ferr Inv fuel 0 (decode_frame B F fuel) fail_frame.
Proof.
  unfold decode_frame. eapply ferr_imp.
  - eapply ferr_bind with (N1 := fuel) (K1 := 0%nat)
      (Q := fun t x i err y => out_of_range t = true /\ err = FTimeOutOfRange t /\ y = x \/
        out_of_range t = false /\
          ((err = FNotEnoughDataFor "Delta" /\ y = x /\ forall v o, ~ w_f32 i v o) \/
           exists d z j, f_lift w_f32 x i d z j /\ Inv z /\
             (out_of_range d = true /\ err = FDeltaOutOfRange d /\ y = z \/
              out_of_range d = false /\ f32_eq t f32_zero && f32_eq d f32_zero = false /\ fail_records z j err y))).
    { apply facc_reader, acc_ok_or, acc_read_f32, HB. }
    { apply ferr_reader, acc_read_f32, HB. }
    intros x0 i0 t y0 o0 _ _. destruct (out_of_range t) eqn:Ot.
    { eapply ferr_imp; [apply ferr_fail|]. intros x i err y _ _ [-> ->]. auto. }
    eapply ferr_imp.
    + eapply ferr_bind with (N1 := fuel) (K1 := 0%nat) (P := f_lift w_f32)
        (Q := fun d z j err y => out_of_range d = true /\ err = FDeltaOutOfRange d /\ y = z \/
              out_of_range d = false /\ f32_eq t f32_zero && f32_eq d f32_zero = false /\ fail_records z j err y).
      { apply facc_reader, acc_ok_or, acc_read_f32, HB. }
      { apply ferr_reader, acc_read_f32, HB. }
      intros x1 i1 d y1 o1 _ _. destruct (out_of_range d).
      { eapply ferr_imp; [apply ferr_fail|]. intros x i err y _ _ [-> ->]. auto. }
      destruct (f32_eq t f32_zero && f32_eq d f32_zero).
      { eapply ferr_imp; [apply ferr_ret|]. intros x i err y _ _ []. }
      eapply ferr_imp.
      * eapply ferr_bind with (N1 := fuel) (K1 := 0%nat) (Q := fun _ => no_fail).
        { apply (facc_records F e D B HB). lia. }
        { apply (ferr_records B HB). lia. }
        intros x2 i2 u y2 o2 _ _ s W L K0. cbn. exact Logic.I.
      * intros x i err y _ _ [H|(u & z & j & _ & _ & [])]. auto.
    + intros x i err y _ _ H. right. auto.
  - intros x i err y _ _ H0 h Hh Ex.
    assert (Rg : forall i t o, w_f32 i t o -> 0 <= t < 2 ^ 32) by (intros ? ? ? [R _]; exact R).
    assert (Y : forall z, z = x -> exists rs us, rs = [] /\ us = [] /\ hist_ok (h ++ flat_map record_ops rs) /\
      z = mkVis (of_hist (h ++ flat_map record_ops rs)) (flat_map new_of rs) (flat_map deleted_of rs) (flat_map updated_of rs ++ us)).
    { intros z ->. exists [], []. cbn [flat_map app]. rewrite app_nil_r. auto. }
    destruct H0 as [(-> & Q & H)|(t & z & i1 & [Ht ->] & _ & H)].
    { destruct (Y y Q) as (rs & us & -> & -> & Y1 & Y2). exists [], []. split; [|auto]. now apply ff_time. }
    pose proof (out_of_range_spec t (Rg _ _ _ Ht)) as St.
    destruct H as [(Ot & -> & Q)|(Ot & H)].
    { destruct (Y y Q) as (rs & us & -> & -> & Y1 & Y2). exists [], []. split; [|auto].
      eapply ff_time_range; eauto. intros Hk. apply St in Hk. congruence. }
    apply St in Ot.
    destruct H as [(-> & Q & H)|(d & z & i2 & [Hd ->] & _ & H)].
    { destruct (Y y Q) as (rs & us & -> & -> & Y1 & Y2). exists [], []. split; [|auto]. eapply ff_delta; eauto. }
    pose proof (out_of_range_spec d (Rg _ _ _ Hd)) as Sd.
    destruct H as [(Od & -> & Q)|(Od & Zq & H)].
    { destruct (Y y Q) as (rs & us & -> & -> & Y1 & Y2). exists [], []. split; [|auto].
      eapply ff_delta_range; eauto. intros Hk. apply Sd in Hk. congruence. }
    apply Sd in Od.
    assert (Nz : ~ (time_zero t /\ time_zero d)).
    { intros [Z1 Z2]. apply eq_zero in Z1; [|eauto]. apply eq_zero in Z2; [|eauto]. rewrite Z1, Z2 in Zq. discriminate. }
    destruct (H h Hh) as (rs & us & -> & Hc); [now rewrite Ex|].
    exists rs, us. rewrite Ex, (apply_recs_fresh F).
    assert (Hh' : hist_ok (h ++ flat_map record_ops rs)).
    { destruct Hc as [(Hc & _)|(j & Hc & _)]; eapply records_before_ok; eauto. }
    split; [|split; [exact Hh'|reflexivity]].
    destruct Hc as [(Hc & -> & ->)|(j & Hc & Hc2)].
    + eapply ff_more; eauto.
    + eapply ff_record; eauto.
Qed.

(** ** All frames *)

Lemma frames_loop_err B (HB : bitter_ok B) ho fuel : forall n acc s h err,
  fresh F h s -> (length (fbits s) < fuel)%nat -> frames_loop B ho F fuel n acc s = Err err ->
  exists xs h' j rs us x t,
    frames_before e h (fbits s) xs h' j /\ (length xs < n)%nat /\ j <> [] /\
    frame_fails e h' j rs us x /\ hist_ok (h' ++ flat_map record_ops rs) /\
    err = NFrameError x (frame_context_of ho F (rev acc ++ map to_frame xs) t) /\
    vis t = mkVis (of_hist (h' ++ flat_map record_ops rs)) (flat_map new_of rs) (flat_map deleted_of rs) (flat_map updated_of rs ++ us).
Proof.
  induction n as [|n IH]; intros acc s h err (W & Hh & Vs) L E; cbn [frames_loop] in E; [discriminate|].
  destruct (is_empty (fs_r s)) eqn:Em; [discriminate|].
  assert (Ne : fbits s <> []) by (intros Q; apply is_empty_flat in Q; congruence).
  assert (Ws : fwf Inv s).
  { split; [exact W|]. exists h. split; [exact Hh|now rewrite Vs]. }
  pose proof (facc_frame F e D B HB fuel s Ws L ltac:(lia)) as A.
  pose proof (ferr_frame B HB fuel s Ws L ltac:(lia)) as R.
  destruct (decode_frame B F fuel s) as [[[f|]|x|p] s']; [|discriminate| |discriminate].
  - destruct A as (V & Le & L' & _ & A).
    assert (P : f_frame F e (vis s) (fbits s) (Some f) (vis s') (fbits s')) by (apply A; auto).
    apply (f_frame_at F e D h) in P as [(Q & _)|(t & d & rs & Hf & Q & Ev)]; auto; [discriminate|].
    injection Q as Q. pose proof (w_frame_ok F e D _ _ _ _ _ _ Hh Hf) as Hh'.
    assert (Fr : fresh F (h ++ flat_map record_ops rs) s') by (split; [apply V|split; auto]).
    destruct (IH (f :: acc) s' _ err Fr L' E) as (xs & h' & j & rs' & us & x & u & H1 & H2 & H3 & H4 & H5 & H6 & H7).
    exists ((t, d, rs) :: xs), h', j, rs', us, x, u.
    split; [econstructor; eauto|]. split; [cbn [length]; lia|]. do 3 (split; [assumption|]).
    split; [|assumption]. cbn [rev] in H6. rewrite <- app_assoc in H6. cbn [map to_frame]. rewrite <- Q. exact H6.
  - injection E as <-. destruct (R h Hh Vs) as (rs & us & Hf & Hh' & Ev).
    exists [], h, (fbits s), rs, us, x, s'. split; [constructor|]. split; [cbn [length]; lia|].
    do 3 (split; [assumption|]). cbn [map]. rewrite app_nil_r. auto.
Qed.

(** ** The actors of the context *)

Lemma array_actors_in l : forall i a o, 0 <= i -> i + lenZ l <= 2 ^ 31 ->
  In (a, o) (array_actors i l) <-> i <= a /\ exists ci, getZ (a - i) l = Some (Some (o, ci)).
Proof.
  induction l as [|x l IH]; intros i a o Hi Hl; cbn [array_actors].
  - cbn. split; [tauto|]. intros (_ & ci & H). discriminate.
  - assert (Hl' : i + 1 + lenZ l <= 2 ^ 31) by (unfold lenZ in *; cbn [length] in Hl; lia).
    assert (0 <= lenZ l) by (unfold lenZ; lia). specialize (IH (i + 1) a o ltac:(lia) Hl').
    assert (T : In (a, o) (array_actors (i + 1) l) <-> i < a /\ exists ci, getZ (a - i) (x :: l) = Some (Some (o, ci))).
    { rewrite IH. cbn [getZ]. split.
      - intros (Ha & ci & G). split; [lia|]. exists ci. destruct (Z.eqb_spec (a - i) 0); [lia|].
        replace (a - i - 1) with (a - (i + 1)) by lia. exact G.
      - intros (Ha & ci & G). split; [lia|]. exists ci. destruct (Z.eqb_spec (a - i) 0); [lia|].
        replace (a - i - 1) with (a - (i + 1)) in G by lia. exact G. }
    destruct x as [[o' ci']|]; cbn [In].
    + rewrite T. split.
      * intros [Q|(Ha & ci & G)]; [|split; [lia|eauto]]. injection Q as Qa Qo.
        rewrite as_i32_small in Qa by lia. subst. split; [lia|]. exists ci'. rewrite Z.sub_diag. reflexivity.
      * intros (Ha & ci & G). destruct (Z.eq_dec a i) as [->|N]; [|right; split; [lia|eauto]].
        left. rewrite Z.sub_diag in G. cbn in G. injection G as -> ->. now rewrite as_i32_small by lia.
    + rewrite T. split.
      * intros (Ha & ci & G). split; [lia|eauto].
      * intros (Ha & ci & G). split; [|eauto]. destruct (Z.eq_dec a i) as [->|N]; [|lia].
        rewrite Z.sub_diag in G. discriminate.
Qed.

Lemma array_actors_keys l : forall i a, 0 <= i -> i + lenZ l <= 2 ^ 31 ->
  In a (map fst (array_actors i l)) -> i <= a < i + lenZ l.
Proof.
  intros i a Hi Hl H. apply in_map_iff in H as ([a' o] & <- & H). cbn [fst].
  apply array_actors_in in H as (H1 & ci & H2); auto. apply getZ_some in H2. lia.
Qed.

Lemma array_actors_nodup l : forall i, 0 <= i -> i + lenZ l <= 2 ^ 31 -> NoDup (map fst (array_actors i l)).
Proof.
  induction l as [|x l IH]; intros i Hi Hl; cbn [array_actors map]; [constructor|].
  assert (Hl' : i + 1 + lenZ l <= 2 ^ 31) by (unfold lenZ in *; cbn [length] in Hl; lia).
  assert (0 <= lenZ l) by (unfold lenZ; lia).
  destruct x as [[o ci]|]; [|apply IH; lia]. cbn [map fst]. constructor; [|apply IH; lia].
  intros Hin. apply array_actors_keys in Hin; [|lia|lia]. rewrite as_i32_small in Hin by lia. lia.
Qed.

Definition apart {V} (s : seg_array V) : Prop :=
  length (sg_array s) = 200%nat /\ forall k, In k (map fst (sg_map s)) -> getZ k (sg_array s) = None.

Lemma apart_op {V} (s : seg_array V) o : apart s -> apart (run_op s o).
Proof.
  intros [L A]. destruct o as [k v|k]; cbn [run_op].
  - split; [now rewrite seg_insert_length|]. unfold seg_insert, raw_insert.
    pose proof (fun j => setZ_getZ (as_usize k) (Some v) (sg_array s) j) as G.
    destruct (setZ (as_usize k) (Some v) (sg_array s)) as [l|] eqn:E; cbn [sg_map sg_array]; intros j Hj.
    + destruct (G j) as (G1 & G2 & ->). specialize (A j Hj). destruct (Z.eqb_spec j (as_usize k)) as [->|]; auto.
      apply getZ_none in A. contradiction.
    + apply map_insert_keys in Hj as [->|Hj]; auto. apply getZ_none, (G 0).
  - split; [now rewrite seg_delete_length|]. unfold seg_delete, raw_delete.
    destruct (getZ (as_usize k) (sg_array s)) eqn:E; cbn [sg_map sg_array]; auto.
    intros j Hj. apply map_remove_keys in Hj. auto.
Qed.

Lemma of_hist_apart h : apart (of_hist h).
Proof.
  unfold RecordProofs.of_hist. assert (G : apart (@seg_new (Z * cache_info) 200)).
  { split; [reflexivity|]. intros k []. }
  revert G. generalize (@seg_new (Z * cache_info) 200). induction h as [|o h IH]; intros s G; cbn [map fold_left]; auto.
  apply IH, apart_op, G.
Qed.

Lemma context_actors ho (Ho : hash_order_ok ho) fs s h :
  hist_ok h -> fs_actors s = of_hist h ->
  NoDup (map fst (fc_actors (frame_context_of ho F fs s))) /\
  forall a o, In (a, o) (fc_actors (frame_context_of ho F fs s)) <-> is_i32 a /\ actor_object h a o.
Proof.
  intros Hh Es. unfold frame_context_of. cbn [fc_actors]. rewrite Es.
  set (f := fun kv : Z * (Z * cache_info) => (as_i32 (fst kv), fst (snd kv))).
  assert (Sx : forall l : list (Z * Z), sorted (map_extend [] l)) by (intros; apply sorted_extend; exact Logic.I).
  pose proof (of_hist_apart h) as [L A]. pose proof (of_hist_keys F h Hh) as [S K].
  assert (N : NoDup (map fst (map f (sg_map (of_hist h))))).
  { rewrite map_map. cbn [f fst]. apply sorted_nodup in S. revert S K.
    generalize (sg_map (of_hist h)). intros l. induction l as [|[k v] l IH]; intros S K; cbn [map]; [constructor|].
    inversion S as [|? ? S1 S2]; subst. constructor.
    - intros Hin. apply in_map_iff in Hin as ([k' v'] & E & Hin). cbn [fst] in *.
      destruct (K k) as (j & Hj & ->); [simpl; auto|].
      assert (Hin' : In k' (map fst l)) by (apply in_map_iff; exists (k', v'); auto).
      destruct (K k') as (j' & Hj' & ->); [simpl; auto|].
      rewrite !as_i32_usize in E by auto. subst. auto.
    - apply IH; auto. intros j Hj. apply K. simpl; auto. }
  split; [apply sorted_nodup, Sx|]. intros a o.
  rewrite <- map_get_in by (apply sorted_nodup, Sx). rewrite map_get_extend, last_of_app.
  rewrite (last_of_perm _ _ (map f (sg_map (of_hist h)))) by (auto; apply Permutation_map, Ho).
  assert (La : lenZ (sg_array (of_hist h)) = 200) by (unfold lenZ; now rewrite L).
  assert (U : is_i32 a -> (exists ci, seg_get a (of_hist h) = Some (o, ci)) <-> actor_object h a o).
  { intros Ha. rewrite (of_hist_get F h a Hh Ha). unfold actor_object. split.
    - intros (ci & H). destruct (map_after 200 h a); [|discriminate]. injection H as -> _. reflexivity.
    - intros ->. eauto. }
  destruct (map_get a (map f (sg_map (of_hist h)))) as [o'|] eqn:M.
  - apply map_get_in in M; auto. apply in_map_iff in M as ([k [o1 ci]] & E & Hin). unfold f in E. cbn [fst snd] in E.
    injection E as Ea ->. assert (Hk : In k (map fst (sg_map (of_hist h)))) by (apply in_map_iff; exists (k, (o', ci)); auto).
    destruct (K k Hk) as (j & Hj & ->). rewrite as_i32_usize in Ea by auto. subst j.
    assert (G : seg_get a (of_hist h) = Some (o', ci)).
    { unfold seg_get, raw_get. rewrite (A _ Hk). apply map_get_in; auto. apply sorted_nodup, S. }
    split.
    + intros [= ->]. split; auto. apply U; eauto.
    + intros [_ H]. apply U in H as (ci' & H); auto. congruence.
  - assert (Q : last_of a (array_actors 0 (sg_array (of_hist h))) = Some o <->
      0 <= a /\ exists ci, getZ a (sg_array (of_hist h)) = Some (Some (o, ci))).
    { rewrite last_of_nodup by (apply array_actors_nodup; lia). rewrite array_actors_in by lia. now rewrite Z.sub_0_r. }
    cbn [map_get].
    replace (match last_of a (array_actors 0 (sg_array (of_hist h))) with Some x => Some x | None => None end)
      with (last_of a (array_actors 0 (sg_array (of_hist h)))) by (destruct (last_of _ _); reflexivity).
    rewrite Q. split.
    + intros (Ha & ci & G). pose proof (getZ_some _ _ _ G) as R. assert (Hi : is_i32 a) by (unfold is_i32; lia).
      split; auto. apply U; auto. exists ci. unfold seg_get, raw_get. rewrite as_usize_i32 by auto.
      replace (0 <=? a) with true by lia. now rewrite G.
    + intros (Hi & H). apply U in H as (ci & H); auto. unfold seg_get, raw_get in H.
      destruct (getZ (as_usize a) (sg_array (of_hist h))) as [x|] eqn:G.
      * subst x. pose proof (getZ_some _ _ _ G) as R. rewrite as_usize_i32 in G, R by auto. unfold is_i32 in Hi.
        destruct (Z.leb_spec 0 a); [|lia]. eauto.
      * exfalso. assert (Hin : In (as_usize a) (map fst (sg_map (of_hist h)))).
        { apply map_get_in in H; [|apply sorted_nodup, S]. apply in_map with (f := fst) in H. exact H. }
        apply map_get_none in M. apply M. rewrite map_map. cbn [f fst].
        apply in_map_iff in Hin as ([k v] & Ek & Hin). cbn [fst] in Ek.
        apply in_map_iff. exists (k, v). split; [|exact Hin]. cbn [fst]. rewrite Ek. now apply as_i32_usize.
Qed.

Lemma decode_frames_err (OB : fd_objects F = e_objects e) B (HB : bitter_ok B) ho (Ho : hash_order_ok ho) err :
  decode_frames B ho F = Err err ->
  exists x ctx, err = NFrameError x ctx /\
    frames_fail e (Z.to_nat (fd_frames_len F)) (enc_bytes (fd_network_data F)) x ctx.
Proof.
  unfold decode_frames. rewrite enc_bytes_bits. intros H.
  eapply frames_loop_err in H; [|exact HB|apply (fresh_start F)|].
  2: { unfold fbits, flat. cbn [fs_r lk rest reader_new app]. unfold loop_fuel. rewrite bytes_bits_length. lia. }
  destruct H as (xs & h & j & rs & us & x & t & H1 & H2 & H3 & H4 & H5 & -> & Ev).
  unfold fbits, flat in H1. cbn [fs_r lk rest reader_new app] in H1.
  exists x. eexists. split; [reflexivity|]. cbn [rev app].
  unfold vis in Ev. injection Ev as E1 E2 E3 E4.
  exists xs, h, j, rs, us. do 4 (split; [assumption|]).
  split; [exact OB|]. split; [reflexivity|]. split; [exact E2|]. split; [exact E4|].
  apply context_actors; auto.
Qed.

End Decoder.
