(** * Proofs: frames and the sequence of frames *)

From Coq Require Import ZArith List Bool Lia ZifyBool ZifyNat Permutation.
From Verif Require Import Base F32 NetTypes SegArray Errors Header Body BitReader NetModels Attributes Data ObjectIndex
  FrameDecoder BitLemmas Wire ReaderLogic LeafProofs VectorProofs TextWireProofs AttrProofs AttrSame SpecBasic BasicProofs
  HierarchyProofs MapProofs SpecNet TableProofs CacheProofs SpecFrames FrameLogic TimeProofs FrameProofs RecordProofs.
Open Scope Z_scope.
#[local] Opaque PARENT_CLASSES SPAWN_STATS ATTRIBUTES.

Section Decoder.
Context (F : frame_decoder) (e : net_env) (D : decoder_for F e).
Notation hist_ok := (hist_ok F).
Notation of_hist := (of_hist F).
Notation Inv := (Inv F).
Notation apply_recs := (apply_recs F).

Lemma w_record_ops_ok h i r o : hist_ok h -> w_record e h i r o -> hist_ok (h ++ record_ops r).
Proof.
  intros Hh (id & i1 & Hid & Hr). pose proof (actor_id_i32 F e D _ _ _ Hid) as Hi.
  apply Forall_app. split; auto. destruct r as [a|id'|id' us]; cbn [record_ops].
  - destruct Hr as (i2 & _ & H). apply (w_new_cached F e D) in H as (C & Ho & <-).
    constructor; [|constructor]. split; auto.
  - destruct Hr as (-> & _). constructor; [|constructor]. split; [exact Hi|exact Logic.I].
  - constructor.
Qed.

Lemma w_records_ok h i rs o : w_records e h i rs o -> hist_ok h -> hist_ok (h ++ flat_map record_ops rs).
Proof.
  induction 1 as [h o|h i r m rs o Hr Hrs IH]; intros Hh; cbn [flat_map]; [now rewrite app_nil_r|].
  rewrite app_assoc. apply IH. eapply w_record_ops_ok; eauto.
Qed.

Lemma f_records_at h x i v y o : hist_ok h -> vs_actors x = of_hist h ->
  f_records F e x i v y o <-> v = tt /\ exists rs, w_records e h i rs o /\ y = apply_recs rs x.
Proof.
  intros Hh Eh. split.
  - intros (-> & h' & rs & Hh' & Eh' & Hrs & ->). split; auto. exists rs. split; auto.
    eapply w_records_ext; eauto. intros k Hk. apply (of_hist_inj F); auto. congruence.
  - intros (-> & rs & Hrs & ->). split; auto. exists h, rs. auto.
Qed.

(** ** One frame *)

Definition vis_done (x : vis_state) : vis_state := mkVis (vs_actors x) [] [] [].

Definition f_finish (t d : f32) : fwire (option frame) := fun x i v y o =>
  v = Some (mkFrame t d (vs_new x) (vs_deleted x) (vs_updated x)) /\ y = vis_done x /\ o = i.

Lemma facc_finish N K t d : facc Inv N K (fmap Some (finish_frame t d)) (f_finish t d) N K.
Proof.
  intros s [W1 W2] L K0. unfold fmap, bind, finish_frame, ret. cbn.
  split; [split; [exact W1|exact W2]|]. split; [reflexivity|]. split; [exact L|]. split; [exact K0|].
  intros v y o. unfold f_finish. tauto.
Qed.

Lemma fsame_finish N K t d : fsame Inv N K (fmap Some (finish_frame t d)) (fmap Some (finish_frame t d)) N K.
Proof.
  intros s1 s2 [W1 I1] [W2 I2] Fb Vs L Ka Kb. unfold fmap, bind, finish_frame, ret.
  unfold vis in Vs. injection Vs as E1 E2 E3 E4. rewrite <- E2, <- E3, <- E4.
  eexists _, _, _. split; [reflexivity|]. split; [reflexivity|].
  split; [split; [exact W1|exact I1]|]. split; [split; [exact W2|exact I2]|].
  split; [unfold vis; cbn; congruence|]. cbn. auto.
Qed.

Definition f_frame : fwire (option frame) := fun x i v y o =>
  exists t i1 d i2, w_f32 i t i1 /\ time_ok t /\ w_f32 i1 d i2 /\ time_ok d /\
    (time_zero t /\ time_zero d /\ v = None /\ y = x /\ o = i2 \/
     ~ (time_zero t /\ time_zero d) /\ exists z m, f_records F e x i2 tt z m /\ f_finish t d z m v y o).

Lemma facc_frame B (HB : bitter_ok B) fuel : facc Inv fuel 0 (decode_frame B F fuel) f_frame fuel 0.
Proof.
  unfold decode_frame. eapply facc_iff.
  - eapply facc_bind_val with (N1 := fuel) (K1 := 0%nat)
      (Q := fun t => if out_of_range t then f_none else f_bind (f_lift w_f32) (fun d =>
        if out_of_range d then f_none else if f32_eq t f32_zero && f32_eq d f32_zero then f_ret None else
        f_bind (f_records F e) (fun _ => f_finish t d))).
    { apply facc_reader, acc_ok_or, acc_read_f32, HB. }
    intros x i t y o _ _. destruct (out_of_range t); [apply facc_fail|].
    eapply facc_bind; [apply facc_reader, acc_ok_or, acc_read_f32, HB|]. intros d.
    destruct (out_of_range d); [apply facc_fail|]. destruct (f32_eq t f32_zero && f32_eq d f32_zero); [apply facc_ret|].
    eapply facc_bind; [apply (facc_records F e D B HB); lia|]. intros _. apply facc_finish.
  - assert (Rg : forall i t o, w_f32 i t o -> 0 <= t < 2 ^ 32) by (intros i t o [R _]; exact R).
    assert (Zq : forall t d, 0 <= t < 2 ^ 32 -> 0 <= d < 2 ^ 32 -> f32_eq t f32_zero && f32_eq d f32_zero = true <-> time_zero t /\ time_zero d).
    { intros t d Rt Rd. rewrite andb_true_iff, !eq_zero by auto. tauto. }
    intros x i v y o _ _. unfold f_bind, f_lift, f_frame. split.
    + intros (t & z & i1 & [Ht ->] & H). pose proof (Rg _ _ _ Ht) as Rt.
      destruct (out_of_range t) eqn:Et; [destruct H|]. apply out_of_range_spec in Et; auto.
      destruct H as (d & z & i2 & [Hd ->] & H). pose proof (Rg _ _ _ Hd) as Rd.
      destruct (out_of_range d) eqn:Ed; [destruct H|]. apply out_of_range_spec in Ed; auto.
      exists t, i1, d, i2. split; [assumption|]. split; [assumption|]. split; [assumption|]. split; [assumption|].
      specialize (Zq t d ltac:(eauto) ltac:(eauto)). destruct (f32_eq t f32_zero && f32_eq d f32_zero).
      * left. destruct H as (-> & -> & ->). destruct (proj1 Zq eq_refl). auto.
      * right. split; [intros Hz; apply Zq in Hz; discriminate|]. destruct H as ([] & z & m & H1 & H2). eauto.
    + intros (t & i1 & d & i2 & Ht & Kt & Hd & Kd & H). exists t, x, i1. split; auto.
      apply out_of_range_spec in Kt; [|eauto]. apply out_of_range_spec in Kd; [|eauto]. rewrite Kt.
      exists d, x, i2. split; auto. rewrite Kd. specialize (Zq t d ltac:(eauto) ltac:(eauto)).
      destruct H as [(Z1 & Z2 & -> & -> & ->)|(Nz & z & m & H1 & H2)].
      * rewrite (proj2 Zq (conj Z1 Z2)). split; auto.
      * destruct (f32_eq t f32_zero && f32_eq d f32_zero); [exfalso; apply Nz, Zq; auto|].
        exists tt, z, m. auto.
Qed.

Lemma fsame_frame B1 B2 (H1 : bitter_ok B1) (H2 : bitter_ok B2) fuel :
  fsame Inv fuel 0 (decode_frame B1 F fuel) (decode_frame B2 F fuel) fuel 0.
Proof.
  unfold decode_frame. eapply fsame_bind with (N1 := fuel) (K1 := 0%nat).
  { apply fsame_reader, same_ok_or. eapply acc_same; apply acc_read_f32; auto. }
  intros t. destruct (out_of_range t); [apply fsame_fail|].
  eapply fsame_bind; [apply fsame_reader, same_ok_or; eapply acc_same; apply acc_read_f32; auto|]. intros d.
  destruct (out_of_range d); [apply fsame_fail|]. destruct (f32_eq t f32_zero && f32_eq d f32_zero); [apply fsame_ret|].
  eapply fsame_bind; [apply (fsame_records F e D B1 B2 H1 H2); lia|]. intros _. apply fsame_finish.
Qed.

(** ** All frames *)

Lemma is_empty_flat r : is_empty r = true <-> flat r = [].
Proof.
  unfold is_empty, flat. destruct (lk r) as [|b l]; [|split; discriminate].
  destruct (rest r) as [|c t]; [split; reflexivity|]. split; [discriminate|].
  cbn [app]. unfold bytes_bits. cbn [flat_map]. intros H. apply (f_equal (@length bool)) in H.
  rewrite app_length, byte_bits_length in H. simpl in H. lia.
Qed.

Lemma w_f32_nonempty t o : ~ w_f32 [] t o.
Proof.
  intros [_ H]. apply (f_equal (@length bool)) in H. rewrite app_length, enc_bits_length in H. simpl in H. lia.
Qed.

Definition fresh (h : list (map_op Z)) (s : fstate) : Prop :=
  wf (fs_r s) /\ hist_ok h /\ vis s = mkVis (of_hist h) [] [] [].

Lemma w_frame_ok h i t d rs o : hist_ok h -> w_frame e h i (t, d, rs) o -> hist_ok (h ++ flat_map record_ops rs).
Proof. intros Hh (i1 & i2 & _ & _ & _ & _ & _ & H). eapply w_records_ok; eauto. Qed.

Lemma apply_recs_fresh h rs : apply_recs rs (mkVis (of_hist h) [] [] []) =
  mkVis (of_hist (h ++ flat_map record_ops rs)) (flat_map new_of rs) (flat_map deleted_of rs) (flat_map updated_of rs).
Proof. unfold RecordProofs.apply_recs. cbn [vs_actors vs_new vs_deleted vs_updated app]. now rewrite of_hist_app. Qed.

Lemma f_frame_at h s v y o : hist_ok h -> vis s = mkVis (of_hist h) [] [] [] ->
  f_frame (vis s) (fbits s) v y o <->
  v = None /\ y = vis s /\ (exists t i1 d, w_f32 (fbits s) t i1 /\ w_f32 i1 d o /\ time_zero t /\ time_zero d) \/
  exists t d rs, w_frame e h (fbits s) (t, d, rs) o /\ v = Some (frame_of t d rs) /\
    y = mkVis (of_hist (h ++ flat_map record_ops rs)) [] [] [].
Proof.
  intros Hh Vs. assert (Eh : vs_actors (vis s) = of_hist h) by now rewrite Vs. unfold f_frame. split.
  - intros (t & i1 & d & i2 & Ht & Kt & Hd & Kd & [(Z1 & Z2 & -> & -> & ->)|(Nz & z & m & Hr & -> & -> & ->)]).
    + left. split; auto. split; auto. exists t, i1, d. auto.
    + right. apply (f_records_at h) in Hr as (_ & rs & Hr & ->); auto. exists t, d, rs. split.
      * exists i1, i2. auto 10.
      * rewrite Vs, apply_recs_fresh. split; reflexivity.
  - intros [(-> & -> & t & i1 & d & Ht & Hd & Z1 & Z2)|(t & d & rs & (i1 & i2 & Ht & Hd & Kt & Kd & Nz & Hr) & -> & ->)].
    + exists t, i1, d, o. split; auto. split; [unfold time_zero, time_ok in *; tauto|]. split; auto.
      split; [unfold time_zero, time_ok in *; tauto|]. left. auto.
    + exists t, i1, d, i2. do 4 (split; [assumption|]). right. split; auto.
      exists (apply_recs rs (vis s)), o. split.
      * apply (f_records_at h); auto. split; auto. exists rs. auto.
      * rewrite Vs, apply_recs_fresh. split; [reflexivity|]. split; reflexivity.
Qed.

Lemma w_frame_ext h h' i x o : (forall k, is_i32 k -> map_after 200 h k = map_after 200 h' k) ->
  w_frame e h i x o -> w_frame e h' i x o.
Proof.
  intros H. destruct x as [[t d] rs]. intros (i1 & i2 & H1 & H2 & H3 & H4 & H5 & H6).
  exists i1, i2. do 5 (split; [assumption|]). eapply w_records_ext; eauto.
Qed.

Lemma w_frames_ext n h i xs : w_frames e n h i xs -> forall h',
  (forall k, is_i32 k -> map_after 200 h k = map_after 200 h' k) -> w_frames e n h' i xs.
Proof.
  induction 1 as [h i|n h|n h i t i1 d o H1 H2 H3 H4|n h i t d rs m fs H1 H2 IH]; intros h' E.
  - constructor.
  - constructor.
  - eapply frames_end; eauto.
  - eapply frames_more; [eapply w_frame_ext; eauto|]. apply IH. intros k Hk. rewrite !map_after_app.
    apply map_steps_ext. auto.
Qed.

Lemma w_frames_step h s n xs : hist_ok h -> vis s = mkVis (of_hist h) [] [] [] -> fbits s <> [] ->
  w_frames e (S n) h (fbits s) xs <->
  (exists o, f_frame (vis s) (fbits s) None (vis s) o) /\ xs = [] \/
  exists t d rs m ys, xs = (t, d, rs) :: ys /\ w_frame e h (fbits s) (t, d, rs) m /\
    w_frames e n (h ++ flat_map record_ops rs) m ys.
Proof.
  intros Hh Vs Ne. split.
  - intros H. remember (fbits s) as i eqn:Ei. remember (S n) as sn eqn:En.
    destruct H as [h i|n' h|n' h i t i1 d o H1 H2 H3 H4|n' h i t d rs m fs H1 H2]; try discriminate.
    + congruence.
    + left. split; auto. exists o. rewrite Ei. apply (f_frame_at h); auto. left. rewrite <- Ei. eauto 10.
    + right. injection En as ->. exists t, d, rs, m, fs. auto.
  - intros [[[o H] ->]|(t & d & rs & m & ys & -> & H1 & H2)].
    + apply (f_frame_at h) in H as [(_ & _ & t & i1 & d & H1 & H2 & H3 & H4)|(t & d & rs & _ & E & _)]; auto; [|discriminate].
      eapply frames_end; eauto.
    + eapply frames_more; eauto.
Qed.

Lemma frames_loop_spec B (HB : bitter_ok B) ho fuel : forall n acc s h,
  fresh h s -> (length (fbits s) < fuel)%nat ->
  match frames_loop B ho F fuel n acc s with
  | Ok fs => exists gs, fs = rev acc ++ gs /\
      forall fs', (exists xs, w_frames e n h (fbits s) xs /\ fs' = map to_frame xs) <-> fs' = gs
  | Err _ => forall xs, ~ w_frames e n h (fbits s) xs
  | Panic _ => False
  end.
Proof.
  induction n as [|n IH]; intros acc s h (W & Hh & Vs) L; cbn [frames_loop].
  - exists []. rewrite app_nil_r. split; auto. intros fs'. split.
    + intros (xs & H & ->). inversion H; subst. reflexivity.
    + intros ->. exists []. split; [constructor|reflexivity].
  - destruct (is_empty (fs_r s)) eqn:Em.
    + apply is_empty_flat in Em. assert (Fb : fbits s = []) by exact Em. rewrite Fb.
      exists []. rewrite app_nil_r. split; auto. intros fs'. split.
      * intros (xs & H & ->). inversion H as [| |? ? ? t i1 d o H1 H2|? ? ? t d rs m fs (i1 & i2 & H1 & _) H2]; subst.
        -- reflexivity.
        -- reflexivity.
        -- exfalso. eapply w_f32_nonempty; eauto.
      * intros ->. exists []. split; [constructor|reflexivity].
    + assert (Ne : fbits s <> []) by (intros E; apply is_empty_flat in E; congruence).
      assert (Ws : fwf Inv s).
      { split; [exact W|]. exists h. split; [exact Hh|now rewrite Vs]. }
      assert (Eh : vs_actors (vis s) = of_hist h) by now rewrite Vs.
      pose proof (facc_frame B HB fuel s Ws L ltac:(lia)) as A.
      destruct (decode_frame B F fuel s) as [[[f|]|x|p] s']; destruct A as (V & Le & A).
      * destruct A as (L' & _ & A).
        assert (P : f_frame (vis s) (fbits s) (Some f) (vis s') (fbits s')) by (apply A; auto).
        apply (f_frame_at h) in P as [(E & _)|(t & d & rs & Hf & E & Ev)]; auto; [discriminate|].
        injection E as E. pose proof (w_frame_ok _ _ _ _ _ _ Hh Hf) as Hh'.
        assert (Fr : fresh (h ++ flat_map record_ops rs) s') by (split; [apply V|split; auto]).
        specialize (IH (f :: acc) s' _ Fr L').
        assert (Q : forall xs, w_frames e (S n) h (fbits s) xs <->
          exists t' d' rs' ys, xs = (t', d', rs') :: ys /\ frame_of t' d' rs' = f /\
            w_frame e h (fbits s) (t', d', rs') (fbits s') /\
            w_frames e n (h ++ flat_map record_ops rs) (fbits s') ys).
        { intros xs. rewrite (w_frames_step h s n xs Hh Vs Ne). split.
          - intros [[[o H] _]|(t' & d' & rs' & m & ys & -> & H1 & H2)].
            + apply A in H as (H & _). discriminate.
            + assert (H : f_frame (vis s) (fbits s) (Some (frame_of t' d' rs'))
                (mkVis (of_hist (h ++ flat_map record_ops rs')) [] [] []) m).
              { apply (f_frame_at h); auto. right. exists t', d', rs'. auto. }
              apply A in H as (H3 & H4 & ->). exists t', d', rs', ys. split; auto. split; [congruence|].
              split; auto. eapply w_frames_ext; [exact H2|]. intros k Hk.
              apply (of_hist_inj F); auto; [eapply w_frame_ok; eauto|]. rewrite Ev in H4. congruence.
          - intros (t' & d' & rs' & ys & -> & H1 & H2 & H3). right.
            exists t', d', rs', (fbits s'), ys. split; auto. split; auto.
            assert (H : f_frame (vis s) (fbits s) (Some (frame_of t' d' rs'))
                (mkVis (of_hist (h ++ flat_map record_ops rs')) [] [] []) (fbits s')).
            { apply (f_frame_at h); auto. right. exists t', d', rs'. auto. }
            apply A in H as (_ & H4 & _).
            eapply w_frames_ext; [exact H3|]. intros k Hk.
            apply (of_hist_inj F); auto; [eapply w_frame_ok; eauto|]. rewrite Ev in H4. congruence. }
        destruct (frames_loop B ho F fuel n (f :: acc) s') as [fs|x|p].
        -- destruct IH as (gs & Eg & IH). exists (f :: gs). cbn [rev] in Eg. rewrite <- app_assoc in Eg.
           split; [exact Eg|]. intros fs'. split.
           ++ intros (xs & H & ->). apply Q in H as (t' & d' & rs' & ys & -> & H1 & H2 & H3).
              cbn [map to_frame]. rewrite H1. f_equal. apply IH. exists ys. auto.
           ++ intros ->. destruct (proj2 (IH gs) eq_refl) as (ys & H1 & ->).
              exists ((t, d, rs) :: ys). split; [|cbn [map to_frame]; congruence].
              apply Q. exists t, d, rs, ys. auto.
        -- intros xs H. apply Q in H as (t' & d' & rs' & ys & -> & _ & _ & H). eapply IH; eauto.
        -- exact IH.
      * destruct A as (L' & _ & A). exists []. rewrite app_nil_r. split; auto. intros fs'. split.
        -- intros (xs & H & ->). apply (w_frames_step h) in H; auto.
           destruct H as [[_ ->]|(t' & d' & rs' & m & ys & -> & H1 & H2)]; [reflexivity|].
           assert (H : f_frame (vis s) (fbits s) (Some (frame_of t' d' rs'))
                (mkVis (of_hist (h ++ flat_map record_ops rs')) [] [] []) m).
           { apply (f_frame_at h); auto. right. exists t', d', rs'. auto. }
           apply A in H as (H & _). discriminate.
        -- intros ->. exists []. split; [|reflexivity]. apply w_frames_step; auto.
           left. split; auto. exists (fbits s').
           assert (P : f_frame (vis s) (fbits s) None (vis s') (fbits s')) by (apply A; auto).
           apply (f_frame_at h) in P as [(_ & Ev & H)|(t & d & rs & _ & E & _)]; auto; [|discriminate].
           apply (f_frame_at h); auto.
      * intros xs H. apply (w_frames_step h) in H; auto.
        destruct H as [[[o H] _]|(t & d & rs & m & ys & _ & H & _)]; [eapply A; eauto|].
        eapply A. apply (f_frame_at h); auto. right. exists t, d, rs. eauto.
      * destruct A.
Qed.

Lemma fresh_start : fresh [] (mkFState (reader_new (fd_network_data F) (repeat x00 1024)) (seg_new 200) [] [] []).
Proof.
  split; [|split; [constructor|reflexivity]]. split; cbn [fs_r lk buf reader_new].
  - simpl. lia.
  - apply repeat_length.
Qed.

Lemma decode_frames_spec B (HB : bitter_ok B) ho :
  match decode_frames B ho F with
  | Ok fs => forall fs', (exists xs, w_frames e (Z.to_nat (fd_frames_len F)) [] (enc_bytes (fd_network_data F)) xs /\
                                     fs' = map to_frame xs) <-> fs' = fs
  | Err _ => forall xs, ~ w_frames e (Z.to_nat (fd_frames_len F)) [] (enc_bytes (fd_network_data F)) xs
  | Panic _ => False
  end.
Proof.
  unfold decode_frames. rewrite enc_bytes_bits.
  pose proof (frames_loop_spec B HB ho (loop_fuel F) (Z.to_nat (fd_frames_len F)) [] _ _ fresh_start) as H.
  unfold fbits, flat in H. cbn [fs_r lk rest reader_new app rev] in H.
  specialize (H ltac:(unfold loop_fuel; rewrite bytes_bits_length; lia)).
  destruct (frames_loop _ _ _ _ _ _ _) as [fs|x|p]; auto. destruct H as (gs & -> & H). exact H.
Qed.

(** ** Independence of the hash order and of the buffering *)

Lemma as_i32_usize k : is_i32 k -> as_i32 (as_usize k) = k.
Proof.
  intros H. rewrite as_usize_i32 by auto. unfold as_i32, to_signed, is_i32 in *.
  destruct (Z.leb_spec 0 k).
  - rewrite Z.mod_small by lia. destruct (Z.ltb_spec k (2 ^ (32 - 1))); lia.
  - replace (k + 2 ^ 64) with (k + 2 ^ 32 + (2 ^ 32 - 1) * 2 ^ 32) by lia. rewrite Z.mod_add by lia.
    rewrite Z.mod_small by lia. destruct (Z.ltb_spec (k + 2 ^ 32) (2 ^ (32 - 1))); lia.
Qed.

Definition keys_ok {V} (s : seg_array V) : Prop :=
  seg_sorted s /\ forall k, In k (map fst (sg_map s)) -> exists j, is_i32 j /\ k = as_usize j.

Lemma map_insert_keys {V} k (v : V) m j : In j (map fst (map_insert k v m)) -> j = k \/ In j (map fst m).
Proof.
  intros H. destruct (Z.eq_dec j k) as [->|N]; auto. right.
  destruct (map_get j m) as [w|] eqn:E.
  - destruct (in_dec Z.eq_dec j (map fst m)) as [Hin|Hn]; auto. apply map_get_none in Hn. congruence.
  - exfalso. assert (map_get j (map_insert k v m) = None); [|now apply map_get_none in H0].
    rewrite map_get_insert. destruct (Z.eqb_spec j k); congruence.
Qed.

Lemma map_remove_keys {V} k (m : amap V) j : In j (map fst (map_remove k m)) -> In j (map fst m).
Proof.
  intros H. destruct (in_dec Z.eq_dec j (map fst m)) as [Hin|Hn]; auto. apply map_get_none in Hn.
  exfalso. assert (map_get j (map_remove k m) = None); [|now apply map_get_none in H0].
  rewrite map_get_remove. destruct (j =? k); auto.
Qed.

Lemma run_op_keys {V} (s : seg_array V) o : is_i32 (op_key o) -> keys_ok s -> keys_ok (run_op s o).
Proof.
  intros Hi [S K]. destruct o as [k v|k]; cbn [run_op op_key] in *.
  - split; [now apply raw_insert_sorted|]. unfold seg_insert, raw_insert.
    destruct (setZ (as_usize k) (Some v) (sg_array s)); cbn [sg_map]; auto.
    intros j Hj. apply map_insert_keys in Hj as [->|Hj]; eauto.
  - split; [now apply raw_delete_sorted|]. unfold seg_delete, raw_delete.
    destruct (getZ (as_usize k) (sg_array s)); cbn [sg_map]; auto.
    intros j Hj. apply map_remove_keys in Hj. auto.
Qed.

Lemma of_hist_keys h : hist_ok h -> keys_ok (of_hist h).
Proof.
  unfold RecordProofs.of_hist. assert (G : keys_ok (@seg_new (Z * cache_info) 200)).
  { split; [exact Logic.I|]. intros k []. }
  revert G. generalize (@seg_new (Z * cache_info) 200). induction h as [|o h IH]; intros s G H; cbn [map fold_left]; auto.
  inversion H as [|? ? [H1 _] H2]; subst. apply IH; auto. apply run_op_keys; auto. destruct o; exact H1.
Qed.

Lemma context_same ho1 ho2 (Ho1 : hash_order_ok ho1) (Ho2 : hash_order_ok ho2) fs s1 s2 :
  Inv (vis s1) -> vis s1 = vis s2 -> frame_context_of ho1 F fs s1 = frame_context_of ho2 F fs s2.
Proof.
  intros (h & Hh & Eh) Vs. unfold vis in Vs. injection Vs as E1 E2 E3 E4.
  unfold frame_context_of. rewrite <- E1, <- E2, <- E4. f_equal. rewrite !map_extend_app.
  assert (K : keys_ok (fs_actors s1)) by (cbn in Eh; rewrite Eh; now apply of_hist_keys).
  destruct K as [S K]. set (f := fun kv : Z * (Z * cache_info) => (as_i32 (fst kv), fst (snd kv))).
  assert (N : NoDup (map fst (map f (sg_map (fs_actors s1))))).
  { rewrite map_map. cbn [f fst]. apply sorted_nodup in S. revert S K.
    generalize (sg_map (fs_actors s1)). intros l. induction l as [|[k v] l IH]; intros S K; cbn [map]; [constructor|].
    inversion S as [|? ? S1 S2]; subst. constructor.
    - intros Hin. apply in_map_iff in Hin as ([k' v'] & E & Hin). cbn [fst] in *.
      destruct (K k) as (j & Hj & ->); [simpl; auto|].
      assert (Hin' : In k' (map fst l)) by (apply in_map_iff; exists (k', v'); auto).
      destruct (K k') as (j' & Hj' & ->); [simpl; auto|].
      rewrite !as_i32_usize in E by auto. subst. auto.
    - apply IH; auto. intros j Hj. apply K. simpl; auto. }
  assert (Sx : forall l : list (Z * Z), sorted (map_extend [] l)) by (intros; apply sorted_extend; exact Logic.I).
  transitivity (map_extend (map_extend [] (array_actors 0 (sg_array (fs_actors s1)))) (map f (sg_map (fs_actors s1)))).
  - apply extend_perm; auto. apply Permutation_map, Ho1.
  - symmetry. apply extend_perm; auto. apply Permutation_map, Ho2.
Qed.

Lemma frames_loop_same B1 B2 (H1 : bitter_ok B1) (H2 : bitter_ok B2)
  ho1 ho2 (Ho1 : hash_order_ok ho1) (Ho2 : hash_order_ok ho2) fuel : forall n acc s1 s2,
  fwf Inv s1 -> fwf Inv s2 -> fbits s1 = fbits s2 -> vis s1 = vis s2 -> (length (fbits s1) < fuel)%nat ->
  frames_loop B1 ho1 F fuel n acc s1 = frames_loop B2 ho2 F fuel n acc s2.
Proof.
  induction n as [|n IH]; intros acc s1 s2 W1 W2 Fb Vs L; cbn [frames_loop]; auto.
  assert (Em : is_empty (fs_r s1) = is_empty (fs_r s2)).
  { apply eq_true_iff_eq. rewrite !is_empty_flat. unfold fbits in Fb. now rewrite Fb. }
  rewrite <- Em. destruct (is_empty (fs_r s1)); auto.
  destruct (fsame_frame B1 B2 H1 H2 fuel s1 s2 W1 W2 Fb Vs L) as (o & t1 & t2 & -> & -> & V1 & V2 & Vt & G); try lia.
  destruct o as [[f|]|x|p]; auto.
  - destruct G as (G1 & G2 & _). auto.
  - do 2 f_equal. apply context_same; auto. apply V1.
Qed.

Lemma decode_frames_same B1 B2 (H1 : bitter_ok B1) (H2 : bitter_ok B2)
  ho1 ho2 (Ho1 : hash_order_ok ho1) (Ho2 : hash_order_ok ho2) :
  decode_frames B1 ho1 F = decode_frames B2 ho2 F.
Proof.
  unfold decode_frames. destruct fresh_start as (W & Hh & Vs).
  apply frames_loop_same; auto.
  - split; [exact W|]. exists []. auto.
  - split; [exact W|]. exists []. auto.
  - unfold fbits, flat. cbn [fs_r lk rest reader_new app]. unfold loop_fuel. rewrite bytes_bits_length. lia.
Qed.

End Decoder.
