(** * Proofs: whole files with network data *)

From Coq Require Import ZArith List Bool Lia ZifyBool ZifyNat.
From Verif Require Import Base F32 NetTypes Errors Core Header Body BitReader ObjectIndex Network Parser BitLemmas ReaderLogic
  SpecBasic BasicProofs CacheProofs SpecFrames NetworkProofs SpecCrc SpecFile SpecReplay FileProofs FileFacts.
Open Scope Z_scope.

(** ** Sections that were parsed *)

Lemma props_ints q i ps o : f_props q i ps o -> forall k x, In (k, HInt x) ps -> is_i32 x.
Proof.
  apply (f_props_m q
    (fun _ ps _ => forall k x, In (k, HInt x) ps -> is_i32 x)
    (fun _ _ v _ => forall x, v = HInt x -> is_i32 x)
    (fun _ _ _ _ => True)); try (intros; discriminate); auto.
  - intros ? ? _ ? ? [].
  - intros ? key ? ? ? ? ? v ? rest ? _ _ _ _ _ Hv _ Hr k x [E|Hin]; [|eauto].
    injection E as _ ->. auto.
  - intros ? x ? (l & _ & R & _) y [= <-]. unfold is_i32. lia.
Qed.

Lemma f_i32_range i x o : f_i32 i x o -> is_i32 x.
Proof. intros (l & _ & R & _). unfold is_i32. lia. Qed.

Lemma file_ready data h b rest : f_file data (h, b) rest -> net_ready (sec_value h) (sec_value b).
Proof.
  intros F. pose proof (file_small _ _ _ _ None F) as S. unfold small_lists, replay_of in S. cbn in S.
  destruct F as (h' & m & (hs & hc & hcov & hm & hv & _ & Hh & Eh) & b' & m' & (bs & bc & bcov & bm & bv & _ & Hb & Eb) & E & _).
  injection E as -> ->. subst h' b'. cbn [sec_value] in *.
  destruct Hh as (maj & m1 & _ & min & m2 & _ & net & m3 & _ & gt & m4 & _ & ps & m5 & Hp & -> & _).
  destruct Hb as (lv & n1 & H1 & kf & n2 & H2 & nw & n3 & H3 & db & n4 & H4 & tk & n5 & H5 & pk & n6 & H6 &
                  ob & n7 & H7 & nm & n8 & H8 & cl & n9 & H9 & nc & n10 & H10 & -> & _).
  split; cbn.
  - apply small_list in H7. unfold small in H7. unfold lenZ. lia.
  - destruct H3 as (n & k & Hn & H3). apply f_i32_range in Hn. unfold is_i32 in Hn.
    destruct (Z.ltb_spec n 0); [destruct H3|]. destruct H3 as [H3 _]. unfold lenZ. lia.
  - unfold net_cache_ok. eapply list_Forall; [|exact H10].
    intros i a o' (x & ? & _ & y & ? & _ & z & ? & _ & ps' & ? & Hps & -> & _). cbn.
    eapply list_Forall; [|exact Hps]. intros i' p o2 (u & ? & Hu & w & ? & Hw & -> & _). cbn.
    split; eapply f_i32_range; eauto.
  - intros n. unfold num_frames. cbn [h_properties]. destruct (find_prop "NumFrames" ps) as [p|] eqn:E; [|discriminate].
    cbn [opt_bind]. destruct p; try discriminate. intros [= <-].
    apply find_prop_first in E as (bf & af & -> & _). eapply props_ints; [exact Hp|].
    apply in_or_app. right. left. reflexivity.
Qed.

Section Files.
Context (B : bitter) (HB : bitter_ok B) (ho : hash_order) (Hho : hash_order_ok ho).
Notation parse := (parse_with B ho).

(** ** No panic *)

Lemma network_no_panic h b p : net_ready h b -> network_parse_frames B ho h b <> Panic p.
Proof. intros R E. pose proof (network_spec B HB ho Hho h b R) as H. rewrite E in H. exact H. Qed.

Lemma parse_total c n data : lenZ data < 2 ^ 31 ->
  (exists r, parse c n data = Ok r) \/ exists e, parse c n data = Err e.
Proof.
  intros L. destruct (fate_of B ho data L) as
    [e0 G ND E|size crc cov m e0 G D U NP E|size crc cov m h o e0 G D U PH UH ND E
    |size crc cov m h o bsize bcrc bcov bm e0 G D U PH UH D' U' NP E
    |size crc cov m h o bsize bcrc bcov bm b o' D U PH UH D' U' PB UB E]; rewrite E; eauto.
  - unfold verdict. destruct (crc =? _); [eauto|]. destruct c; eauto.
  - destruct (mismatch c crc cov); eauto.
  - destruct (mismatch c crc cov); eauto. unfold verdict. destruct (bcrc =? _); [eauto|]. destruct c; eauto.
  - destruct (mismatch c crc cov); [eauto|]. destruct (mismatch c bcrc bcov); [eauto|].
    assert (R : net_ready h b).
    { assert (F : f_file data (mkSection size crc cov h, mkSection bsize bcrc bcov b) o').
      { exists (mkSection size crc cov h), o. split; [unfold f_section; eauto 12|].
        exists (mkSection bsize bcrc bcov b), o'. split; [unfold f_section; eauto 12|]. split; reflexivity. }
      exact (file_ready _ _ _ _ F). }
    unfold net_result. destruct n; cbn [out_map]; eauto;
      destruct (network_parse_frames B ho h b) as [fs|e|p] eqn:En; cbn [out_map]; eauto;
      exfalso; eapply network_no_panic; eauto.
Qed.

(** ** Network policies *)

Lemma net_policies data c : lenZ data < 2 ^ 31 ->
  (exists e, ~ is_network_error e /\ forall n, parse c n data = Err e) \/
  (exists r, r_network_frames r = None /\ parse c NetNever data = Ok r /\
     ((exists fs, forall n, n <> NetNever -> parse c n data = Ok (with_frames (Some fs) r)) \/
      (exists e, parse c NetIgnoreOnError data = Ok r /\ parse c NetAlways data = Err (ENetworkError e)))).
Proof.
  intros L.
  assert (NE : forall e, good_error data e -> ~ is_network_error e).
  { intros e (s & _ & H) (x & ->). exact H. }
  assert (NV : forall crc cov w e, good_error data e -> exists e', ~ is_network_error e' /\
    forall A, @verdict A c crc cov w (Err e) = Err e').
  { intros crc cov w e G. unfold verdict. destruct (crc =? _); [eauto|].
    destruct c; eauto; eexists; (split; [|reflexivity]); intros (x & Q); discriminate. }
  destruct (fate_of B ho data L) as
    [e0 G ND E|size crc cov m e0 G D U NP E|size crc cov m h o e0 G D U PH UH ND E
    |size crc cov m h o bsize bcrc bcov bm e0 G D U PH UH D' U' NP E
    |size crc cov m h o bsize bcrc bcov bm b o' D U PH UH D' U' PB UB E].
  - left. exists e0. split; auto.
  - left. destruct (NV crc cov "header"%string e0 G) as (e & N & V). exists e. split; auto.
    intros n. rewrite E. apply V.
  - left. destruct (mismatch c crc cov) eqn:M.
    + eexists. split; [|intros n; rewrite E, M; reflexivity]. intros (x & Q); discriminate.
    + exists e0. split; auto. intros n. rewrite E, M. reflexivity.
  - left. destruct (mismatch c crc cov) eqn:M.
    + eexists. split; [|intros n; rewrite E, M; reflexivity]. intros (x & Q); discriminate.
    + destruct (NV bcrc bcov "body"%string e0 G) as (e & N & V). exists e. split; auto.
      intros n. rewrite E, M. apply V.
  - destruct (mismatch c crc cov) eqn:M1.
    { left. eexists. split; [|intros n; rewrite E, M1; reflexivity]. intros (x & Q); discriminate. }
    destruct (mismatch c bcrc bcov) eqn:M2.
    { left. eexists. split; [|intros n; rewrite E, M1, M2; reflexivity]. intros (x & Q); discriminate. }
    right. exists (replay_of (mkSection size crc cov h) (mkSection bsize bcrc bcov b) None).
    split; [reflexivity|]. split; [rewrite E, M1, M2; reflexivity|].
    assert (R : net_ready h b).
    { assert (F : f_file data (mkSection size crc cov h, mkSection bsize bcrc bcov b) o').
      { exists (mkSection size crc cov h), o. split; [unfold f_section; eauto 12|].
        exists (mkSection bsize bcrc bcov b), o'. split; [unfold f_section; eauto 12|]. split; reflexivity. }
      exact (file_ready _ _ _ _ F). }
    destruct (network_parse_frames B ho h b) as [fs|e|p] eqn:En.
    + left. exists fs. intros n Hn. rewrite E, M1, M2. destruct n; try reflexivity. congruence.
    + right. exists e. rewrite !E, M1, M2. split; reflexivity.
    + exfalso. eapply network_no_panic; eauto.
Qed.

(** ** The frames of a file *)

Lemma parse_frames data h b rest fs : lenZ data < 2 ^ 31 -> f_file data (h, b) rest ->
  (parse CrcNever NetAlways data = Ok (replay_of h b (Some fs)) <->
   exists xs, frames_of (sec_value h) (sec_value b) xs /\ fs = map to_frame xs).
Proof.
  intros L F. rewrite (fate_file B ho _ _ _ _ L F). cbn [mismatch].
  pose proof (network_spec B HB ho Hho _ _ (file_ready _ _ _ _ F)) as H.
  destruct (network_parse_frames B ho (sec_value h) (sec_value b)) as [gs|e|p]; cbn [net_result out_map].
  - rewrite H. split; [intros E; injection E; auto|intros ->; reflexivity].
  - split; [discriminate|]. intros (xs & Hx & _). destruct (H _ Hx).
  - destruct H.
Qed.

(** what an accepted file consists of *)
Lemma parse_frames_inv c n data r fs : lenZ data < 2 ^ 31 -> parse c n data = Ok r -> r_network_frames r = Some fs ->
  exists h b rest xs, f_file data (h, b) rest /\ r = replay_of h b (Some fs) /\
    frames_of (sec_value h) (sec_value b) xs /\ fs = map to_frame xs.
Proof.
  intros L E Ef. destruct (parse_ok_file B ho _ _ _ _ L E) as (h & b & rest & F & Er). rewrite Ef in Er.
  rewrite (fate_file B ho _ _ _ _ L F) in E.
  destruct (mismatch c (sec_crc h) (sec_bytes h)); [discriminate|].
  destruct (mismatch c (sec_crc b) (sec_bytes b)); [discriminate|].
  pose proof (network_spec B HB ho Hho _ _ (file_ready _ _ _ _ F)) as H.
  assert (Q : network_parse_frames B ho (sec_value h) (sec_value b) = Ok fs).
  { destruct n, (network_parse_frames B ho (sec_value h) (sec_value b)); cbn [net_result out_map] in E; try discriminate E;
      injection E as <-; cbn [r_network_frames replay_of] in Ef; congruence. }
  rewrite Q in H. destruct (proj2 (H fs) eq_refl) as (xs & Hx & Hm). exists h, b, rest, xs. auto.
Qed.

End Files.

(** ** Determinism *)

Lemma parse_same B1 B2 (H1 : bitter_ok B1) (H2 : bitter_ok B2)
  ho1 ho2 (Ho1 : hash_order_ok ho1) (Ho2 : hash_order_ok ho2) c n data : lenZ data < 2 ^ 31 ->
  parse_with B1 ho1 c n data = parse_with B2 ho2 c n data.
Proof.
  intros L.
  assert (Q : (exists e, parse_with B1 ho1 c n data = e /\ parse_with B2 ho2 c n data = e) \/
              exists r, parse_with B1 ho1 c NetNever data = Ok r).
  { rewrite !parse_with_eq, !parse_replay_sections. unfold bind at 1 4 7.
    destruct (header_sect c (core_new data)) as [[h|e|p] s1]; [|left; eauto..]. unfold bind at 1 3 5.
    destruct (body_sect c s1) as [[b|e|p] s2]; [|left; eauto..].
    right. eexists. reflexivity. }
  destruct Q as [(e & -> & ->)|(r & E)]; [reflexivity|].
  destruct (parse_ok_file B1 ho1 _ _ _ _ L E) as (h & b & rest & F & _).
  rewrite (fate_file B1 ho1 _ _ _ _ L F), (fate_file B2 ho2 _ _ _ _ L F).
  rewrite (network_same B1 B2 H1 H2 ho1 ho2 Ho1 Ho2 _ _ (file_ready _ _ _ _ F)). reflexivity.
Qed.

(** ** The grammar is unambiguous *)

Lemma frames_unique h b xs ys : net_ready h b -> frames_of h b xs -> frames_of h b ys ->
  map to_frame xs = map to_frame ys.
Proof.
  intros R Hx Hy. pose proof (network_spec std_bitter std_bitter_ok (fun V m => m)
    (fun V m => Permutation.Permutation_refl m) h b R) as H.
  destruct (network_parse_frames _ _ h b) as [fs|e|p].
  - transitivity fs; [|symmetry]; apply H; eauto.
  - destruct (H _ Hx).
  - destruct H.
Qed.
