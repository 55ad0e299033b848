(** * Proofs: the error of the specification is the one that is reported *)

From Coq Require Import ZArith List Bool Lia ZifyBool ZifyNat.
From Verif Require Import Base F32 NetTypes SegArray Errors Core Header Body BitReader NetModels Attributes Data ObjectIndex
  FrameDecoder Network Parser BitLemmas Wire ReaderLogic SpecBasic BasicProofs HierarchyProofs MapProofs SpecNet TableProofs CacheProofs SpecFrames
  FrameProofs RecordProofs StreamProofs NetworkProofs SpecCrc SpecFile SpecReplay FileProofs FileFacts ParseProofs FrameFacts SpecErrors ErrorProofs
  ErrorFacts ErrorUnique.
Open Scope Z_scope.
#[local] Opaque PARENT_CLASSES SPAWN_STATS ATTRIBUTES.

Definition bad_stream (h : header) (b : body) (s o : Z) : Prop := network_fails h b (NStreamTooLargeIndex s o).

Lemma bad_stream_first h b s o : bad_stream h b s o ->
  exists p, first_bad (b_objects b) (flat_map nc_properties (b_net_cache b)) p /\ s = cp_stream_id p /\ o = cp_object_ind p.
Proof.
  intros (bf & p & af & E & -> & -> & N & A). exists p. split; auto. exists bf, af. split; auto. split.
  - apply Forall_forall. intros q Hq. apply (A q Hq).
  - intros [name Hn]. apply (N name Hn).
Qed.

Lemma bad_stream_range h b s o : bad_stream h b s o -> ~ props_in_range (b_objects b) (b_net_cache b).
Proof.
  intros (bf & p & af & E & -> & -> & N & A) H. destruct (H p) as [name Hn]; [|apply (N name Hn)].
  rewrite E. apply in_or_app. right. now left.
Qed.

Lemma entry_num_fun h x y : first_entry (lit "NumFrames") (h_properties h) (HInt x) ->
  first_entry (lit "NumFrames") (h_properties h) (HInt y) -> x = y.
Proof. intros H1 H2. apply num_frames_entry in H1, H2. congruence. Qed.

Lemma network_fails_fun h b x y : net_ready h b -> network_fails h b x -> network_fails h b y -> same_error x y.
Proof.
  intros [L Ld CI NF] Hx Hy.
  destruct x as [w|id|s o|ob pa|pa ob|fx cx|n]; try destruct Hx; destruct y as [w'|id'|s' o'|ob' pa'|pa' ob'|fy cy|n']; try destruct Hy.
  - pose proof (bad_stream_first h b s o ltac:(eexists; eassumption)) as (p & Hp & -> & ->).
    pose proof (bad_stream_first h b s' o' ltac:(eexists; eassumption)) as (p' & Hp' & -> & ->).
    rewrite (first_bad_fun _ _ _ _ Hp Hp'). reflexivity.
  - exfalso. apply (bad_stream_range h b s o); auto. eexists; eassumption.
  - exfalso. apply (bad_stream_range h b s o); auto. eexists; eassumption.
  - exfalso. apply (bad_stream_range h b s' o'); auto. eexists; eassumption.
  - destruct H0 as (n & e & E & R & He & Hf), H2 as (n' & e' & E' & R' & He' & Hf').
    rewrite (entry_num_fun _ _ _ E' E) in *. apply env_of_spec in He, He'; auto. subst e e'.
    apply (frames_fail_fun (the_env h b) L _ _ _ _ _ _ Hf Hf').
  - destruct H0 as (n0 & e & E & R & _), H2 as (E' & R'). rewrite (entry_num_fun _ _ _ E' E) in *. lia.
  - exfalso. apply (bad_stream_range h b s' o'); auto. eexists; eassumption.
  - destruct H2 as (n0 & e & E & R & _), H0 as (E' & R'). rewrite (entry_num_fun _ _ _ E' E) in *. lia.
  - destruct H0 as (E & _), H2 as (E' & _). rewrite (entry_num_fun _ _ _ E' E). reflexivity.
Qed.

Lemma network_fails_none h b x fs : net_ready h b -> network_fails h b x -> ~ frames_of h b fs.
Proof.
  intros [L Ld CI NF] Hx (P & count & Hc & H).
  assert (CE : forall n, first_entry (lit "NumFrames") (h_properties h) (HInt n) -> int_of count = Some n).
  { intros n Hn. apply num_frames_entry in Hn. apply entry_find in Hc. subst count. now rewrite int_of_find. }
  destruct x as [w|id|s o|ob pa|pa ob|fx cx|n]; try destruct Hx.
  - apply (bad_stream_range h b s o); auto. eexists; eassumption.
  - destruct H1 as (n & e & E & R & He & Hf). rewrite (CE _ E) in H. destruct H as (_ & e' & He' & Hw).
    apply env_of_spec in He, He'; auto. subst e e'. apply (frames_fail_none (the_env h b) L _ _ _ _ _ Hf Hw).
  - destruct H1 as [E R]. rewrite (CE _ E) in H. destruct H as [R' _]. auto.
Qed.

Lemma network_complete B (HB : bitter_ok B) ho (Hho : hash_order_ok ho) data h b rest x : lenZ data < 2 ^ 31 ->
  f_file data (h, b) rest -> network_fails (sec_value h) (sec_value b) x ->
  exists y, parse_with B ho CrcNever NetAlways data = Err (ENetworkError y) /\ same_error x y.
Proof.
  intros L F Hx. pose proof (file_ready _ _ _ _ F) as R.
  rewrite (fate_file B ho _ _ _ _ L F). cbn [mismatch].
  pose proof (network_spec B HB ho Hho _ _ R) as N.
  destruct (network_parse_frames B ho (sec_value h) (sec_value b)) as [fs|y|p] eqn:E; cbn [net_result out_map].
  - exfalso. destruct (proj2 (N fs) eq_refl) as (xs & Hf & _). eapply network_fails_none; eauto.
  - exists y. split; auto. apply (network_err B HB ho Hho) in E; auto. eapply network_fails_fun; eauto.
  - destruct N.
Qed.
