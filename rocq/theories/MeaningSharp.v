(** * Proofs: net caches with different meanings are told apart *)

From Coq Require Import ZArith List Bool String Lia Permutation.
From Verif Require Import Base Text NetTypes NetModels Errors Data Core Header Body BitReader Attributes ObjectIndex FrameDecoder Network Parser
  BitLemmas Wire SpecBasic SpecNet SpecFile SpecReplay SpecReader SpecWrite SpecFrames SpecTail SpecRange SpecSize SpecFacts SpecMeaning
  BasicProofs MapProofs HierarchyProofs TableProofs TableFacts CacheProofs NetworkProofs ParseProofs WriteProofs FrameFacts RangeProofs SendProofs EraProofs EraSharp NamesSharp Samples.
Import ListNotations.
Open Scope Z_scope.

(** ** A value of every kind *)

Definition zeros := reader_new (repeat x00 200) (repeat x00 1024).

Lemma zeros_ok : reader_ok zeros.
Proof. split; cbn [lk buf reader_new zeros]; [simpl; lia|apply repeat_length]. Qed.

Definition good_value (a : attribute) : bool :=
  match a with
  | ARigidBody r => match rb_linear_velocity r, rb_angular_velocity r with Some _, Some _ => true | _, _ => false end
  | _ => true
  end && (attribute_size a <=? 100).
Lemma good_whole a : good_value a = true -> not_cut_off a /\ attribute_size a <= 100.
Proof.
  unfold good_value. intros H. apply andb_prop in H as [H1 H2]. split; [|now apply Z.leb_le].
  destruct a; try exact I. cbn [not_cut_off]. destruct (rb_linear_velocity _), (rb_angular_velocity _); try discriminate. split; discriminate.
Qed.

Lemma some_value pd tag : tag <> TNotImplemented -> exists a,
  attribute_range (mkAttrDecoder (mkVersion 868 20 10) pd false) tag a /\ not_cut_off a /\ attribute_size a <= 100.
Proof.
  intros N.
  assert (Q : match fst (decode_attribute std_bitter (mkAttrDecoder (mkVersion 868 20 10) pd false) tag zeros) with
              | Ok a => good_value a = true | _ => False end).
  { destruct tag; try (now destruct N); vm_compute; reflexivity. }
  destruct (decode_attribute _ _ _ _) as [[a|e|q] r'] eqn:E; cbn [fst] in Q; try contradiction.
  exists a. split; [|now apply good_whole]. apply (decoded_range std_bitter _ _ _ _ _ std_bitter_ok zeros_ok E).
Qed.

(** ** A frame with a value of a given stream id *)

Lemma bound_above objects caches name m s p : stream_bound objects caches name m -> resolves objects caches name s p ->
  s < 2 ^ 31 - 1 -> s < m.
Proof. intros [[N _]|(s' & p' & _ & M & ->)] H L; [now destruct (N _ _ H)|]. apply M in H. lia. Qed.

Definition trajectory_zero (sp : spawn_trajectory) : trajectory :=
  match sp with
  | SpNone => mkTraj None None
  | SpLocation => mkTraj (Some (mkV3i 0 0 0)) None
  | SpLocationAndRotation => mkTraj (Some (mkV3i 0 0 0)) (Some (mkRot None None None))
  end.
Lemma trajectory_fits sp net : trajectory_range sp net (trajectory_zero sp).
Proof.
  assert (C : component_range net 0) by (unfold component_range, signed; destruct (net <? 7); lia).
  destruct sp; cbn; unfold vec3i_range, rotation_range; cbn; auto.
Qed.

Lemma header_len : lenZ (write_header n_header) < 1000.
Proof. apply Z.ltb_lt. vm_compute. reflexivity. Qed.

Theorem meaning_told b b' id name s p pname tag : body_ok b -> body_ok b' -> b_objects b' = b_objects b ->
  lenZ (write_body b) < 2 ^ 30 -> lenZ (write_body b') < 2 ^ 30 ->
  props_in_range (b_objects b) (b_net_cache b) ->
  spawnable (b_objects b) id name -> 0 <= s < 2 ^ 31 - 1 ->
  resolves (b_objects b) (b_net_cache b) name s p -> ~ resolves (b_objects b) (b_net_cache b') name s p ->
  object_at (b_objects b) (cp_object_ind p) pname -> kind_of pname tag -> tag <> TNotImplemented ->
  exists h l r, forall B ho, bitter_ok B -> hash_order_ok ho ->
    parse_with B ho CrcAlways NetAlways (write_file h (with_network l b)) = Ok r /\
    forall r', parse_with B ho CrcAlways NetAlways (write_file h (with_network l b')) = Ok r' ->
      r_network_frames r' <> r_network_frames r.
Proof.
  intros Bo Bo' Eo Lb Lb' R Sp Ls Rs N Op K T.
  assert (Hh : header_ok n_header) by (apply plain_header_ok; reflexivity).
  assert (Lo : lenZ (b_objects b) <= 2 ^ 31).
  { destruct Bo as (_ & _ & _ & _ & _ & (Lo & _) & _). unfold lenZ, count in *. lia. }
  assert (FL : forall l c, lenZ (write_file n_header (with_network l c)) < 2000 + lenZ (write_body c) + lenZ l).
  { intros l c. pose proof header_len as H1. pose proof (write_network l c) as H2. pose proof (write_network (b_network_data c) c) as H3.
    assert (E3 : with_network (b_network_data c) c = c) by (destruct c; reflexivity). rewrite E3 in H3.
    unfold lenZ, write_file in *. rewrite app_length, !write_section_length. lia. }
  assert (CI : net_cache_ok (b_net_cache b)).
  { assert (LL : lenZ (write_file n_header (with_network [] b)) < 2 ^ 31) by (specialize (FL [] b); change (lenZ []) with 0 in FL; lia).
    destruct (file_ready _ _ _ _ (read_file _ _ Hh (body_network [] b Bo) LL)) as [_ _ C _]. exact C. }
  destruct (spawn_table _ Lo) as (v & Ev & V). destruct (compute_spawns_ok _ Lo) as (w & Ew & _ & _ & _ & W).
  assert (w = v) as -> by congruence. destruct (W _ _ Sp) as [sp Es]. apply (V _ _ _ Sp) in Es. clear v Ev Ew V W.
  assert (Bd : exists m, stream_bound (b_objects b) (b_net_cache b) name m /\ s < m).
  { destruct (spawnable_cache_at _ Lo (b_net_cache b) _ _ Sp) as [ci C].
    destruct (cache_at_for _ Lo _ CI _ _ C) as (name' & Sp' & _ & m & M & _).
    assert (name' = name) as -> by (apply spawnable_at in Sp', Sp; destruct Sp' as [_ Q1], Sp as [_ Q2]; congruence).
    exists m. split; [exact M|]. apply (bound_above _ _ _ _ _ _ M Rs). lia. }
  destruct Bd as (m & M & Lm).
  pose proof (proj2 (env_of_spec n_header b _ Lo) eq_refl) as He.
  assert (Ee : exists pd, the_env n_header b = {| e_max_channels := 1023; e_names := true; e_objects := b_objects b; e_caches := b_net_cache b;
    e_attr := mkAttrDecoder (mkVersion 868 20 10) pd false |}).
  { exists (product_decoder_create (mkVersion 868 20 10) (object_index_new (b_objects b))). unfold the_env.
    replace (max_channels_of n_header) with 1023 by (vm_compute; reflexivity).
    replace (version_of n_header) with (mkVersion 868 20 10) by (vm_compute; reflexivity).
    replace (is_rl_223_of n_header) with false by (vm_compute; reflexivity). reflexivity. }
  destruct Ee as [pd Ee]. rewrite Ee in He. set (e := mkEnv _ _ _ _ _) in He.
  destruct (some_value pd tag T) as (a & Ra & Wa & Sa).
  set (nw := mkNew 0 (Some 0) id (trajectory_zero sp)).
  set (u := mkUpdated 0 s (cp_object_ind p) a).
  set (fs := [(1065353216, 1065353216, [RNew nw; RUpdate 0 [u]])]).
  assert (Ai : actor_range e 0) by (exists 0; split; [cbn; lia|reflexivity]).
  assert (Fi : 0 <= id < lenZ (b_objects b)) by (destruct Sp as [Sp _]; apply first_index_range in Sp; exact Sp).
  assert (FR : frames_range e [] fs).
  { cbn [fs frames_range]. split; [unfold unsigned; lia|]. split; [unfold unsigned; lia|].
    split; [unfold time_ok; lia|]. split; [unfold time_ok; lia|]. split; [unfold time_zero; lia|]. split; [|exact I].
    cbn [records_range record_range]. split; [|split; [|exact I]].
    - split; [exact Ai|]. split; [split; [reflexivity|unfold signed; lia]|]. split; [cbn [nw n_object_id]; unfold signed; lia|].
      exists name, sp. split; [exact Sp|]. split; [exact Es|]. apply trajectory_fits.
    - split; [exact Ai|]. exists id, name. split; [reflexivity|]. split; [exact Sp|]. constructor; [|constructor].
      split; [reflexivity|]. exists m, p, pname, tag. cbn [u u_stream_id u_object_id u_attribute e e_objects e_caches e_attr].
      split; [exact M|]. split; [lia|]. auto. }
  assert (FB : SpecRange.frames_bits fs <= 12000).
  { cbn -[Z.mul Z.add]. lia. }
  destruct (frames_sent std_bitter std_bitter_ok key_order (fun V x => Permutation_refl x) n_header b e fs CrcAlways Hh Bo He R) as (l & Ll & E).
  { eexists. split; [now apply entry_find|]. vm_compute. reflexivity. }
  { exact FR. }
  { intros f [<-|[]] y Hy. cbn in Hy. destruct Hy as [<-|[]]. exact Wa. }
  { specialize (FL [] b). cbn [lenZ length] in FL. change (lenZ []) with 0 in FL. lia. }
  cbv zeta in E. pose proof (FL l b) as L1. pose proof (FL l b') as L2.
  exists n_header, l. eexists. intros B ho HB Hho. split.
  { rewrite (parse_same B std_bitter HB std_bitter_ok ho key_order Hho (fun V x => Permutation_refl x)) by lia. exact E. }
  intros r' E' Ef. cbn [replay_of r_network_frames] in Ef.
  assert (L' : lenZ (write_file n_header (with_network l b')) < 2 ^ 31) by lia.
  assert (Eb : r_objects r' = b_objects b /\ r_net_cache r' = b_net_cache b').
  { rewrite parse_written in E' by (assumption || lia). destruct (FileProofs.net_result _ _) in E'; [|discriminate..].
    injection E' as <-. split; [exact Eo|reflexivity]. }
  destruct Eb as [Eb1 Eb2].
  destruct (updates_announced B HB ho Hho _ _ _ _ _ L' E' Ef [] (frame_of 1065353216 1065353216 [RNew nw; RUpdate 0 [u]]) [] u eq_refl) as
    (nw' & cls & p' & _ & _ & An & Oa & Rp & Ep & _).
  { now left. }
  rewrite Eb1, Eb2 in *. destruct An as [[[<-|[]] _]|(x & y & X & _)]; [|destruct x; discriminate X].
  apply spawnable_at in Sp. assert (cls = name) as -> by (destruct Oa as [_ Q1], Sp as [_ Q2]; cbn [nw n_object_id] in Q1; congruence).
  apply N. cbn [u u_object_id u_stream_id] in Ep, Rp. enough (p' = p) as -> by exact Rp.
  assert (St : forall c n0 s0 q, resolves (b_objects b) c n0 s0 q -> cp_stream_id q = s0).
  { intros c n0 s0 q (ids & _ & b0 & x & a0 & _ & (b1 & a1 & _ & Q & _) & _). exact Q. }
  apply St in Rp, Rs. clear - Ep Rp Rs. destruct p, p'. cbn in *. congruence.
Qed.
