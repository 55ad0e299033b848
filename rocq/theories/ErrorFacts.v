(** * Proofs: the network errors of whole files *)

From Coq Require Import ZArith List Bool Lia ZifyBool ZifyNat.
From Verif Require Import Base F32 NetTypes SegArray Errors Core Header Body BitReader NetModels Attributes Data ObjectIndex
  FrameDecoder Network Parser BitLemmas Wire ReaderLogic SpecBasic BasicProofs HierarchyProofs MapProofs SpecNet TableProofs CacheProofs SpecFrames
  FrameProofs RecordProofs StreamProofs NetworkProofs SpecCrc SpecFile SpecReplay FileProofs FileFacts ParseProofs FrameFacts SpecErrors ErrorProofs.
Open Scope Z_scope.
#[local] Opaque PARENT_CLASSES SPAWN_STATS ATTRIBUTES.

Lemma num_frames_entry h n : num_frames h = Some n <-> first_entry (lit "NumFrames") (h_properties h) (HInt n).
Proof.
  unfold num_frames. split.
  - destruct (find_prop "NumFrames" (h_properties h)) as [p|] eqn:E; [|discriminate]. cbn [opt_bind].
    destruct p; try discriminate. cbn [prop_as_i32]. intros [= <-]. now apply find_prop_first.
  - intros H. apply find_prop_first in H. rewrite H. reflexivity.
Qed.

(** the trajectory of every object, also of those that cannot be spawned *)
Lemma spawn_cell objects v obj cls : lenZ objects <= 2 ^ 31 -> is_i32 obj ->
  compute_spawns (object_index_new objects) objects = Ok v -> object_at objects obj cls ->
  spawn_of objects obj cls (match getZ (as_usize obj) v with Some (Some t) => t | _ => SpNone end).
Proof.
  intros L Hi Es Ho. destruct (compute_spawns_ok objects L) as (v' & E & Lv & Ck & Sd & Sp).
  rewrite Es in E. injection E as <-.
  assert (R : 0 <= obj < lenZ objects).
  { destruct Ho as [H0 Ho]. split; auto. assert (nth_error objects (Z.to_nat obj) <> None) by congruence.
    apply nth_error_Some in H. unfold lenZ. lia. }
  rewrite (index_usize objects L) by auto.
  assert (D : first_index objects cls obj \/ ~ first_index objects cls obj).
  { destruct (by_name (object_index_new objects) cls) as [i|] eqn:B.
    - destruct (Z.eq_dec i obj) as [->|N]; [left; now apply by_name_spec|].
      right. intros H. apply by_name_spec in H; auto. congruence.
    - right. intros H. apply by_name_spec in H; auto. congruence. }
  destruct D as [Hf|Nf]; [left|right].
  2: { split; auto. destruct (getZ obj v) as [[t|]|] eqn:G; auto. exfalso.
       assert (Q : exists n, first_index objects n obj) by (destruct (Ck _ _ G) as [(n & F & _)|(n & ids & F & _)]; eauto).
       destruct Q as [n F]. pose proof (first_index_name _ _ _ F) as F'. destruct Ho as [_ Ho].
       assert (n = cls) by congruence. subst. auto. }
  split; auto. assert (Pd : (exists q, parent cls q) \/ forall q, ~ parent cls q).
  { destruct (lineage_total cls) as (ls & Hl & _). inversion Hl; eauto. }
  destruct Pd as [[q Hp]|Np].
  - pose proof (conj Hf (ex_intro _ q Hp)) as Hs. destruct (Sp _ _ Hs) as [t G]. rewrite G.
    rewrite (spawns_as_lineage _ L cls q t Hp).
    destruct (spawnable_ids _ L _ _ Hs) as [ids Hids]. pose proof Hids as (ls & H1 & H2).
    exists ls, (obj :: ids). split; auto. split; auto.
    destruct (Ck _ _ G) as [C|(n' & ids' & F' & C' & A)]; [apply along_cons; auto|].
    rewrite (first_index_inj _ _ _ _ F' Hf) in C'. now rewrite (class_ids_fun _ L _ _ _ Hids C').
  - exists [cls]. split; [now constructor|].
    assert (Q : forall t, spawn_entry objects cls t <-> seed objects obj t).
    { intros t. unfold spawn_entry, seed. split; [intros [_ H]; eauto|].
      intros (n & F & H). rewrite (first_index_inj _ _ _ _ F Hf) in H. split; auto. eapply first_index_in; eauto. }
    destruct (getZ obj v) as [[t|]|] eqn:G.
    + left. exists [], cls, []. split; auto. split; [|intros ? ? []]. apply Q.
      destruct (Ck _ _ G) as [C|(n' & ids' & F' & C' & A)]; auto.
      rewrite (first_index_inj _ _ _ _ F' Hf) in C'. apply class_ids_head in C' as [_ C']; [|eapply first_index_in; eauto].
      destruct C' as [q Hq]. destruct (Np _ Hq).
    + right. split; auto. intros y z [<-|[]] H. apply Q, Sd in H. congruence.
    + right. split; auto. intros y z [<-|[]] H. apply Q, Sd in H. congruence.
Qed.

Lemma network_err B (HB : bitter_ok B) ho (Hho : hash_order_ok ho) h b err : net_ready h b ->
  network_parse_frames B ho h b = Err err -> network_fails h b err.
Proof.
  intros R. pose proof R as [L Ld CI NF]. unfold network_parse_frames.
  destruct (compute_spawns_ok (b_objects b) L) as (v & Es & Lv & _). rewrite Es. cbn [obind].
  destruct (compute_caches_ok (b_objects b) L (b_net_cache b) ho Hho CI) as [[G (cs & Ec & Lc & Hc)]|(x & Hx & Ec)];
    rewrite Ec; cbn [obind].
  2: { intros [= <-]. destruct Hx as (bf & af & E & H1 & H2). exists bf, x, af. split; auto. split; auto. split; auto.
       split; [intros name Hn; apply H2; exists name; exact Hn|]. intros q Hq.
       rewrite Forall_forall in H1. apply (H1 q Hq). }
  apply props_range_good in G as G'.
  destruct (num_frames h) as [n|] eqn:En; [|discriminate]. specialize (NF n eq_refl).
  apply num_frames_entry in En.
  destruct (Z.ltb_spec (lenZ (b_network_data b)) (as_usize n)) as [Lt|Ge].
  - intros [= <-]. split; auto. split; auto. rewrite as_usize_i32 in Lt by auto. unfold lenZ in Lt.
    destruct (Z.leb_spec 0 n); lia.
  - assert (Un : as_usize n = n).
    { rewrite as_usize_i32 in * by auto. unfold is_i32 in NF. destruct (Z.leb_spec 0 n); lia. }
    assert (P0 : 0 <= n <= Z.of_nat (length (b_network_data b))).
    { unfold lenZ in Ge. rewrite <- Un at 2. split; [|lia]. rewrite <- Un. unfold as_usize. apply Z.mod_pos_bound. lia. }
    fold (the_decoder h b n v cs). intros H.
    apply (decode_frames_err _ _ (decoder_ok h b n v cs R Es G Lc Hc)) in H; auto.
    + destruct H as (x & ctx & -> & H). cbn [fd_frames_len fd_network_data the_decoder] in H. rewrite Un in H.
      split; auto. exists n, (the_env h b). split; auto. split; auto. split; auto. now apply env_of_spec.
    + cbn [the_decoder fd_spawns the_env e_objects]. now rewrite map_length.
    + intros obj cls sp Hi Ho. cbn [the_decoder fd_spawns the_env e_objects] in *. rewrite getZ_map. intros Hg.
      pose proof (spawn_cell _ _ _ _ L Hi Es Ho) as Q.
      destruct (getZ (as_usize obj) v) as [[t|]|]; try discriminate; apply some_inj in Hg; now rewrite <- Hg.
Qed.

Lemma parse_err B (HB : bitter_ok B) ho (Hho : hash_order_ok ho) c n data x : lenZ data < 2 ^ 31 ->
  parse_with B ho c n data = Err (ENetworkError x) ->
  n = NetAlways /\ exists h b rest, f_file data (h, b) rest /\ network_fails (sec_value h) (sec_value b) x.
Proof.
  intros L E.
  destruct (net_policies B HB ho Hho data c L) as [(e & Ne & He)|(r & _ & Hr & [(fs & Hf)|(e & H1 & H2)])].
  - rewrite He in E. injection E as ->. exfalso. apply Ne. exists x. reflexivity.
  - destruct n; [rewrite Hf in E by discriminate|rewrite Hr in E|rewrite Hf in E by discriminate]; discriminate.
  - destruct n; [|congruence|congruence]. split; auto. rewrite H2 in E. injection E as ->.
    destruct (parse_ok_file B ho _ _ _ _ L Hr) as (h & b & rest & F & Er). exists h, b, rest. split; auto.
    rewrite (fate_file B ho _ _ _ _ L F) in H2.
    destruct (mismatch c (sec_crc h) (sec_bytes h)); [discriminate|].
    destruct (mismatch c (sec_crc b) (sec_bytes b)); [discriminate|].
    destruct (network_parse_frames B ho (sec_value h) (sec_value b)) as [fs|e|p] eqn:En; cbn [net_result out_map] in H2; try discriminate.
    injection H2 as ->. eapply network_err; eauto. eapply file_ready; eauto.
Qed.
