(** * Proofs: the tables built from a body, and errors found before decoding *)

From Coq Require Import ZArith List Bool Lia ZifyBool ZifyNat.
From Verif Require Import Base F32 NetTypes SegArray Errors Core Header Body BitReader Attributes Data ObjectIndex FrameDecoder Network Parser BitLemmas
  SpecBasic SpecNet HierarchyProofs BasicProofs MapProofs TableProofs CacheProofs SpecFrames NetworkProofs SpecCrc SpecFile SpecReplay
  FileProofs FileFacts ParseProofs SpecFacts FrameFacts.
Open Scope Z_scope.
#[local] Opaque PARENT_CLASSES SPAWN_STATS ATTRIBUTES.

Lemma spawn_table objects : lenZ objects <= 2 ^ 31 ->
  exists v, compute_spawns (object_index_new objects) objects = Ok v /\
    forall id cls t, spawnable objects id cls -> (getZ id v = Some (Some t) <-> spawns_as objects cls t).
Proof.
  intros L. destruct (compute_spawns_ok objects L) as (v & E & Lv & Ck & _ & Sp). exists v. split; [exact E|].
  intros id cls t Hs. destruct (Sp _ _ Hs) as [t' Et]. rewrite Et. pose proof (Ck _ _ Et) as C. destruct Hs as [Hf [q Hp]].
  rewrite (spawns_as_lineage _ L cls q t Hp).
  destruct (spawnable_ids _ L _ _ (conj Hf (ex_intro _ q Hp))) as [ids Hids].
  assert (A : along objects (id :: ids) t').
  { destruct C as [C|(n' & ids' & F' & C' & A)]; [apply along_cons; auto|].
    rewrite (first_index_inj _ _ _ _ F' Hf) in C'. now rewrite (class_ids_fun _ L _ _ _ Hids C'). }
  split.
  - intros H. apply some_inj, some_inj in H. subst t'. destruct Hids as (ls & H1 & H2). exists ls, (id :: ids). auto.
  - intros (ls & ids' & H1 & H2 & H3). assert (C' : class_ids objects cls ids') by (exists ls; auto).
    rewrite (class_ids_fun _ L _ _ _ C' Hids) in H3. do 2 f_equal. eapply along_fun; eauto.
Qed.

(** the trajectory depends on the set of names only *)
Lemma spawns_as_set objects objects' cls t : (forall x, In x objects <-> In x objects') ->
  spawns_as objects cls t -> spawns_as objects' cls t.
Proof.
  intros S (l & Hl & H). exists l. split; [exact Hl|].
  assert (Q : forall x z, spawn_entry objects x z <-> spawn_entry objects' x z).
  { intros x z. unfold spawn_entry. now rewrite S. }
  destruct H as [(b & x & a & -> & H1 & H2)|[H ->]].
  - left. exists b, x, a. split; [reflexivity|]. split; [now apply Q|]. intros y z Hy Hz. eapply H2; [eauto|]. apply Q. exact Hz.
  - right. split; [|reflexivity]. intros y z Hy Hz. eapply H; [eauto|]. apply Q. exact Hz.
Qed.

Lemma spawn_order objects objects' v v' id id' cls : lenZ objects <= 2 ^ 31 -> lenZ objects' <= 2 ^ 31 ->
  (forall x, In x objects <-> In x objects') ->
  compute_spawns (object_index_new objects) objects = Ok v ->
  compute_spawns (object_index_new objects') objects' = Ok v' ->
  spawnable objects id cls -> spawnable objects' id' cls -> getZ id v = getZ id' v'.
Proof.
  intros L L' S E E' Hs Hs'. destruct (spawn_table objects L) as (w & Ew & H). destruct (spawn_table objects' L') as (w' & Ew' & H').
  rewrite E in Ew. rewrite E' in Ew'. injection Ew as <-. injection Ew' as <-.
  destruct (compute_spawns_ok objects L) as (w & Ew & _ & _ & _ & Sp). rewrite E in Ew. injection Ew as <-.
  destruct (Sp _ _ Hs) as [t Et]. rewrite Et. symmetry. apply (H' id' cls t Hs').
  eapply spawns_as_set; [exact S|]. now apply (H id cls t Hs).
Qed.

(** the entry of a property *)
Lemma conv_value objects caches p a : lenZ objects <= 2 ^ 31 -> net_cache_ok caches ->
  props_in_range objects caches -> In p (flat_map nc_properties caches) ->
  (a = snd (conv objects p) <->
   exists name, object_at objects (cp_object_ind p) name /\ kind_of name (oa_attribute a) /\ oa_object_id a = cp_object_ind p).
Proof.
  intros L CI PR Hin. destruct (PR _ Hin) as [name Hn].
  assert (Hi : is_i32 (cp_object_ind p)).
  { apply in_flat_map in Hin as (x & Hx & Hp). unfold net_cache_ok in CI. rewrite Forall_forall in CI.
    specialize (CI _ Hx). rewrite Forall_forall in CI. apply (CI _ Hp). }
  pose proof (proj2 (object_at_usize objects L _ name Hi) Hn) as G. unfold conv. rewrite G. cbn [snd]. split.
  - intros ->. exists name. cbn [oa_attribute oa_object_id]. split; [exact Hn|]. split; [now apply kind_of_spec|reflexivity].
  - intros (nm & H1 & H2 & H3). assert (nm = name) as -> by (destruct Hn, H1; congruence).
    apply kind_of_spec in H2. destruct a as [ta ia]. simpl in H2, H3. now subst.
Qed.

Lemma mention_in caches s id p : mention caches s id p -> In p (flat_map nc_properties caches) /\ cp_stream_id p = s.
Proof.
  intros (b & a & E & Es & _). split; [|exact Es]. assert (H : In p (listed caches id)) by (rewrite E; apply in_or_app; simpl; auto).
  unfold listed in H. apply in_flat_map in H as (x & Hx & H). apply filter_In in Hx as [Hx _]. apply in_flat_map. eauto.
Qed.

Lemma attribute_table ho objects caches : hash_order_ok ho -> lenZ objects <= 2 ^ 31 -> net_cache_ok caches ->
  props_in_range objects caches ->
  exists v, compute_caches ho (object_index_new objects) objects caches = Ok v /\
    forall id cls, spawnable objects id cls -> exists ci, getZ id v = Some (Some ci) /\
      forall s a, is_i32 s -> (seg_get s (ci_attributes ci) = Some a <->
        exists p name, resolves objects caches cls s p /\ object_at objects (cp_object_ind p) name /\
          kind_of name (oa_attribute a) /\ oa_object_id a = cp_object_ind p).
Proof.
  intros Ho L CI PR. destruct (compute_caches_ok objects L caches ho Ho CI) as [[G (v & Ev & Lv & Hv)]|(x & (bf & af & E & _ & N) & _)].
  2: { exfalso. apply N, PR. rewrite E. apply in_or_app. right. left. reflexivity. }
  exists v. split; [exact Ev|]. intros id cls Hs. destruct (spawnable_cache_at objects L caches _ _ Hs) as [ci Hci].
  exists ci. split; [now apply Hv|]. apply (cache_at_for objects L caches CI) in Hci as (name & Hs' & Hf & _).
  rewrite (first_index_inj _ _ _ _ (proj1 Hs') (proj1 Hs)) in Hf.
  intros s a Hsr. rewrite (Hf s a Hsr). split.
  - intros (p & Hp & Ha). apply (conv_value objects caches p a L CI PR) in Ha as (nm & Q).
    + exists p, nm. split; [exact Hp|exact Q].
    + destruct Hp as (ids & _ & (b & x & af & _ & Hm & _)). apply mention_in in Hm. tauto.
  - intros (p & nm & Hp & Q). exists p. split; [exact Hp|]. apply (conv_value objects caches p a L CI PR); [|eauto].
    destruct Hp as (ids & _ & (b & x & af & _ & Hm & _)). apply mention_in in Hm. tauto.
Qed.

(** a class that is not spawnable has no table *)
Lemma attribute_table_only ho objects caches v id ci : hash_order_ok ho -> lenZ objects <= 2 ^ 31 -> net_cache_ok caches ->
  compute_caches ho (object_index_new objects) objects caches = Ok v -> getZ id v = Some (Some ci) ->
  exists cls, spawnable objects id cls.
Proof.
  intros Ho L CI Ev Hi. destruct (compute_caches_ok objects L caches ho Ho CI) as [[G (v' & Ev' & Lv & Hv)]|(x & _ & E)]; [|congruence].
  rewrite Ev in Ev'. injection Ev' as <-. apply Hv in Hi. apply (cache_at_for objects L caches CI) in Hi as (name & Hs & _). eauto.
Qed.

Lemma attribute_table_bad ho objects caches b p a : hash_order_ok ho -> lenZ objects <= 2 ^ 31 -> net_cache_ok caches ->
  flat_map nc_properties caches = b ++ p :: a ->
  (forall q, In q b -> exists name, object_at objects (cp_object_ind q) name) ->
  (forall name, ~ object_at objects (cp_object_ind p) name) ->
  compute_caches ho (object_index_new objects) objects caches = Err (NStreamTooLargeIndex (cp_stream_id p) (cp_object_ind p)).
Proof.
  intros Ho L CI E Hb Hp. destruct (compute_caches_ok objects L caches ho Ho CI) as [[G _]|(x & Hx & Ec)].
  - exfalso. rewrite E in G. apply Forall_app in G as [_ G]. inversion G as [|? ? (nm & H) _]. eapply Hp; eauto.
  - assert (Hy : first_bad objects (flat_map nc_properties caches) p).
    { exists b, a. split; [exact E|]. split; [now apply Forall_forall|]. intros (nm & H). eapply Hp; eauto. }
    now rewrite (first_bad_fun _ _ _ _ Hx Hy) in Ec.
Qed.

(** ** Too many frames *)

Section Files.
Context (B : bitter) (HB : bitter_ok B) (ho : hash_order) (Hho : hash_order_ok ho).

Lemma too_many c data r h b rest n : lenZ data < 2 ^ 31 -> f_file data (h, b) rest ->
  parse_with B ho c NetNever data = Ok r ->
  props_in_range (r_objects r) (r_net_cache r) -> replay_int r "NumFrames" n ->
  ~ (0 <= n <= lenZ (b_network_data (sec_value b))) ->
  parse_with B ho c NetAlways data = Err (ENetworkError (NTooManyFrames n)).
Proof.
  intros L F E PR NI Hn. rewrite (fate_file B ho _ _ _ _ L F) in E |- *.
  destruct (mismatch c (sec_crc h) (sec_bytes h)); [discriminate|].
  destruct (mismatch c (sec_crc b) (sec_bytes b)); [discriminate|]. cbn [net_result out_map] in E.
  injection E as <-. unfold replay_int in NI. cbn [replay_of r_objects r_net_cache r_properties] in *.
  pose proof (file_ready _ _ _ _ F) as [Lo Ld CI NF].
  cut (network_parse_frames B ho (sec_value h) (sec_value b) = Err (NTooManyFrames n)).
  { intros ->. reflexivity. }
  unfold network_parse_frames. destruct (compute_spawns_ok (b_objects (sec_value b)) Lo) as (v & -> & _). cbn [obind].
  destruct (attribute_table ho _ _ Hho Lo CI PR) as (cs & -> & _). cbn [obind].
  assert (Q : num_frames (sec_value h) = Some n).
  { unfold num_frames. apply find_prop_first in NI. now rewrite NI. }
  rewrite Q. specialize (NF n Q).
  destruct (Z.ltb_spec (lenZ (b_network_data (sec_value b))) (as_usize n)) as [H|H]; [reflexivity|].
  exfalso. apply Hn. rewrite as_usize_i32 in H by auto. unfold is_i32 in NF. unfold lenZ in *. destruct (Z.leb_spec 0 n); lia.
Qed.

End Files.
