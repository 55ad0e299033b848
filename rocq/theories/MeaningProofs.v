(** * Proofs: net caches with the same meaning *)

From Coq Require Import ZArith List Bool Lia.
From Verif Require Import Base NetTypes Errors Core Header Body BitReader ObjectIndex Network Parser
  BitLemmas SpecBasic SpecNet SpecFile SpecReplay SpecFrames BasicProofs MapProofs HierarchyProofs TableProofs CacheProofs NetworkProofs FileProofs FileFacts ParseProofs
  SpecEra EraProofs SpecMeaning.
Import ListNotations.
Open Scope Z_scope.

Section Meaning.
Context (objects : list str) (L : lenZ objects <= 2 ^ 31) (caches caches' : list class_net_cache)
  (CI : net_cache_ok caches) (CI' : net_cache_ok caches') (S : same_meaning objects caches caches').

Lemma table_same id name ids : first_index objects name id -> class_ids objects name (id :: ids) ->
  table objects caches (id :: ids) = table objects caches' (id :: ids).
Proof.
  intros F C. assert (Sp : spawnable objects id name).
  { eapply class_ids_head; eauto. eapply first_index_in; eauto. }
  apply sorted_ext; [apply table_sorted..|]. intros k. apply some_iff. intros a. rewrite !table_get by assumption.
  split; intros (p & Hp & ->); exists p; (split; [|reflexivity]).
  - apply (resolves_ids objects L caches' _ _ _ _ C), (S _ _ Sp), (resolves_ids objects L caches _ _ _ _ C), Hp.
  - apply (resolves_ids objects L caches _ _ _ _ C), (S _ _ Sp), (resolves_ids objects L caches' _ _ _ _ C), Hp.
Qed.

Lemma cache_at_same id ci : cache_at objects caches id ci <-> cache_at objects caches' id ci.
Proof.
  split; intros (m & (n & ids & F & C & ->) & ->).
  - exists (table objects caches' (id :: ids)). split; [exists n, ids; auto|]. now rewrite (table_same _ _ _ F C).
  - exists (table objects caches (id :: ids)). split; [exists n, ids; auto|]. now rewrite (table_same _ _ _ F C).
Qed.

Lemma caches_mean ho : hash_order_ok ho -> props_in_range objects caches -> props_in_range objects caches' ->
  compute_caches ho (object_index_new objects) objects caches = compute_caches ho (object_index_new objects) objects caches'.
Proof.
  intros Ho R R'.
  destruct (compute_caches_ok objects L caches ho Ho CI) as [[_ (v & -> & Lv & Cv)]|(x & X & _)].
  2: { exfalso. destruct X as (bf & af & E & _ & N). apply N, R. rewrite E. apply in_or_app. right. now left. }
  destruct (compute_caches_ok objects L caches' ho Ho CI') as [[_ (w & -> & Lw & Cw)]|(x & X & _)].
  2: { exfalso. destruct X as (bf & af & E & _ & N). apply N, R'. rewrite E. apply in_or_app. right. now left. }
  f_equal. apply getZ_ext. intros i.
  assert (Hn : forall c : list (option cache_info), length c = length objects -> (getZ i c = None <-> ~ 0 <= i < lenZ objects)).
  { intros c Hl. rewrite getZ_none. unfold lenZ. now rewrite Hl. }
  destruct (getZ i v) as [[ci|]|] eqn:A1.
  - symmetry. apply Cw, cache_at_same, Cv, A1.
  - destruct (getZ i w) as [[ci|]|] eqn:A2; auto.
    + apply Cw, cache_at_same, Cv in A2. congruence.
    + apply (Hn w Lw), (Hn v Lv) in A2. congruence.
  - symmetry. apply (Hn w Lw), (Hn v Lv), A1.
Qed.
End Meaning.

Theorem meaning B ho h b b' : hash_order_ok ho -> lenZ (b_objects b) <= 2 ^ 31 ->
  net_cache_ok (b_net_cache b) -> net_cache_ok (b_net_cache b') ->
  b_objects b' = b_objects b -> b_network_data b' = b_network_data b ->
  props_in_range (b_objects b) (b_net_cache b) -> props_in_range (b_objects b) (b_net_cache b') ->
  same_meaning (b_objects b) (b_net_cache b) (b_net_cache b') ->
  network_parse_frames B ho h b = network_parse_frames B ho h b'.
Proof.
  intros Ho L C C' Eo Ed R R' S. unfold network_parse_frames. rewrite Eo, Ed.
  now rewrite (caches_mean _ L _ _ C C' S ho Ho R R').
Qed.

Theorem meaning_files B ho data data' h h' b b' rest rest' n : hash_order_ok ho -> lenZ data < 2 ^ 31 -> lenZ data' < 2 ^ 31 ->
  f_file data (h, b) rest -> f_file data' (h', b') rest' -> agree_all (sec_value h) (sec_value h') ->
  b_objects (sec_value b') = b_objects (sec_value b) -> b_network_data (sec_value b') = b_network_data (sec_value b) ->
  props_in_range (b_objects (sec_value b)) (b_net_cache (sec_value b)) ->
  props_in_range (b_objects (sec_value b)) (b_net_cache (sec_value b')) ->
  same_meaning (b_objects (sec_value b)) (b_net_cache (sec_value b)) (b_net_cache (sec_value b')) ->
  match parse_with B ho CrcNever n data, parse_with B ho CrcNever n data' with
  | Ok r, Ok r' => r_network_frames r = r_network_frames r'
  | Err e, Err e' => e = e'
  | Panic p, Panic p' => p = p'
  | _, _ => False
  end.
Proof.
  intros Ho L L' F F' A Eo Ed R R' S. rewrite (fate_file B ho _ _ _ _ L F), (fate_file B ho _ _ _ _ L' F'). cbn [mismatch].
  pose proof (file_ready _ _ _ _ F) as [Lo _ C _]. pose proof (file_ready _ _ _ _ F') as [_ _ C' _].
  rewrite <- (same_network_frames B ho _ _ (sec_value b') (sec_value b') A) by (repeat split).
  rewrite <- (meaning B ho _ _ _ Ho Lo C C' Eo Ed R R' S).
  destruct (net_result n _) as [fs|e|q]; reflexivity.
Qed.

Lemma first_iff {A C} (R R' : A -> C -> Prop) l r : (forall y z, R y z <-> R' y z) -> first_with R l r <-> first_with R' l r.
Proof.
  intros E. unfold first_with. split; intros (b & x & a & -> & H & N); exists b, x, a; (split; [reflexivity|]); split.
  - now apply E.
  - intros y z I Q. apply E in Q. exact (N y z I Q).
  - now apply E.
  - intros y z I Q. apply E in Q. exact (N y z I Q).
Qed.

(** enough is that the same is listed for each class *)
Lemma listed_meaning objects caches caches' : (forall id, listed caches id = listed caches' id) -> same_meaning objects caches caches'.
Proof.
  intros E id name _ s p.
  assert (M : forall i q, mention caches s i q <-> mention caches' s i q) by (intros i q; unfold mention; now rewrite E).
  unfold resolves. split; intros (ids & C & X); exists ids; (split; [exact C|]); now apply (first_iff _ _ _ _ M).
Qed.
