(** * Proofs: interchangeable object names *)

From Coq Require Import ZArith List Bool String Lia.
From Verif Require Import Base Text NetTypes NetModels Errors Data Core Header Body BitReader Attributes ObjectIndex FrameDecoder Network Parser
  SpecBasic SpecNet SpecFile SpecReplay BasicProofs HierarchyProofs TableProofs FileProofs FileFacts ParseProofs SpecEra EraProofs SpecNames.
Import ListNotations.
Open Scope Z_scope.

Notation known n := (exists p, parent n p).

(** ** The index of objects *)

Definition same_index (m m' : object_index) : Prop := forall n, known n -> by_name m n = by_name m' n.

Lemma or_insert_get n x v m : by_name (or_insert x v m) n =
  if str_eqb n x then match by_name m x with Some y => Some y | None => Some v end else by_name m n.
Proof.
  unfold or_insert, by_name. destruct (str_assoc x m) as [y|] eqn:E; cbn [str_assoc].
  - destruct (str_eqb n x) eqn:Q; [|reflexivity]. apply str_eqb_spec in Q as ->. now rewrite E.
  - destruct (str_eqb n x); reflexivity.
Qed.

Lemma insert_same x x' v m m' : x = x' \/ interchangeable x x' -> same_index m m' ->
  same_index (or_insert x v m) (or_insert x' v m').
Proof.
  intros X M n K. rewrite !or_insert_get. destruct X as [<-|(P & P' & _)].
  - destruct (str_eqb n x) eqn:Q; [|now apply M]. apply str_eqb_spec in Q as ->. now rewrite (M x K).
  - destruct K as [p K]. destruct (str_eqb n x) eqn:Q; [apply str_eqb_spec in Q as ->; destruct (P _ K)|].
    destruct (str_eqb n x') eqn:Q'; [apply str_eqb_spec in Q' as ->; destruct (P' _ K)|]. apply M. eauto.
Qed.

Lemma index_same objects objects' : renamed objects objects' -> forall i m m', same_index m m' ->
  same_index (index_from i objects m) (index_from i objects' m').
Proof.
  induction 1 as [|x x' l l' X _ IH]; intros i m m' M; cbn [index_from]; [exact M|].
  apply IH, insert_same; assumption.
Qed.

(** ** The tables *)

Section Tables.
Context (ix ix' : object_index) (I : same_index ix ix').

Lemma climb_same fuel : forall n, hierarchy_fuel fuel ix n = hierarchy_fuel fuel ix' n.
Proof.
  induction fuel as [|fuel IH]; intros n; [reflexivity|]. cbn [hierarchy_fuel].
  destruct (str_assoc (normalize_object n) PARENT_CLASSES) as [p|] eqn:E; [|reflexivity].
  apply parent_spec in E. rewrite IH. destruct (hierarchy_fuel fuel ix' p); [|reflexivity].
  now rewrite (I n (ex_intro _ p E)).
Qed.
Lemma hierarchy_same x x' : x = x' \/ interchangeable x x' -> hierarchy ix x = hierarchy ix' x'.
Proof.
  intros [<-|(P & P' & _)]; [apply climb_same|]. apply no_parent_spec in P, P'. unfold hierarchy.
  cbn [hierarchy_fuel]. now rewrite P, P'.
Qed.

Lemma spawn_names_known : Forall (fun kv => known (fst kv)) SPAWN_STATS.
Proof.
  apply Forall_forall. intros kv H.
  assert (A : forallb (fun kv => match str_assoc (normalize_object (fst kv)) PARENT_CLASSES with Some _ => true | None => false end) SPAWN_STATS = true)
    by (vm_compute; reflexivity).
  rewrite forallb_forall in A. specialize (A kv H). cbn beta in A.
  destruct (str_assoc (normalize_object (fst kv)) PARENT_CLASSES) as [p|] eqn:E; [|discriminate]. exists p. now apply parent_spec.
Qed.

Lemma seed_same l : Forall (fun kv => known (fst kv)) l -> forall v, seed_spawns ix l v = seed_spawns ix' l v.
Proof.
  induction 1 as [|[n sp] l K _ IH]; intros v; cbn [seed_spawns]; [reflexivity|]. cbn [fst] in K. rewrite <- (I n K).
  destruct (by_name ix n); [|apply IH]. destruct (must _ _); cbn [obind]; [apply IH|reflexivity..].
Qed.

Lemma spread_same l l' : renamed l l' -> forall v, spread_spawns ix l v = spread_spawns ix' l' v.
Proof.
  induction 1 as [|x x' l l' X _ IH]; intros v; cbn [spread_spawns]; [reflexivity|]. rewrite (hierarchy_same _ _ X).
  destruct (must _ _); cbn [obind]; [|reflexivity..]. destruct (spawn_walk _ _); cbn [obind]; [|reflexivity..].
  destruct (fill_spawns _ _ _); cbn [obind]; [apply IH|reflexivity..].
Qed.

Lemma renamed_length l l' : renamed l l' -> length l = length l'.
Proof. induction 1; cbn; congruence. Qed.

Lemma spawns_same l l' : renamed l l' -> compute_spawns ix l = compute_spawns ix' l'.
Proof.
  intros R. unfold compute_spawns. rewrite (seed_same _ spawn_names_known), (renamed_length _ _ R).
  destruct (seed_spawns _ _ _); cbn [obind]; [now apply spread_same|reflexivity..].
Qed.

Lemma renamed_getZ l l' : renamed l l' -> forall i,
  match getZ i l, getZ i l' with
  | Some x, Some x' => x = x' \/ interchangeable x x'
  | None, None => True
  | _, _ => False
  end.
Proof.
  intros R i. pose proof (Z.lt_ge_cases i 0) as [N|N].
  - assert (Q : forall l : list str, getZ i l = None) by (intros m; apply getZ_none; lia). now rewrite !Q.
  - rewrite !getZ_nth by assumption. generalize (Z.to_nat i). clear N i.
    induction R as [|x x' l l' X _ IH]; intros [|k]; cbn; auto. apply IH.
Qed.

Lemma attr_same l l' x : renamed l l' -> attr_of_prop l x = attr_of_prop l' x.
Proof.
  intros R. unfold attr_of_prop. pose proof (renamed_getZ _ _ R (as_usize (cp_object_ind x))) as Q.
  destruct (getZ _ l) as [s|], (getZ _ l') as [s'|]; try contradiction; [|reflexivity].
  destruct Q as [<-|(_ & _ & K)]; [reflexivity|]. cbv zeta. do 3 f_equal. apply kind_of_spec, K, kind_of_spec. reflexivity.
Qed.
Lemma push_same l l' ps : renamed l l' -> forall acc, push_props l ps acc = push_props l' ps acc.
Proof.
  intros R. induction ps as [|x ps IH]; intros acc; cbn [push_props]; [reflexivity|]. rewrite (attr_same _ _ x R).
  destruct (attr_of_prop l' x); cbn [obind]; [apply IH|reflexivity..].
Qed.
Lemma build_same l l' cs : renamed l l' -> forall m, build_net_properties l cs m = build_net_properties l' cs m.
Proof.
  intros R. induction cs as [|c cs IH]; intros m; cbn [build_net_properties]; [reflexivity|]. rewrite (push_same _ _ _ R).
  destruct (push_props l' _ _); cbn [obind]; [apply IH|reflexivity..].
Qed.

Lemma traverse_same ho np l l' : renamed l l' -> forall k, traverse_all ho ix np l k = traverse_all ho ix' np l' k.
Proof.
  induction 1 as [|x x' l l' X _ IH]; intros k; cbn [traverse_all]; [reflexivity|]. unfold net_traversal.
  rewrite (hierarchy_same _ _ X). destruct (must _ _); cbn [obind]; [|reflexivity..].
  destruct (attrs_walk _ _ _). cbn [obind]. apply IH.
Qed.

Lemma caches_same ho l l' cs : renamed l l' -> compute_caches ho ix l cs = compute_caches ho ix' l' cs.
Proof.
  intros R. unfold compute_caches. rewrite (build_same _ _ _ R). destruct (build_net_properties _ _ _); cbn [obind]; [|reflexivity..].
  rewrite (traverse_same _ _ _ _ R). destruct (traverse_all _ _ _ _ _); cbn [obind]; [|reflexivity..].
  now rewrite (renamed_length _ _ R).
Qed.

Lemma named_known n : str_assoc (normalize_object n) PARENT_CLASSES <> None -> known n.
Proof. destruct (str_assoc _ _) as [p|] eqn:E; [|tauto]. exists p. now apply parent_spec. Qed.

Lemma product_same v : product_decoder_create v ix = product_decoder_create v ix'.
Proof.
  unfold product_decoder_create. rewrite !I; [reflexivity|apply named_known; vm_compute; discriminate..].
Qed.
End Tables.

(** ** The frames *)

Section Frames.
Context (B : bitter) (ho : hash_order) (len : Z) (pd : product_value_decoder) (mc cb : Z) (data : list byte)
  (spawns : list spawn_trajectory) (caches : list (option cache_info)) (v : version) (lan rl : bool).
Notation F objects := (mkFrameDecoder len pd mc cb objects data spawns caches v lan rl).

Lemma frame_same l l' fuel s : decode_frame B (F l) fuel s = decode_frame B (F l') fuel s.
Proof. reflexivity. Qed.

Lemma frames_named l l' fuel n : forall acc s,
  frames_loop B ho (F l') fuel n acc s = name_outcome l' (frames_loop B ho (F l) fuel n acc s).
Proof.
  induction n as [|n IH]; intros acc s; cbn [frames_loop name_outcome]; [reflexivity|].
  destruct (is_empty (fs_r s)); [reflexivity|]. rewrite (frame_same l' l).
  destruct (decode_frame B (F l) fuel s) as [[[f|]|e|q] s1]; [apply IH|reflexivity..].
Qed.
End Frames.

(** the tables fail otherwise *)
Definition outside {A} (o : outcome network_error A) : Prop := forall objects, name_outcome objects o = o.

Lemma outside_bind {A C} (o : outcome network_error A) (k : A -> outcome network_error C) :
  outside o -> (forall a, outside (k a)) -> outside (obind o k).
Proof. intros O K l. destruct o as [a|e|q]; cbn; [apply K| |reflexivity]. specialize (O l). cbn in O. congruence. Qed.
Lemma outside_must {A} p (o : option A) : outside (must p o).
Proof. intros l. destruct o; reflexivity. Qed.
Lemma outside_ok {A} (a : A) : outside (Ok a).
Proof. intros l. reflexivity. Qed.

Lemma outside_seed ix l : forall v, outside (seed_spawns ix l v).
Proof.
  induction l as [|[n sp] l IH]; intros v; cbn [seed_spawns]; [apply outside_ok|].
  destruct (by_name ix n); [|apply IH]. apply outside_bind; [apply outside_must|apply IH].
Qed.
Lemma outside_walk v l : outside (spawn_walk v l).
Proof.
  induction l as [|x l IH]; cbn [spawn_walk]; [apply outside_ok|]. apply outside_bind; [apply outside_must|].
  intros [sp|]; [apply outside_ok|]. apply outside_bind; [apply IH|intros; apply outside_ok].
Qed.
Lemma outside_fill r l : forall v, outside (fill_spawns r l v).
Proof.
  induction l as [|x l IH]; intros v; cbn [fill_spawns]; [apply outside_ok|]. apply outside_bind; [apply outside_must|apply IH].
Qed.
Lemma outside_spread ix l : forall v, outside (spread_spawns ix l v).
Proof.
  induction l as [|x l IH]; intros v; cbn [spread_spawns]; [apply outside_ok|]. apply outside_bind; [apply outside_must|]. intros ids.
  apply outside_bind; [apply outside_walk|]. intros r. apply outside_bind; [apply outside_fill|apply IH].
Qed.
Lemma outside_spawns ix l : outside (compute_spawns ix l).
Proof. apply outside_bind; [apply outside_seed|apply outside_spread]. Qed.

Lemma outside_push l ps : forall acc, outside (push_props l ps acc).
Proof.
  induction ps as [|x ps IH]; intros acc; cbn [push_props]; [apply outside_ok|]. apply outside_bind; [|intros; apply IH].
  unfold attr_of_prop. destruct (getZ _ _); [apply outside_ok|]. intros o. reflexivity.
Qed.
Lemma outside_build l cs : forall m, outside (build_net_properties l cs m).
Proof.
  induction cs as [|c cs IH]; intros m; cbn [build_net_properties]; [apply outside_ok|].
  apply outside_bind; [apply outside_push|intros; apply IH].
Qed.
Lemma outside_traverse ho ix np l : forall k, outside (traverse_all ho ix np l k).
Proof.
  induction l as [|x l IH]; intros k; cbn [traverse_all]; [apply outside_ok|]. apply outside_bind; [|intros; apply IH].
  unfold net_traversal. apply outside_bind; [apply outside_must|]. intros ids. destruct (attrs_walk _ _ _). apply outside_ok.
Qed.
Lemma outside_store ho l : forall v, outside (store_caches ho l v).
Proof.
  induction l as [|[o a] l IH]; intros v; cbn [store_caches]; [apply outside_ok|]. apply outside_bind; [apply outside_must|apply IH].
Qed.
Lemma outside_caches ho ix l cs : outside (compute_caches ho ix l cs).
Proof.
  apply outside_bind; [apply outside_build|]. intros np. apply outside_bind; [apply outside_traverse|]. intros m. apply outside_store.
Qed.

Theorem named B ho h b b' : same_but_names b b' ->
  network_parse_frames B ho h b' = name_outcome (b_objects b') (network_parse_frames B ho h b).
Proof.
  intros (R & Ec & Ed). unfold network_parse_frames. rewrite <- Ec, <- Ed.
  assert (I : same_index (object_index_new (b_objects b)) (object_index_new (b_objects b')))
    by (apply index_same; [exact R|intros n _; reflexivity]).
  rewrite <- (spawns_same _ _ I _ _ R), <- (caches_same _ _ I ho _ _ _ R), <- (product_same _ _ I).
  pose proof (outside_spawns (object_index_new (b_objects b)) (b_objects b) (b_objects b')) as O1.
  destruct (compute_spawns _ _) as [spawns|e|q]; cbn [obind]; [clear O1|cbn in O1 |- *; congruence|reflexivity].
  pose proof (outside_caches ho (object_index_new (b_objects b)) (b_objects b) (b_net_cache b) (b_objects b')) as O2.
  destruct (compute_caches _ _ _ _) as [caches|e|q]; cbn [obind]; [clear O2|cbn in O2 |- *; congruence|reflexivity].
  destruct (num_frames h) as [n|]; [|reflexivity]. destruct (_ <? _); [reflexivity|].
  apply frames_named.
Qed.

Theorem named_files B ho data data' h h' b b' rest rest' n : lenZ data < 2 ^ 31 -> lenZ data' < 2 ^ 31 ->
  f_file data (h, b) rest -> f_file data' (h', b') rest' ->
  agree_all (sec_value h) (sec_value h') -> same_but_names (sec_value b) (sec_value b') ->
  match parse_with B ho CrcNever n data, parse_with B ho CrcNever n data' with
  | Ok r, Ok r' => r_network_frames r = r_network_frames r'
  | Err (ENetworkError e), Err (ENetworkError e') => e' = name_error (b_objects (sec_value b')) e
  | Panic p, Panic p' => p = p'
  | _, _ => False
  end.
Proof.
  intros L L' F F' A S. rewrite (fate_file B ho _ _ _ _ L F), (fate_file B ho _ _ _ _ L' F'). cbn [mismatch].
  rewrite <- (same_network_frames B ho _ _ (sec_value b') (sec_value b') A) by (repeat split).
  rewrite (named B ho _ _ _ S).
  destruct n, (network_parse_frames B ho (sec_value h) (sec_value b)) as [fs|e|q]; reflexivity.
Qed.
