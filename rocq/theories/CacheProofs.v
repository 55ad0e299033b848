(** * Proofs: attribute tables *)

From Coq Require Import ZArith List Bool Lia ZifyBool ZifyNat Permutation.
From Verif Require Import Base NetTypes SegArray Errors Header Body BitReader NetModels Data ObjectIndex Network
  SpecBasic BasicProofs HierarchyProofs MapProofs SpecNet TableProofs.
Open Scope Z_scope.
#[local] Opaque PARENT_CLASSES SPAWN_STATS ATTRIBUTES.

Lemma filter_nil_or {A} (f : A -> bool) l : filter f l = [] \/ exists x, In x l /\ f x = true.
Proof.
  induction l as [|x l IH]; simpl; auto. destruct (f x) eqn:E; [right; eauto|].
  destruct IH as [H|(y & Hy & H)]; eauto.
Qed.

(** [map_extend] of an enumeration of a map is the map *)
Lemma extend_self {V} (l : list (Z * V)) m : sorted m -> Permutation l m -> map_extend [] l = m.
Proof.
  intros S P. apply sorted_ext; auto.
  - apply sorted_extend. exact I.
  - intros k. rewrite map_get_extend, (last_of_perm _ _ _ (sorted_nodup _ S) P).
    simpl. destruct (map_get k m); auto.
Qed.

Lemma map_extend_app {V} (m : amap V) a b : map_extend m (a ++ b) = map_extend (map_extend m a) b.
Proof. apply fold_left_app. Qed.

Lemma max_key_spec {V} (l : list (Z * V)) :
  match max_key l with
  | None => l = []
  | Some x => In x (map fst l) /\ forall y, In y (map fst l) -> y <= x
  end.
Proof.
  unfold max_key.
  assert (H : forall m, match fold_left (fun m kv => match m with
                         | None => Some (fst kv)
                         | Some x => Some (Z.max x (fst kv))
                         end) l m with
    | None => l = [] /\ m = None
    | Some x => (In x (map fst l) \/ m = Some x) /\ (forall y, In y (map fst l) \/ m = Some y -> y <= x)
    end).
  { induction l as [|[k v] l IH]; intros m; cbn [fold_left map fst].
    - destruct m; auto. split; auto. intros y [[]|[= ->]]. lia.
    - set (m1 := match m with None => Some k | Some x => Some (Z.max x k) end). specialize (IH m1).
      destruct (fold_left _ l m1) as [x|].
      + destruct IH as [H1 H2]. subst m1. cbn [In]. destruct m as [z|].
        * split.
          -- destruct H1 as [H1|[= <-]]; auto. destruct (Z.max_spec z k) as [[_ ->]|[_ ->]]; auto.
          -- intros y [[<-|Hy]|[= <-]]; auto; pose proof (H2 _ (or_intror eq_refl)); lia.
        * split; [destruct H1 as [H1|[= <-]]; auto|].
          intros y [[<-|Hy]|Hy]; auto; discriminate.
      + destruct IH as [_ H]. subst m1. destruct m; discriminate. }
  specialize (H None). destruct (fold_left _ l None) as [x|].
  - destruct H as [[H|H] H2]; [|discriminate]. split; auto.
  - apply H.
Qed.

Lemma max_key_perm {V} (l l' : list (Z * V)) : Permutation l l' -> max_key l = max_key l'.
Proof.
  intros P. pose proof (max_key_spec l) as H. pose proof (max_key_spec l') as H'.
  assert (Q : forall x, In x (map fst l) <-> In x (map fst l')).
  { intros x. apply Permutation_map with (f := fst) in P. split; intros Hx.
    - eapply Permutation_in; eauto.
    - eapply Permutation_in; [symmetry|]; eauto. }
  destruct (max_key l) as [x|], (max_key l') as [x'|]; auto.
  - destruct H as [H1 H2], H' as [H1' H2']. apply Q in H1. apply Q in H1'.
    apply H2 in H1'. apply H2' in H1. f_equal. lia.
  - subst. apply Permutation_sym, Permutation_nil in P. subst. destruct H as [[] _].
  - subst. apply Permutation_nil in P. subst. destruct H' as [[] _].
Qed.

Section Tables.
Context (objects : list str) (L : lenZ objects <= 2 ^ 31) (caches : list class_net_cache).
Context (ho : hash_order) (Hho : hash_order_ok ho).
Let ix := object_index_new objects.

Definition net_cache_ok : Prop :=
  Forall (fun c => Forall (fun p => is_i32 (cp_object_ind p) /\ is_i32 (cp_stream_id p)) (nc_properties c)) caches.
Context (CI : net_cache_ok).

(** ** The listed properties *)

Definition conv (x : cache_prop) : Z * object_attribute :=
  (cp_stream_id x,
   mkObjAttr (match getZ (as_usize (cp_object_ind x)) objects with
              | Some name => match str_assoc name ATTRIBUTES with Some t => t | None => TNotImplemented end
              | None => TNotImplemented
              end) (cp_object_ind x)).

Definition good_prop (x : cache_prop) : Prop := exists name, object_at objects (cp_object_ind x) name.

Lemma object_at_usize i name : is_i32 i -> (getZ (as_usize i) objects = Some name <-> object_at objects i name).
Proof.
  intros Hi. unfold object_at. destruct (Z_le_dec 0 i) as [P|P].
  - assert (E : as_usize i = i) by (unfold as_usize, is_i32 in *; apply Z.mod_small; lia).
    rewrite E, getZ_nth by auto. tauto.
  - split; [|lia]. intros H. apply getZ_some in H. unfold is_i32 in Hi.
    assert (E : as_usize i = i + 2 ^ 64).
    { unfold as_usize. symmetry. apply Z.mod_unique with (q := -1); lia. }
    lia.
Qed.

Lemma attr_of_prop_spec x : is_i32 (cp_object_ind x) ->
  good_prop x /\ attr_of_prop objects x = Ok (conv x) \/
  ~ good_prop x /\ attr_of_prop objects x = Err (NStreamTooLargeIndex (cp_stream_id x) (cp_object_ind x)).
Proof.
  intros Hi. unfold attr_of_prop, conv. destruct (getZ (as_usize (cp_object_ind x)) objects) as [name|] eqn:E.
  - left. split; auto. exists name. now apply object_at_usize.
  - right. split; auto. intros [name H]. apply object_at_usize in H; auto. congruence.
Qed.

(** the first property that refers to no object *)
Definition first_bad (ps : list cache_prop) (x : cache_prop) : Prop :=
  exists b a, ps = b ++ x :: a /\ Forall good_prop b /\ ~ good_prop x.

Lemma first_bad_app a b x : first_bad a x \/ Forall good_prop a /\ first_bad b x -> first_bad (a ++ b) x.
Proof.
  intros [(c & d & -> & H1 & H2)|[H (c & d & -> & H1 & H2)]].
  - exists c, (d ++ b). rewrite <- app_assoc. auto.
  - exists (a ++ c), d. rewrite <- app_assoc. split; auto. split; auto. apply Forall_app; auto.
Qed.

Lemma push_props_spec ps : Forall (fun p => is_i32 (cp_object_ind p) /\ is_i32 (cp_stream_id p)) ps -> forall acc,
  Forall good_prop ps /\ push_props objects ps acc = Ok (acc ++ map conv ps) \/
  exists x, first_bad ps x /\ push_props objects ps acc = Err (NStreamTooLargeIndex (cp_stream_id x) (cp_object_ind x)).
Proof.
  induction 1 as [|x ps [H _] Hps IH]; intros acc; cbn [push_props map].
  - left. now rewrite app_nil_r.
  - destruct (attr_of_prop_spec x H) as [[G ->]|[G ->]]; cbn [obind].
    + destruct (IH (acc ++ [conv x])) as [[G2 ->]|(y & Hy & ->)].
      * left. split; auto. now rewrite <- app_assoc.
      * right. exists y. split; auto. apply (first_bad_app [x] ps). auto.
    + right. exists x. split; auto. exists [], ps. auto.
Qed.

Definition props_at (m : amap (list (Z * object_attribute))) (id : Z) : list (Z * object_attribute) :=
  match map_get id m with Some l => l | None => [] end.

Lemma build_net_properties_spec cs :
  Forall (fun c => Forall (fun p => is_i32 (cp_object_ind p) /\ is_i32 (cp_stream_id p)) (nc_properties c)) cs ->
  forall m,
  (Forall good_prop (flat_map nc_properties cs) /\ exists m', build_net_properties objects cs m = Ok m' /\
     forall id, props_at m' id = props_at m id ++ map conv (listed cs id)) \/
  (exists x, first_bad (flat_map nc_properties cs) x /\
     build_net_properties objects cs m = Err (NStreamTooLargeIndex (cp_stream_id x) (cp_object_ind x))).
Proof.
  induction 1 as [|c cs Hc Hcs IH]; intros m; cbn [build_net_properties flat_map].
  - left. split; auto. exists m. split; auto. intros id. unfold listed. simpl. now rewrite app_nil_r.
  - fold (props_at m (nc_object_ind c)).
    destruct (push_props_spec _ Hc (props_at m (nc_object_ind c))) as [[G ->]|(x & Hx & ->)]; cbn [obind].
    + destruct (IH (map_insert (nc_object_ind c) (props_at m (nc_object_ind c) ++ map conv (nc_properties c)) m))
        as [[G2 (m' & -> & Hm)]|(x & Hx & ->)].
      * left. split; [apply Forall_app; auto|]. exists m'. split; auto. intros id. rewrite Hm.
        unfold props_at at 1. rewrite map_get_insert. unfold listed. cbn [filter].
        rewrite (Z.eqb_sym (nc_object_ind c)). destruct (Z.eqb_spec id (nc_object_ind c)) as [->|]; auto.
        cbn [flat_map]. rewrite map_app, app_assoc. reflexivity.
      * right. exists x. split; auto. apply first_bad_app. auto.
    + right. exists x. split; auto. apply first_bad_app. auto.
Qed.

(** ** The accumulated properties of a list of ids *)

Definition tbl (ids : list Z) : list (Z * object_attribute) :=
  flat_map (fun id => map conv (listed caches id)) (rev ids).

Lemma tbl_cons id ids : tbl (id :: ids) = tbl ids ++ map conv (listed caches id).
Proof. unfold tbl. simpl. rewrite flat_map_app. simpl. now rewrite app_nil_r. Qed.

Definition table (ids : list Z) : amap object_attribute := map_extend [] (tbl ids).

Lemma table_cons id ids : table (id :: ids) = map_extend (table ids) (map conv (listed caches id)).
Proof. unfold table. rewrite tbl_cons. apply map_extend_app. Qed.

Lemma table_sorted ids : sorted (table ids).
Proof. apply sorted_extend. exact I. Qed.

Definition table_at (id : Z) (m : amap object_attribute) : Prop :=
  exists name ids, first_index objects name id /\ class_ids objects name (id :: ids) /\ m = table (id :: ids).

Lemma table_at_fun id m m' : table_at id m -> table_at id m' -> m = m'.
Proof.
  intros (n & ids & F & C & ->) (n' & ids' & F' & C' & ->).
  rewrite (first_index_inj _ _ _ _ F F') in C.
  now rewrite (class_ids_fun _ L _ _ _ C C').
Qed.

Definition known_inv (known : amap (amap object_attribute)) : Prop :=
  sorted known /\ forall id m, map_get id known = Some m -> table_at id m.

Section Traverse.
Context (np : amap (list (Z * object_attribute))) (NP : forall id, props_at np id = map conv (listed caches id)).

Lemma attrs_walk_ok known : known_inv known -> forall ids x b, class_ids objects x (b ++ ids) ->
  exists acc stack rest, attrs_walk ho known ids = (acc, stack) /\ ids = stack ++ rest /\
    map_extend [] acc = table rest /\
    (stack = [] -> forall id t, ids = id :: t -> map_get id known <> None).
Proof.
  intros [S K]. induction ids as [|id ids IH]; intros x b Hx; cbn [attrs_walk].
  - exists [], [], []. split; auto. split; auto. split; [reflexivity|]. discriminate.
  - destruct (map_get id known) as [m|] eqn:G.
    + exists (ho _ m), [], (id :: ids). split; auto. split; auto. split.
      * destruct (K _ _ G) as (n & ids' & F & C & ->).
        destruct (class_ids_suffix _ _ _ _ _ Hx) as (y & F' & _ & C').
        rewrite (first_index_inj _ _ _ _ F' F) in C'.
        pose proof (class_ids_fun _ L _ _ _ C C') as E. injection E as ->.
        apply extend_self; [apply table_sorted|apply Hho].
      * intros _ id' t [= <- <-]. congruence.
    + destruct (IH x (b ++ [id])) as (acc & stack & rest & -> & -> & Ha & _).
      { now rewrite <- app_assoc. }
      exists acc, (id :: stack), rest. split; auto. split; auto. split; auto. discriminate.
Qed.

Lemma attrs_fill_ok x : forall rstack rest acc known b, known_inv known ->
  class_ids objects x (b ++ rev rstack ++ rest) -> map_extend [] acc = table rest ->
  known_inv (attrs_fill np rstack acc known) /\
  (forall id, In id rstack -> map_get id (attrs_fill np rstack acc known) <> None) /\
  (forall id, map_get id known <> None -> map_get id (attrs_fill np rstack acc known) <> None).
Proof.
  induction rstack as [|id rstack IH]; intros rest acc known b KI C A; cbn [attrs_fill].
  - split; [exact KI|]. split; [|auto]. intros id [].
  - fold (props_at np id). rewrite NP. cbn [rev] in C. rewrite <- app_assoc in C. cbn [app] in C.
    assert (A' : map_extend [] (acc ++ map conv (listed caches id)) = table (id :: rest)).
    { rewrite map_extend_app, A. symmetry. apply table_cons. }
    rewrite A'.
    assert (KI' : known_inv (map_insert id (table (id :: rest)) known)).
    { destruct KI as [S K]. split; [now apply sorted_insert|]. intros j m. rewrite map_get_insert.
      destruct (Z.eqb_spec j id) as [->|]; auto. intros [= <-].
      rewrite app_assoc in C. destruct (class_ids_suffix _ _ _ _ _ C) as (y & F & _ & C').
      exists y, rest. auto. }
    destruct (IH (id :: rest) (acc ++ map conv (listed caches id)) _ b KI' C A') as (H1 & H2 & H3).
    split; auto. split.
    + intros j [<-|Hj]; auto. apply H3. rewrite map_get_insert, Z.eqb_refl. discriminate.
    + intros j Hj. apply H3. rewrite map_get_insert. destruct (j =? id); [discriminate|auto].
Qed.

Lemma traverse_all_ok : forall objs known, known_inv known ->
  exists known', traverse_all ho ix np objs known = Ok known' /\ known_inv known' /\
    (forall name id ids, In name objs -> class_ids objects name (id :: ids) -> map_get id known' <> None) /\
    (forall id, map_get id known <> None -> map_get id known' <> None).
Proof.
  induction objs as [|name objs IH]; intros known KI; cbn [traverse_all].
  - exists known. split; [reflexivity|]. split; [exact KI|]. split; [|auto]. intros ? ? ? [].
  - unfold net_traversal. destruct (class_ids_total objects L name) as (ids & Hc & Hh).
    fold ix in Hh. rewrite Hh. cbn [must obind].
    destruct (attrs_walk_ok known KI ids name [] Hc) as (acc & stack & rest & E & Ei & Ha & Hn).
    rewrite E. cbn [obind].
    destruct (attrs_fill_ok name (rev stack) rest acc known [] KI) as (H1 & H2 & H3); auto.
    { rewrite rev_involutive. cbn [app]. now rewrite <- Ei. }
    destruct (IH _ H1) as (known' & E' & I' & A' & K').
    exists known'. split; [exact E'|]. split; [exact I'|]. split; [|auto].
    intros n id t [<-|Hin] Hc'; [|eauto]. apply K'.
    pose proof (class_ids_fun _ L _ _ _ Hc Hc') as Eq. destruct stack as [|id' stack].
    + apply H3. eapply Hn; eauto.
    + apply H2. rewrite Ei in Eq. cbn [app] in Eq. injection Eq as -> _. rewrite <- in_rev. simpl; auto.
Qed.
End Traverse.

(** ** Cache records *)

Lemma table_keys ids : forall k, In k (map fst (table ids)) -> is_i32 k.
Proof.
  intros k Hk. destruct (map_get k (table ids)) as [a|] eqn:E.
  2: { apply map_get_none in E. tauto. }
  unfold table in E. rewrite map_get_extend in E. cbn [map_get] in E.
  destruct (last_of k (tbl ids)) as [a'|] eqn:E'; [|discriminate].
  apply last_of_in in E'. unfold tbl in E'. apply in_flat_map in E' as (id & _ & Hin).
  apply in_map_iff in Hin as (p & Ep & Hp). unfold listed in Hp.
  apply in_flat_map in Hp as (c & Hc & Hp). apply filter_In in Hc as [Hc _].
  unfold net_cache_ok in CI. rewrite Forall_forall in CI. specialize (CI _ Hc).
  rewrite Forall_forall in CI. destruct (CI _ Hp) as [_ Hi]. unfold conv in Ep. now injection Ep as <- _.
Qed.

Lemma perm_keys_i32 ids l : Permutation l (table ids) -> Forall (fun kv : Z * object_attribute => is_i32 (fst kv)) l.
Proof.
  intros P. apply Forall_forall. intros [k v] H. apply (table_keys ids). cbn [fst].
  apply in_map_iff. exists (k, v). split; auto. eapply Permutation_in; eauto.
Qed.

(** the canonical record of an attribute table *)
Definition cache_info_at (m : amap object_attribute) : cache_info := cache_info_of (fun _ l => l) m.

Lemma cache_info_canon ids : cache_info_of ho (table ids) = cache_info_at (table ids).
Proof.
  unfold cache_info_at, cache_info_of.
  rewrite (max_key_perm _ _ (Hho _ (table ids))). f_equal.
  symmetry. apply seg_fill_perm.
  - apply (perm_keys_i32 ids). apply Permutation_refl.
  - apply sorted_nodup, table_sorted.
  - apply Permutation_sym, Hho.
  - exact I.
Qed.

Definition cache_at (id : Z) (ci : cache_info) : Prop := exists m, table_at id m /\ ci = cache_info_at m.

Lemma cache_at_fun id ci ci' : cache_at id ci -> cache_at id ci' -> ci = ci'.
Proof. intros (m & H & ->) (m' & H' & ->). now rewrite (table_at_fun _ _ _ H H'). Qed.

Lemma table_at_range id m : table_at id m -> 0 <= id < lenZ objects.
Proof. intros (n & ids & F & _). eapply first_index_range; eauto. Qed.

Lemma store_caches_ok : forall l v, length v = length objects ->
  Forall (fun kv => table_at (fst kv) (snd kv)) l ->
  exists v', store_caches ho l v = Ok v' /\ length v' = length objects /\
    forall id, getZ id v' = match last_of id l with
                            | Some m => Some (Some (cache_info_at m))
                            | None => getZ id v
                            end.
Proof.
  induction l as [|[id m] l IH]; intros v Lv H; cbn [store_caches last_of].
  - exists v. auto.
  - inversion H as [|? ? T H']; subst. cbn [fst snd] in T. pose proof (table_at_range _ _ T) as R.
    rewrite (index_usize objects L) by auto.
    destruct (setZ_some id (Some (cache_info_of ho m)) v) as (v1 & Es & L1 & G1); [unfold lenZ in *; rewrite Lv; auto|].
    rewrite (must_some _ _ _ Es). cbn [obind].
    destruct (IH v1) as (v' & E' & L' & G'); [congruence|auto|].
    exists v'. split; auto. split; auto. intros j. rewrite G'. destruct (last_of j l); auto.
    rewrite G1. destruct (Z.eqb_spec j id); auto. destruct T as (n & ids & _ & _ & ->).
    now rewrite cache_info_canon.
Qed.

Lemma compute_caches_ok :
  (Forall good_prop (flat_map nc_properties caches) /\ exists v, compute_caches ho ix objects caches = Ok v /\
     length v = length objects /\ forall id ci, getZ id v = Some (Some ci) <-> cache_at id ci) \/
  (exists x, first_bad (flat_map nc_properties caches) x /\
     compute_caches ho ix objects caches = Err (NStreamTooLargeIndex (cp_stream_id x) (cp_object_ind x))).
Proof.
  unfold compute_caches.
  destruct (build_net_properties_spec caches CI []) as [[G (np & -> & NP)]|(x & Hx & ->)]; cbn [obind].
  - left. split; auto.
    destruct (traverse_all_ok np NP objects []) as (known & -> & [S K] & A & _).
    { split; [exact I|]. discriminate. }
    cbn [obind].
    destruct (store_caches_ok (ho _ known) (repeat None (length objects))) as (v & -> & Lv & Gv).
    { apply repeat_length. }
    { apply Forall_forall. intros [id m] H. cbn [fst snd]. apply K.
      apply map_get_in; [now apply sorted_nodup|]. eapply Permutation_in; [apply Hho|eauto]. }
    exists v. split; auto. split; auto. intros id ci. rewrite Gv.
    rewrite (last_of_perm id _ _ (sorted_nodup _ S) (Hho _ known)). split.
    + destruct (map_get id known) as [m|] eqn:E.
      * intros [= <-]. exists m. auto.
      * intros H. apply getZ_in, repeat_spec in H. discriminate.
    + intros (m & T & ->). destruct (map_get id known) as [m'|] eqn:E.
      * apply K in E. now rewrite (table_at_fun _ _ _ T E).
      * exfalso. destruct T as (n & ids & F & C & _). eapply A; eauto. eapply first_index_in; eauto.
  - right. exists x. auto.
Qed.

(** ** Reading the records *)

Lemma last_of_conv s ps a : last_of s (map conv ps) = Some a <->
  exists b p c, ps = b ++ p :: c /\ cp_stream_id p = s /\ (forall q, In q c -> cp_stream_id q <> s) /\ a = snd (conv p).
Proof.
  induction ps as [|x ps IH].
  - simpl. split; [discriminate|]. intros (b & p & c & E & _). destruct b; discriminate.
  - cbn [map]. change (conv x) with (cp_stream_id x, snd (conv x)). cbn [last_of].
    destruct (last_of s (map conv ps)) as [a'|] eqn:E.
    + transitivity (Some a' = Some a); [reflexivity|]. rewrite IH. split.
      * intros (b & p & c & -> & H). exists (x :: b), p, c. auto.
      * intros (b & p & c & Eq & H1 & H2 & H3). destruct b as [|y b]; cbn [app] in Eq; injection Eq as E1 E2.
        -- exfalso. subst c. apply last_of_in, in_map_iff in E as (q & Eq & Hq).
           unfold conv in Eq. injection Eq as Eq _. eapply H2; eauto.
        -- exists b, p, c. auto.
    + assert (N : forall q, In q ps -> cp_stream_id q <> s).
      { intros q Hq Hs. apply last_of_none in E. apply E. apply in_map_iff. exists (conv q).
        split; auto. apply in_map; auto. }
      destruct (Z.eqb_spec s (cp_stream_id x)) as [->|Ns]; split.
      * intros [= <-]. exists [], x, ps. auto.
      * intros (b & p & c & Eq & H1 & H2 & ->). destruct b as [|y b]; cbn [app] in Eq; injection Eq as E1 E2.
        -- now subst.
        -- exfalso. eapply N; [|exact H1]. subst. apply in_or_app; simpl; auto.
      * discriminate.
      * intros (b & p & c & Eq & H1 & H2 & ->). exfalso. destruct b as [|y b]; cbn [app] in Eq; injection Eq as E1 E2.
        -- subst. auto.
        -- eapply N; [|exact H1]. subst. apply in_or_app; simpl; auto.
Qed.

Lemma last_of_listed s id a : last_of s (map conv (listed caches id)) = Some a <->
  exists p, mention caches s id p /\ a = snd (conv p).
Proof.
  rewrite last_of_conv. unfold mention. split.
  - intros (b & p & c & H1 & H2 & H3 & H4). exists p. split; auto. exists b, c. auto.
  - intros (p & (b & c & H1 & H2 & H3) & H4). exists b, p, c. auto.
Qed.

Lemma mention_fun s id p q : mention caches s id p -> mention caches s id q -> p = q.
Proof.
  intros (b & a & E & H1 & H2) (b' & a' & E' & H1' & H2'). rewrite E in E'. clear E.
  revert b' E'. induction b as [|x b IH]; intros b' E'; destruct b' as [|y b']; cbn [app] in E'; injection E' as E1 E2.
  - auto.
  - exfalso. eapply H2; [|exact H1']. rewrite E2. apply in_or_app; simpl; auto.
  - exfalso. eapply H2'; [|exact H1]. rewrite <- E2. apply in_or_app; simpl; auto.
  - eauto.
Qed.

Lemma table_get s ids a : map_get s (table ids) = Some a <->
  exists p, first_with (mention caches s) ids p /\ a = snd (conv p).
Proof.
  induction ids as [|id ids IH].
  - unfold table, tbl. simpl. split; [discriminate|]. intros (p & (b & x & c & E & _) & _). destruct b; discriminate.
  - rewrite table_cons, map_get_extend. destruct (last_of s (map conv (listed caches id))) as [a'|] eqn:E.
    + apply last_of_listed in E as (p & Hp & ->). split.
      * intros [= <-]. exists p. split; auto. apply first_with_cons. auto.
      * intros (q & Hq & ->). apply first_with_cons in Hq as [Hq|[N _]]; [|exfalso; eapply N; eauto].
        now rewrite (mention_fun _ _ _ _ Hp Hq).
    + rewrite IH. assert (N : forall z, ~ mention caches s id z).
      { intros z Hz. assert (last_of s (map conv (listed caches id)) = Some (snd (conv z)))
          by (apply last_of_listed; eauto). congruence. }
      split; intros (p & Hp & ->); exists p; split; auto.
      * apply first_with_cons. auto.
      * apply first_with_cons in Hp as [Hp|[_ Hp]]; auto. exfalso; eapply N; eauto.
Qed.

(** what the record of an object holds *)
Definition cache_for (name : str) (ci : cache_info) : Prop :=
  (forall s a, is_i32 s -> (seg_get s (ci_attributes ci) = Some a <->
     exists p, resolves objects caches name s p /\ a = snd (conv p))) /\
  exists mx, stream_bound objects caches name mx /\ ci_max_prop_id ci = as_u32 mx /\
    ci_prop_id_bits ci = Z.max (bit_width (as_u64 mx)) 1 - 1.

Lemma resolves_ids name ids s p : class_ids objects name ids ->
  (resolves objects caches name s p <-> first_with (mention caches s) ids p).
Proof.
  intros C. split.
  - intros (ids' & C' & H). now rewrite (class_ids_fun _ L _ _ _ C C').
  - intros H. exists ids. auto.
Qed.

Lemma table_key ids s : In s (map fst (table ids)) <-> exists p, first_with (mention caches s) ids p.
Proof.
  split.
  - intros H. destruct (map_get s (table ids)) as [a|] eqn:E; [|apply map_get_none in E; tauto].
    apply table_get in E as (p & Hp & _). eauto.
  - intros [p Hp]. destruct (in_dec Z.eq_dec s (map fst (table ids))) as [Y|N]; auto.
    apply map_get_none in N. assert (map_get s (table ids) = Some (snd (conv p))) by (apply table_get; eauto).
    congruence.
Qed.

Lemma cache_info_for name id ids : class_ids objects name (id :: ids) ->
  cache_for name (cache_info_at (table (id :: ids))).
Proof.
  intros C. unfold cache_info_at, cache_info_of. split; cbn [ci_attributes ci_max_prop_id ci_prop_id_bits].
  - intros s a Hs. rewrite seg_fill_get; auto.
    2: { apply (perm_keys_i32 (id :: ids)), Permutation_refl. }
    rewrite (last_of_perm s _ _ (sorted_nodup _ (table_sorted (id :: ids))) (Permutation_refl _)).
    transitivity (map_get s (table (id :: ids)) = Some a).
    + destruct (map_get s (table (id :: ids))); [reflexivity|]. rewrite seg_new_get. reflexivity.
    + rewrite table_get. split; intros (p & Hp & ->); exists p; split; auto.
      * now apply (resolves_ids _ _ _ _ C).
      * now apply (resolves_ids _ _ _ _ C) in Hp.
  - pose proof (max_key_spec (table (id :: ids))) as M. destruct (max_key (table (id :: ids))) as [x|].
    + eexists. split; [|split; reflexivity]. right. destruct M as [M1 M2].
      pose proof (table_keys _ _ M1) as Hx.
      apply table_key in M1 as [p Hp]. exists x, p. split; [now apply (resolves_ids _ _ _ _ C)|]. split.
      * intros s' p' H'. apply M2, table_key. exists p'. now apply (resolves_ids _ _ _ _ C) in H'.
      * unfold saturating_succ, is_i32 in *. destruct (Z.eqb_spec x (2 ^ 31 - 1)); lia.
    + exists 3. split; [|split; reflexivity]. left. split; auto. intros s p H.
      apply (resolves_ids _ _ _ _ C) in H. assert (In s (map fst (table (id :: ids)))) by (apply table_key; eauto).
      rewrite M in H0. destruct H0.
Qed.

Lemma cache_at_for id ci : cache_at id ci -> exists name, spawnable objects id name /\ cache_for name ci.
Proof.
  intros (m & (n & ids & F & C & ->) & ->). exists n. split.
  - eapply class_ids_head; eauto. eapply first_index_in; eauto.
  - now apply cache_info_for.
Qed.

Lemma spawnable_cache_at id name : spawnable objects id name -> exists ci, cache_at id ci.
Proof.
  intros S. destruct (spawnable_ids _ L _ _ S) as [ids C]. eexists. exists (table (id :: ids)). split; [|reflexivity].
  exists name, ids. destruct S. auto.
Qed.

End Tables.
