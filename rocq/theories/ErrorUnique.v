(** * Proofs: there is exactly one error that the specification allows, and none
    if the network data are frames *)

From Coq Require Import ZArith List Bool Lia ZifyBool ZifyNat.
From Verif Require Import Base F32 NetTypes SegArray Errors Header Body BitReader NetModels Attributes Data ObjectIndex
  FrameDecoder BitLemmas Wire ReaderLogic LeafProofs VectorProofs TextWireProofs AttrProofs SpecBasic BasicProofs
  HierarchyProofs MapProofs SpecNet TableProofs CacheProofs SpecFrames FrameLogic FrameProofs RecordProofs
  StreamProofs SpecAttrErrors AttrErrors SpecErrors ErrorProofs.
Open Scope Z_scope.
#[local] Opaque PARENT_CLASSES SPAWN_STATS ATTRIBUTES.

(** ** Formats with at most one reading *)

Definition det {A} (P : wire A) : Prop := forall i v o v' o', P i v o -> P i v' o' -> v = v' /\ o = o'.

Lemma acc_det {E A} (m : rd E A) P : acc m P -> det P.
Proof.
  intros H i v o v' o' H1 H2. destruct (reader_for i) as (r & W & Fr). specialize (H r W). rewrite Fr in H.
  destruct (m r) as [[a|x|p] s]; destruct H as (_ & _ & H).
  - apply H in H1 as [-> ->]. apply H in H2 as [-> ->]. auto.
  - exfalso. eapply H; eauto.
  - destruct H.
Qed.

Notation std := std_bitter.
Notation std_ok := std_bitter_ok.

Lemma det_bit : det w_bit. Proof. exact (acc_det _ _ (acc_read_bit std std_ok)). Qed.
Lemma det_f32 : det w_f32. Proof. exact (acc_det _ _ (acc_read_f32 std std_ok)). Qed.
Lemma det_i32 : det (w_int 32). Proof. exact (acc_det _ _ (acc_read_i32 std std_ok)). Qed.
Lemma det_when {A} c (P : wire A) : det P -> det (w_when c P).
Proof.
  intros H i v o v' o'. unfold w_when, w_map, w_ret. destruct c.
  - intros (a & Ha & ->) (a' & Ha' & ->). destruct (H _ _ _ _ _ Ha Ha') as [-> ->]. auto.
  - intros [-> ->] [-> ->]. auto.
Qed.
Lemma det_trajectory sp net : det (w_trajectory sp net). Proof. exact (acc_det _ _ (acc_trajectory std std_ok sp net)). Qed.
Lemma det_attribute D tag : det (w_attribute D tag). Proof. exact (acc_det _ _ (acc_attribute std std_ok D tag)). Qed.
Lemma det_bounded max : det (w_bounded max).
Proof.
  intros i v o v' o' H H'. assert (M : 1 <= max) by (destruct H; lia).
  refine (acc_det _ _ (acc_read_bounded std std_ok (Z.to_nat (Z.log2 max)) max M _) _ _ _ _ _ H H').
  pose proof (Z.log2_nonneg max). lia.
Qed.

Lemma misfit_det D tag i x y : m_attribute D tag i x -> m_attribute D tag i y -> x = y.
Proof.
  destruct (reader_for i) as (r & W & <-). intros H1 H2.
  apply (attribute_errors std std_ok D tag r x W) in H1 as [s H1].
  apply (attribute_errors std std_ok D tag r y W) in H2 as [t H2]. congruence.
Qed.

Lemma object_at_fun objects i n n' : object_at objects i n -> object_at objects i n' -> n = n'.
Proof. intros [_ H] [_ H']. congruence. Qed.
Lemma kind_of_fun n t t' : kind_of n t -> kind_of n t' -> t = t'.
Proof. intros H H'. apply kind_of_spec in H. apply kind_of_spec in H'. congruence. Qed.

Lemma first_with_fun {A C} (R : A -> C -> Prop) l r r' : (forall x c c', R x c -> R x c' -> c = c') ->
  first_with R l r -> first_with R l r' -> r = r'.
Proof.
  intros HR. induction l as [|x l IH].
  - intros (b & y & a & E & _). destruct b; discriminate.
  - rewrite !first_with_cons. intros [H|[N H]] [H'|[N' H']]; eauto.
    + exfalso; eapply N'; eauto.
    + exfalso; eapply N; eauto.
Qed.

Lemma spawns_as_fun objects n t t' : spawns_as objects n t -> spawns_as objects n t' -> t = t'.
Proof.
  assert (K : forall x c c', spawn_entry objects x c -> spawn_entry objects x c' -> c = c').
  { intros x c c' [_ H] [_ H']. rewrite <- (str_assoc_nodup _ _ _ spawn_stats_nodup) in H.
    rewrite <- (str_assoc_nodup _ _ _ spawn_stats_nodup) in H'. congruence. }
  intros (l & Hl & H) (l' & Hl' & H'). rewrite (path_fun _ _ _ Hl' Hl) in H'.
  assert (N : forall r, none_with (spawn_entry objects) l -> ~ first_with (spawn_entry objects) l r).
  { intros r Hn (b & x & a & -> & Hx & _). apply (Hn x r); auto. apply in_or_app; simpl; auto. }
  destruct H as [H|[H ->]], H' as [H'|[H' ->]]; auto.
  - eapply first_with_fun; eauto.
  - destruct (N _ H' H).
  - destruct (N _ H H').
Qed.

Lemma spawn_of_fun objects obj n t t' : spawn_of objects obj n t -> spawn_of objects obj n t' -> t = t'.
Proof.
  intros [[F H]|[F ->]] [[F' H']|[F' ->]]; auto; try contradiction. eapply spawns_as_fun; eauto.
Qed.

(** ** Sequences that end where nothing can follow *)

Definition stuck {A} (P : wire A) (j : bits) : Prop :=
  match j with true :: k => forall x o, ~ P k x o | _ => True end.

Lemma many_before_det {A} (P : wire A) : det P -> forall i us j us' j',
  many_before P i us j -> many_before P i us' j' -> stuck P j -> stuck P j' -> us = us' /\ j = j'.
Proof.
  intros DP i us j us' j' H. revert us' j'. induction H as [i|i x m xs j Hx H IH]; intros us' j' H' S S'.
  - inversion H' as [|i0 x m xs j0 Hx H2 E1]; subst; auto. exfalso. eapply S; eauto.
  - inversion H' as [|i0 x' m' xs' j0 Hx' H2 E1]; subst.
    + exfalso. eapply S'; eauto.
    + destruct (DP _ _ _ _ _ Hx Hx') as [-> ->]. destruct (IH _ _ H2 S S') as [-> ->]. auto.
Qed.

Section Decoder.
Context (e : net_env) (L : lenZ (e_objects e) <= 2 ^ 31) (CI : net_cache_ok (e_caches e)).
Notation objs := (e_objects e).
Notation caches := (e_caches e).

Lemma bound_fun cls m m' : stream_bound objs caches cls m -> stream_bound objs caches cls m' -> m = m'.
Proof. apply stream_bound_fun. Qed.

Lemma res_fun cls s p q : resolves objs caches cls s p -> resolves objs caches cls s q -> p = q.
Proof.
  intros (ids & C & H) (ids' & C' & H'). rewrite (class_ids_fun _ L _ _ _ C C') in H.
  eapply first_with_fun; [|exact H|exact H']. intros x c c'. apply mention_fun.
Qed.

Lemma det_update id cls : det (w_update e id cls).
Proof.
  intros i u o u' o' (b & s & i1 & p & pn & tag & v & H1 & H2 & H3 & H4 & H5 & H6 & ->)
    (b' & s' & i1' & p' & pn' & tag' & v' & H1' & H2' & H3' & H4' & H5' & H6' & ->).
  rewrite (bound_fun _ _ _ H1' H1) in H2'. destruct (det_bounded _ _ _ _ _ _ H2 H2') as [<- <-].
  rewrite <- (res_fun _ _ _ _ H3 H3') in *. rewrite <- (object_at_fun _ _ _ _ H4 H4') in *.
  rewrite <- (kind_of_fun _ _ _ H5 H5') in *. destruct (det_attribute _ _ _ _ _ _ _ H6 H6') as [<- <-]. auto.
Qed.

Lemma det_good id cls : det (good_update e id cls).
Proof. intros i u o u' o' [_ H] [_ H']. eapply det_update; eauto. Qed.

Lemma det_new id : det (w_new e id).
Proof.
  intros i u o u' o' (n & i1 & b & i2 & obj & i3 & cls & sp & t & H1 & H2 & H3 & H4 & H5 & H6 & ->)
    (n' & i1' & b' & i2' & obj' & i3' & cls' & sp' & t' & H1' & H2' & H3' & H4' & H5' & H6' & ->).
  destruct (det_when _ _ det_i32 _ _ _ _ _ H1 H1') as [<- <-]. destruct (det_bit _ _ _ _ _ H2 H2') as [<- <-].
  destruct (det_i32 _ _ _ _ _ H3 H3') as [<- <-]. rewrite <- (spawnable_fun _ _ _ _ H4 H4') in *.
  rewrite <- (spawns_as_fun _ _ _ _ H5 H5') in *. destruct (det_trajectory _ _ _ _ _ _ _ H6 H6') as [<- <-]. auto.
Qed.

Lemma det_actor : det (w_actor_id e).
Proof.
  intros i v o v' o' (a & H & ->) (a' & H' & ->). destruct (det_bounded _ _ _ _ _ _ H H') as [<- <-]. auto.
Qed.

(** complete sequences are sequences that end with a clear bit *)
Lemma ample_from cls i s j bound : stream_bound objs caches cls bound -> w_bounded bound i s j -> (0 < length j)%nat ->
  ample_stream e cls i.
Proof.
  intros H Hw Hj b' Hb'. rewrite (bound_fun _ _ _ Hb' H). assert (1 <= bound) by (destruct Hw; lia). split; [lia|].
  apply w_bounded_length in Hw. unfold too_few. rewrite Z.max_r by lia. lia.
Qed.

Lemma many_good id cls i us o : w_many (w_update e id cls) i us o -> many_before (good_update e id cls) i us (false :: o).
Proof.
  induction 1 as [o|i x m xs o Hx H IH]; [constructor|]. apply mb_cons with (m := m); auto. split; auto.
  destruct Hx as (b & s & i1 & p & pn & tag & v & H1 & H2 & H3 & H4 & H5 & H6 & ->).
  eapply ample_from; eauto. apply many_updates_length in H. apply w_attribute_shorter in H6. lia.
Qed.

Lemma det_many id cls : det (w_many (w_update e id cls)).
Proof.
  intros i us o us' o' H H'. apply many_good in H. apply many_good in H'.
  destruct (many_before_det _ (det_good id cls) _ _ _ _ _ H H' Logic.I Logic.I) as [-> E]. injection E as ->. auto.
Qed.

Lemma det_record h : det (w_record e h).
Proof.
  intros i r o r' o' (id & i1 & Hi & H) (id' & i1' & Hi' & H').
  destruct (det_actor _ _ _ _ _ Hi Hi') as [<- <-].
  destruct r as [a|x|x us], r' as [a'|x'|x' us'].
  - destruct H as (i2 & -> & H), H' as (i2' & E & H'). injection E as <-.
    destruct (det_new _ _ _ _ _ _ H H') as [-> ->]. auto.
  - destruct H as (i2 & -> & H), H' as (_ & E). discriminate.
  - destruct H as (i2 & -> & H), H' as (_ & i2' & ob & cls & E & _). discriminate.
  - destruct H as (_ & ->), H' as (i2' & E & _). discriminate.
  - destruct H as (-> & ->), H' as (-> & E). injection E as ->. auto.
  - destruct H as (_ & ->), H' as (_ & i2' & ob & cls & E & _). discriminate.
  - destruct H as (_ & i2 & ob & cls & -> & _), H' as (i2' & E & _). discriminate.
  - destruct H as (_ & i2 & ob & cls & -> & _), H' as (_ & E). discriminate.
  - destruct H as (-> & i2 & ob & cls & -> & Ho & Hs & H), H' as (-> & i2' & ob' & cls' & E & Ho' & Hs' & H').
    injection E as <-. unfold actor_object in *. assert (ob' = ob) by congruence. subst ob'.
    rewrite <- (spawnable_fun _ _ _ _ Hs Hs') in *. destruct (det_many _ _ _ _ _ _ _ H H') as [-> ->]. auto.
Qed.

(** ** Announcements *)

Lemma new_fails_none id i x : new_fails e id i x -> forall a o, ~ w_new e id i a o.
Proof.
  intros Hf a o (n & i1 & b & i2 & obj & i3 & cls & sp & t & H1 & H2 & H3 & H4 & H5 & H6 & _).
  assert (Ho : object_at objs obj cls).
  { destruct H4 as [F _]. split; [destruct (first_index_range _ _ _ F); lia|]. now apply first_index_name. }
  assert (Q : forall n' j1 b' j2 obj' j3, w_when (e_names e) (w_int 32) i n' j1 -> w_bit j1 b' j2 -> w_int 32 j2 obj' j3 ->
    obj' = obj /\ j3 = i3).
  { intros n' j1 b' j2 obj' j3 H1' H2' H3'. destruct (det_when _ _ det_i32 _ _ _ _ _ H1 H1') as [<- <-].
    destruct (det_bit _ _ _ _ _ H2 H2') as [<- <-]. destruct (det_i32 _ _ _ _ _ H3 H3') as [<- <-]. auto. }
  destruct Hf as [N|n' j1 b' j2 obj' j3 H1' H2' H3' N|n' j1 b' j2 obj' j3 cls' sp' H1' H2' H3' N Sp Nt|n' j1 b' j2 obj' j3 cls' sp' t' o' H1' H2' H3' N Sp Nt Ns];
    [|destruct (Q _ _ _ _ _ _ H1' H2' H3') as [-> ->]..].
  - eapply N; eauto.
  - eapply N; eauto.
  - rewrite (object_at_fun _ _ _ _ N Ho) in Sp. eapply Nt. rewrite (spawn_of_fun _ _ _ sp' sp Sp); [exact H6|].
    left. split; auto. apply H4.
  - rewrite (object_at_fun _ _ _ _ N Ho) in Ns. auto.
Qed.

Lemma new_fails_fun id i x y : new_fails e id i x -> new_fails e id i y -> x = y.
Proof.
  assert (Q : forall n j1 b j2 obj j3 n' j1' b' j2' obj' j3',
    w_when (e_names e) (w_int 32) i n j1 -> w_bit j1 b j2 -> w_int 32 j2 obj j3 ->
    w_when (e_names e) (w_int 32) i n' j1' -> w_bit j1' b' j2' -> w_int 32 j2' obj' j3' ->
    obj' = obj /\ j3' = j3).
  { intros n j1 b j2 obj j3 n' j1' b' j2' obj' j3' H1 H2 H3 H1' H2' H3'.
    destruct (det_when _ _ det_i32 _ _ _ _ _ H1 H1') as [<- <-].
    destruct (det_bit _ _ _ _ _ H2 H2') as [<- <-]. destruct (det_i32 _ _ _ _ _ H3 H3') as [<- <-]. auto. }
  intros Hx Hy.
  destruct Hx as [N|n j1 b j2 obj j3 H1 H2 H3 N|n j1 b j2 obj j3 cls sp H1 H2 H3 N Sp Nt|n j1 b j2 obj j3 cls sp t o H1 H2 H3 N Sp Nt Ns];
  destruct Hy as [N'|n' j1' b' j2' obj' j3' H1' H2' H3' N'|n' j1' b' j2' obj' j3' cls' sp' H1' H2' H3' N' Sp' Nt'|n' j1' b' j2' obj' j3' cls' sp' t' o' H1' H2' H3' N' Sp' Nt' Ns'];
  auto; try (exfalso; eapply N; eauto; fail); try (exfalso; eapply N'; eauto; fail);
  destruct (Q _ _ _ _ _ _ _ _ _ _ _ _ H1 H2 H3 H1' H2' H3') as [-> ->]; auto.
  - exfalso. eapply N; eauto.
  - exfalso. eapply N; eauto.
  - exfalso. eapply N'; eauto.
  - exfalso. rewrite <- (object_at_fun _ _ _ _ N N') in *. rewrite (spawn_of_fun _ _ _ _ _ Sp' Sp) in Nt'. eapply Nt; eauto.
  - exfalso. eapply N'; eauto.
  - exfalso. rewrite <- (object_at_fun _ _ _ _ N N') in *. rewrite (spawn_of_fun _ _ _ _ _ Sp' Sp) in Nt'. eapply Nt'; eauto.
Qed.

(** ** Updates *)

Lemma bounded_max bound i s j : w_bounded bound i s j -> w_bounded (Z.max 1 bound) i s j.
Proof. intros H. rewrite Z.max_r; [exact H|]. destruct H; lia. Qed.

Lemma bounded_same bound i s j s' j' : w_bounded bound i s j \/ w_bounded (Z.max 1 bound) i s j ->
  w_bounded bound i s' j' \/ w_bounded (Z.max 1 bound) i s' j' -> s = s' /\ j = j'.
Proof.
  intros H H'. assert (K : w_bounded (Z.max 1 bound) i s j) by (destruct H; auto using bounded_max).
  assert (K' : w_bounded (Z.max 1 bound) i s' j') by (destruct H'; auto using bounded_max).
  exact (det_bounded _ _ _ _ _ _ K K').
Qed.

Lemma stream_not_ample cls i bound : stream_bound objs caches cls bound -> bound < 0 \/ too_few i bound 1 ->
  ~ ample_stream e cls i.
Proof. intros H Hb A. destruct (A _ H) as [A1 A2]. destruct Hb; [lia|auto]. Qed.

Lemma update_fails_none id obj cls i x : update_fails e id obj cls i x -> forall u o, ~ good_update e id cls i u o.
Proof.
  intros Hf u o [Am (b & s & i1 & p & pn & tag & v & H1 & H2 & H3 & H4 & H5 & H6 & _)].
  destruct Hf as [b' H1' Hb|b' s' j A H1' H2' N|b' s' j p' pn' A H1' H2' H3' H4' H5'|b' s' j p' pn' tag' x A H1' H2' H3' H4' H5' T N M].
  - exact (stream_not_ample _ _ _ H1' Hb Am).
  - rewrite (bound_fun _ _ _ H1' H1) in H2'. destruct (det_bounded _ _ _ _ _ _ (bounded_max _ _ _ _ H2) H2') as [<- <-].
    eapply N; eauto.
  - rewrite (bound_fun _ _ _ H1' H1) in H2'. destruct (det_bounded _ _ _ _ _ _ H2 H2') as [<- <-].
    rewrite <- (res_fun _ _ _ _ H3 H3') in *. rewrite <- (object_at_fun _ _ _ _ H4 H4') in *.
    rewrite (kind_of_fun _ _ _ H5 H5') in H6. exact H6.
  - rewrite (bound_fun _ _ _ H1' H1) in H2'. destruct (det_bounded _ _ _ _ _ _ H2 H2') as [<- <-].
    rewrite <- (res_fun _ _ _ _ H3 H3') in *. rewrite <- (object_at_fun _ _ _ _ H4 H4') in *.
    rewrite <- (kind_of_fun _ _ _ H5 H5') in *. eapply N; eauto.
Qed.

Lemma update_fails_fun id obj cls i x y : update_fails e id obj cls i x -> update_fails e id obj cls i y -> x = y.
Proof.
  intros Hx Hy.
  destruct Hx as [b H1 Hb|b s j A H1 H2 N|b s j p pn A H1 H2 H3 H4 H5|b s j p pn tag x A H1 H2 H3 H4 H5 T N M];
  destruct Hy as [b' H1' Hb'|b' s' j' A' H1' H2' N'|b' s' j' p' pn' A' H1' H2' H3' H4' H5'|b' s' j' p' pn' tag' y A' H1' H2' H3' H4' H5' T' N' M'];
  auto; try (destruct (stream_not_ample _ _ _ H1 Hb ltac:(assumption)));
  try (destruct (stream_not_ample _ _ _ H1' Hb' ltac:(assumption)));
  rewrite (bound_fun _ _ _ H1' H1) in H2';
  (assert (K : s = s' /\ j = j')
     by (apply (bounded_same b i); [first [left; exact H2|right; exact H2]|first [left; exact H2'|right; exact H2']]));
  destruct K as [<- <-]; auto.
  - destruct (N _ H3').
  - rewrite <- (res_fun _ _ _ _ H3 H3') in *. rewrite <- (object_at_fun _ _ _ _ H4 H4') in *.
    rewrite <- (kind_of_fun _ _ _ H5 H5') in *. congruence.
  - destruct (N' _ H3).
  - rewrite <- (res_fun _ _ _ _ H3 H3') in *. rewrite <- (object_at_fun _ _ _ _ H4 H4') in *.
    rewrite <- (kind_of_fun _ _ _ H5 H5') in *. congruence.
  - rewrite <- (res_fun _ _ _ _ H3 H3') in *. rewrite <- (object_at_fun _ _ _ _ H4 H4') in *.
    rewrite <- (kind_of_fun _ _ _ H5 H5') in *. now rewrite (misfit_det _ _ _ _ _ M M').
Qed.

(** ** Records *)

(** a record that can be decoded *)
Definition good_record h : wire record := fun i r o => ample_actor e i /\ w_record e h i r o.

Lemma record_fails_none h i us x : record_fails e h i us x -> forall r o, ~ good_record h i r o.
Proof.
  intros Hf r o [Am (id & i1 & Hi & H)].
  destruct Hf as [T|id' A Hi'|id' j x A Hi' Hn|id' j A Hi' N|id' j obj cls us A Hi' Ho Hs Hm|id' j obj cls us k x A Hi' Ho Hs Hm Hu];
    [auto|destruct (det_actor _ _ _ _ _ Hi Hi') as [<- ->]..].
  - destruct r as [a|y|y vs]; [destruct H as (i2 & E & _)|destruct H as (_ & E)|destruct H as (_ & i2 & ob & c & E & _)]; discriminate.
  - destruct r as [a|y|y vs]; [destruct H as (i2 & E & H)|destruct H as (_ & E)|destruct H as (_ & i2 & ob & c & E & _)]; try discriminate.
    injection E as <-. eapply new_fails_none; eauto.
  - destruct r as [a|y|y vs]; [destruct H as (i2 & E & H)|destruct H as (_ & E)|destruct H as (_ & i2 & ob & c & E & Ho & _)]; try discriminate.
    eapply N; eauto.
  - destruct r as [a|y|y vs]; [destruct H as (i2 & E & H)|destruct H as (_ & E)|destruct H as (-> & i2 & ob & c & E & Ho' & Hs' & H)]; try discriminate.
    injection E as <-. unfold actor_object in *. assert (ob = obj) by congruence. subst ob.
    rewrite <- (spawnable_fun _ _ _ _ Hs Hs') in *. apply many_good in H.
    destruct (many_before_det _ (det_good id cls) _ _ _ _ _ H Hm Logic.I Logic.I) as [_ E']. discriminate.
  - destruct r as [a|y|y vs]; [destruct H as (i2 & E & H)|destruct H as (_ & E)|destruct H as (-> & i2 & ob & c & E & Ho' & Hs' & H)]; try discriminate.
    injection E as <-. unfold actor_object in *. assert (ob = obj) by congruence. subst ob.
    rewrite <- (spawnable_fun _ _ _ _ Hs Hs') in *. apply many_good in H.
    destruct (many_before_det _ (det_good id cls) _ _ _ _ _ H Hm Logic.I (update_fails_none _ _ _ _ _ Hu)) as [_ E']. discriminate.
Qed.

Lemma record_fails_fun h i us x us' y : record_fails e h i us x -> record_fails e h i us' y -> us = us' /\ x = y.
Proof.
  intros Hx Hy.
  destruct Hx as [T|id A Hi|id j x A Hi Hn|id j A Hi N|id j obj cls us A Hi Ho Hs Hm|id j obj cls us k x A Hi Ho Hs Hm Hu];
  destruct Hy as [T'|id' A' Hi'|id' j' y A' Hi' Hn'|id' j' A' Hi' N'|id' j' obj' cls' us' A' Hi' Ho' Hs' Hm'|id' j' obj' cls' us' k' y A' Hi' Ho' Hs' Hm' Hu'];
  auto; try (destruct (A T')); try (destruct (A' T));
  destruct (det_actor _ _ _ _ _ Hi Hi') as [<- E]; try discriminate E; auto; try (injection E as <-).
  - split; auto. eapply new_fails_fun; eauto.
  - destruct (N _ Ho').
  - destruct (N _ Ho').
  - destruct (N' _ Ho).
  - unfold actor_object in *. assert (obj' = obj) by congruence. subst obj'. rewrite <- (spawnable_fun _ _ _ _ Hs Hs') in *.
    destruct (many_before_det _ (det_good id cls) _ _ _ _ _ Hm Hm' Logic.I Logic.I) as [-> _]. auto.
  - unfold actor_object in *. assert (obj' = obj) by congruence. subst obj'. rewrite <- (spawnable_fun _ _ _ _ Hs Hs') in *.
    destruct (many_before_det _ (det_good id cls) _ _ _ _ _ Hm Hm' Logic.I (update_fails_none _ _ _ _ _ Hu')) as [_ E']. discriminate.
  - destruct (N' _ Ho).
  - unfold actor_object in *. assert (obj' = obj) by congruence. subst obj'. rewrite <- (spawnable_fun _ _ _ _ Hs Hs') in *.
    destruct (many_before_det _ (det_good id cls) _ _ _ _ _ Hm Hm' (update_fails_none _ _ _ _ _ Hu) Logic.I) as [_ E']. discriminate.
  - unfold actor_object in *. assert (obj' = obj) by congruence. subst obj'. rewrite <- (spawnable_fun _ _ _ _ Hs Hs') in *.
    destruct (many_before_det _ (det_good id cls) _ _ _ _ _ Hm Hm' (update_fails_none _ _ _ _ _ Hu) (update_fails_none _ _ _ _ _ Hu')) as [-> E'].
    injection E' as <-. split; auto. eapply update_fails_fun; eauto.
Qed.

Lemma records_before_det : forall h i rs j, records_before e h i rs j -> forall rs' j', records_before e h i rs' j' ->
  stuck (good_record (h ++ flat_map record_ops rs)) j -> stuck (good_record (h ++ flat_map record_ops rs')) j' ->
  rs = rs' /\ j = j'.
Proof.
  induction 1 as [h i|h i r m rs j Am Hr H IH]; intros rs' j' H' S S'.
  - inversion H' as [|h0 i0 r m rs j0 Am Hr H2 E1]; subst; auto. cbn [flat_map] in S. rewrite app_nil_r in S.
    exfalso. apply (S r m). split; auto.
  - inversion H' as [|h0 i0 r' m' rs0 j0 Am' Hr' H2 E1]; subst.
    + cbn [flat_map] in S'. rewrite app_nil_r in S'. exfalso. apply (S' r m). split; auto.
    + destruct (det_record h _ _ _ _ _ Hr Hr') as [<- <-]. cbn [flat_map] in S, S'. rewrite app_assoc in S, S'.
      destruct (IH _ _ H2 S S') as [-> ->]. auto.
Qed.

Lemma records_good h i rs o : w_records e h i rs o -> records_before e h i rs (false :: o).
Proof.
  induction 1 as [h o|h i r m rs o Hr H IH]; [constructor|]. apply rb_cons with (m := m); auto.
  destruct Hr as (id & i1 & (raw & Hw & _) & Hb).
  assert (K : (2 <= length i1)%nat).
  { destruct r as [a|y|y us].
    - destruct Hb as (i2 & -> & _). cbn [length]. lia.
    - destruct Hb as (_ & ->). destruct H; cbn [length]; lia.
    - destruct Hb as (_ & i2 & obj & cls & -> & _). cbn [length]. lia. }
  apply w_bounded_length in Hw. unfold ample_actor, too_few. pose proof (Z.log2_nonneg (Z.max 1 (e_max_channels e))). lia.
Qed.

(** ** Frames *)

(** the end marker *)
Definition end_mark (i : bits) : Prop := exists t i1 d o, w_f32 i t i1 /\ w_f32 i1 d o /\ time_zero t /\ time_zero d.

Lemma frame_fails_none h i rs us x : frame_fails e h i rs us x -> (forall y o, ~ w_frame e h i y o) /\ ~ end_mark i.
Proof.
  assert (Z : forall t, time_zero t -> time_ok t) by (unfold time_zero, time_ok; tauto).
  intros Hf. split.
  - intros [[t d] rs0] o (i1 & i2 & H1 & H2 & Ht & Hd & Nz & Hr).
    destruct Hf as [N|t' j1 H1' N|t' j1 H1' Ht' N|t' j1 d' j2 H1' Ht' H2' N|t' j1 d' j2 rs H1' Ht' H2' Hd' Nz' Hb|t' j1 d' j2 rs us k x H1' Ht' H2' Hd' Nz' Hb Hx].
    + eapply N; eauto.
    + destruct (det_f32 _ _ _ _ _ H1 H1') as [<- <-]. auto.
    + destruct (det_f32 _ _ _ _ _ H1 H1') as [<- <-]. eapply N; eauto.
    + destruct (det_f32 _ _ _ _ _ H1 H1') as [<- <-]. destruct (det_f32 _ _ _ _ _ H2 H2') as [<- <-]. auto.
    + destruct (det_f32 _ _ _ _ _ H1 H1') as [<- <-]. destruct (det_f32 _ _ _ _ _ H2 H2') as [<- <-].
      apply records_good in Hr. destruct (records_before_det _ _ _ _ Hr _ _ Hb Logic.I Logic.I) as [_ E]. discriminate.
    + destruct (det_f32 _ _ _ _ _ H1 H1') as [<- <-]. destruct (det_f32 _ _ _ _ _ H2 H2') as [<- <-].
      apply records_good in Hr. destruct (records_before_det _ _ _ _ Hr _ _ Hb Logic.I (record_fails_none _ _ _ _ Hx)) as [_ E]. discriminate.
  - intros (t & i1 & d & o & H1 & H2 & Zt & Zd).
    destruct Hf as [N|t' j1 H1' N|t' j1 H1' Ht' N|t' j1 d' j2 H1' Ht' H2' N|t' j1 d' j2 rs H1' Ht' H2' Hd' Nz' Hb|t' j1 d' j2 rs us k x H1' Ht' H2' Hd' Nz' Hb Hx].
    + eapply N; eauto.
    + destruct (det_f32 _ _ _ _ _ H1 H1') as [<- <-]. auto.
    + destruct (det_f32 _ _ _ _ _ H1 H1') as [<- <-]. eapply N; eauto.
    + destruct (det_f32 _ _ _ _ _ H1 H1') as [<- <-]. destruct (det_f32 _ _ _ _ _ H2 H2') as [<- <-]. auto.
    + destruct (det_f32 _ _ _ _ _ H1 H1') as [<- <-]. destruct (det_f32 _ _ _ _ _ H2 H2') as [<- <-]. auto.
    + destruct (det_f32 _ _ _ _ _ H1 H1') as [<- <-]. destruct (det_f32 _ _ _ _ _ H2 H2') as [<- <-]. auto.
Qed.

Lemma frame_fails_fun h i rs us x rs' us' y : frame_fails e h i rs us x -> frame_fails e h i rs' us' y ->
  rs = rs' /\ us = us' /\ x = y.
Proof.
  intros Hx Hy.
  destruct Hx as [N|t j1 H1 N|t j1 H1 Ht N|t j1 d j2 H1 Ht H2 N|t j1 d j2 rs H1 Ht H2 Hd Nz Hb|t j1 d j2 rs us k x H1 Ht H2 Hd Nz Hb Hx];
  destruct Hy as [N'|t' j1' H1' N'|t' j1' H1' Ht' N'|t' j1' d' j2' H1' Ht' H2' N'|t' j1' d' j2' rs' H1' Ht' H2' Hd' Nz' Hb'|t' j1' d' j2' rs' us' k' y H1' Ht' H2' Hd' Nz' Hb' Hy];
  auto; try (exfalso; eapply N; eauto; fail); try (exfalso; eapply N'; eauto; fail);
  destruct (det_f32 _ _ _ _ _ H1 H1') as [<- <-]; auto; try contradiction;
  try (exfalso; eapply N; eauto; fail); try (exfalso; eapply N'; eauto; fail);
  destruct (det_f32 _ _ _ _ _ H2 H2') as [<- <-]; auto; try contradiction.
  - destruct (records_before_det _ _ _ _ Hb _ _ Hb' Logic.I Logic.I) as [-> _]. auto.
  - destruct (records_before_det _ _ _ _ Hb _ _ Hb' Logic.I (record_fails_none _ _ _ _ Hy)) as [_ E]. discriminate.
  - destruct (records_before_det _ _ _ _ Hb _ _ Hb' (record_fails_none _ _ _ _ Hx) Logic.I) as [_ E]. discriminate.
  - destruct (records_before_det _ _ _ _ Hb _ _ Hb' (record_fails_none _ _ _ _ Hx) (record_fails_none _ _ _ _ Hy)) as [-> E].
    injection E as <-. destruct (record_fails_fun _ _ _ _ _ _ Hx Hy) as [-> ->]. auto.
Qed.

Lemma det_records h : det (w_records e h).
Proof.
  intros i rs o rs' o' H H'. apply records_good in H. apply records_good in H'.
  destruct (records_before_det _ _ _ _ H _ _ H' Logic.I Logic.I) as [-> E]. injection E as ->. auto.
Qed.

Lemma det_frame h : det (w_frame e h).
Proof.
  intros i [[t d] rs] o [[t' d'] rs'] o' (i1 & i2 & H1 & H2 & _ & _ & _ & H) (i1' & i2' & H1' & H2' & _ & _ & _ & H').
  destruct (det_f32 _ _ _ _ _ H1 H1') as [<- <-]. destruct (det_f32 _ _ _ _ _ H2 H2') as [<- <-].
  destruct (det_records _ _ _ _ _ _ H H') as [-> ->]. auto.
Qed.

Lemma frames_before_det h i xs h1 j : frames_before e h i xs h1 j -> forall ys h2 k, frames_before e h i ys h2 k ->
  (forall y o, ~ w_frame e h1 j y o) -> (forall y o, ~ w_frame e h2 k y o) -> xs = ys /\ h1 = h2 /\ j = k.
Proof.
  induction 1 as [h i|h i t d rs m xs h1 j Hf H IH]; intros ys h2 k H' S S'.
  - inversion H' as [|h0 i0 t d rs m ys0 h3 k0 Hf H2]; subst; auto. destruct (S _ _ Hf).
  - inversion H' as [|h0 i0 t' d' rs' m' ys0 h3 k0 Hf' H2]; subst; [destruct (S' _ _ Hf)|].
    destruct (det_frame _ _ _ _ _ _ Hf Hf') as [E <-]. injection E as <- <- <-.
    destruct (IH _ _ _ H2 S S') as (-> & -> & ->). auto.
Qed.

Lemma frames_before_none n h i fs : w_frames e n h i fs -> forall xs h1 j, frames_before e h i xs h1 j ->
  (length xs < n)%nat -> j <> [] -> (forall y o, ~ w_frame e h1 j y o) -> end_mark j.
Proof.
  induction 1 as [h i|n h|n h i t i1 d o H1 H2 Zt Zd|n h i t d rs m fs Hf H IH]; intros xs h1 j Hb Ln Nj S.
  - lia.
  - inversion Hb as [|h0 i0 t d rs m ys h3 k Hf H2]; subst; [congruence|]. exfalso.
    destruct Hf as (i1 & i2 & [_ Hf] & _). apply (f_equal (@length _)) in Hf. rewrite app_length, enc_bits_length in Hf. cbn in Hf. lia.
  - inversion Hb as [|h0 i0 t' d' rs m ys h3 k Hf H3]; subst; [exists t, i1, d, o; auto|]. exfalso.
    destruct Hf as (j1 & j2 & H1' & H2' & _ & _ & Nz & _).
    destruct (det_f32 _ _ _ _ _ H1 H1') as [<- <-]. destruct (det_f32 _ _ _ _ _ H2 H2') as [<- <-]. auto.
  - inversion Hb as [|h0 i0 t' d' rs' m' ys h3 k Hf' H3]; subst; [destruct (S _ _ Hf)|].
    destruct (det_frame _ _ _ _ _ _ Hf Hf') as [E <-]. injection E as <- <- <-.
    eapply IH; eauto. cbn [length] in Ln. lia.
Qed.

Lemma frames_fail_none n i x ctx fs : frames_fail e n i x ctx -> ~ w_frames e n [] i fs.
Proof.
  intros (xs & h & j & rs & us & Hb & Ln & Nj & Hf & _) H. destruct (frame_fails_none _ _ _ _ _ Hf) as [N E].
  apply E. eapply frames_before_none; eauto.
Qed.

Lemma frames_fail_fun n i x c y d : frames_fail e n i x c -> frames_fail e n i y d ->
  same_error (NFrameError x c) (NFrameError y d).
Proof.
  intros (xs & h & j & rs & us & Hb & _ & _ & Hf & C1 & C2 & C3 & C4 & _ & C5)
    (xs' & h' & j' & rs' & us' & Hb' & _ & _ & Hf' & D1 & D2 & D3 & D4 & _ & D5).
  destruct (frames_before_det _ _ _ _ _ Hb _ _ _ Hb' (proj1 (frame_fails_none _ _ _ _ _ Hf)) (proj1 (frame_fails_none _ _ _ _ _ Hf')))
    as (<- & <- & <-).
  destruct (frame_fails_fun _ _ _ _ _ _ _ _ Hf Hf') as (<- & <- & <-).
  split; [reflexivity|]. do 4 (split; [congruence|]). intros a o. now rewrite C5, D5.
Qed.

End Decoder.
