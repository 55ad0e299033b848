(** * Proofs: records and frames *)

From Coq Require Import ZArith List Bool Lia ZifyBool ZifyNat.
From Verif Require Import Base F32 NetTypes SegArray Errors Header Body BitReader NetModels Attributes Data ObjectIndex
  FrameDecoder BitLemmas Wire ReaderLogic LeafProofs VectorProofs AttrProofs AttrSame SpecBasic BasicProofs HierarchyProofs
  MapProofs SpecNet TableProofs CacheProofs SpecFrames FrameLogic TimeProofs FrameProofs.
Open Scope Z_scope.
#[local] Opaque PARENT_CLASSES SPAWN_STATS ATTRIBUTES.

Lemma as_i32_range x : is_i32 (as_i32 x).
Proof. unfold is_i32, as_i32. pose proof (to_signed_range 32 x). lia. Qed.

Lemma signed32_as_i32 x : 0 <= x < 2 ^ 32 -> as_i32 x = signed32 x.
Proof. intros H. unfold as_i32, to_signed, signed32. rewrite Z.mod_small by lia. reflexivity. Qed.

Lemma map_after_app {V} n (a b : list (map_op V)) :
  map_after n (a ++ b) = fold_left (map_step n) b (map_after n a).
Proof. apply fold_left_app. Qed.

Lemma map_step_ext {V} n (f g : Z -> option V) o k : f k = g k -> map_step n f o k = map_step n g o k.
Proof.
  intros H. destruct o as [j v|j]; simpl; unfold upd.
  - destruct (k =? j); auto.
  - destruct ((0 <=? j) && (j <? n)); auto. destruct (k =? j); auto.
Qed.

Lemma map_steps_ext {V} n (ops : list (map_op V)) : forall f g k, f k = g k ->
  fold_left (map_step n) ops f k = fold_left (map_step n) ops g k.
Proof.
  induction ops as [|o ops IH]; intros f g k H; auto. cbn [fold_left]. apply IH. now apply map_step_ext.
Qed.

(** the bits never grow, so any bound on them is kept *)
Lemma facc_tight {A} I N N0 K (m : fcomp A) P N' K' :
  facc I N K m P N' K' -> (N0 <= N)%nat -> facc I N0 K m P N0 K'.
Proof.
  intros H L0 s W L K0. specialize (H s W ltac:(lia) K0). destruct (m s) as [[v|x|p] t]; auto.
  destruct H as (V & Le & _ & K1 & H). split; auto. split; auto. split; [lia|]. auto.
Qed.

Lemma fsame_tight {A} I N N0 K (m1 m2 : fcomp A) P N' K' N2 K2 :
  fsame I N K m1 m2 N' K' -> facc I N K m1 P N2 K2 -> (N0 <= N)%nat -> fsame I N0 K m1 m2 N0 K'.
Proof.
  intros H Ha L0 s1 s2 W1 W2 Fb Vs L Ka Kb.
  destruct (H s1 s2 W1 W2 Fb Vs ltac:(lia) Ka Kb) as (o & t1 & t2 & E1 & E2 & V1 & V2 & Vt & G).
  specialize (Ha s1 W1 ltac:(lia) Ka). rewrite E1 in Ha. destruct Ha as (_ & Le & _).
  exists o, t1, t2. do 5 (split; [assumption|]). destruct o; auto. destruct G as (G1 & _ & G3 & G4).
  split; auto. split; [lia|]. auto.
Qed.

Lemma fsame_bind_val {A C} I N K N1 K1 N2 K2 N3 K3 (m1 m2 : fcomp A) (k1 k2 : A -> fcomp C) P :
  fsame I N K m1 m2 N1 K1 -> facc I N K m1 P N3 K3 ->
  (forall x i a y o, I x -> P x i a y o -> fsame I N1 K1 (k1 a) (k2 a) N2 K2) ->
  fsame I N K (bind m1 k1) (bind m2 k2) N2 K2.
Proof.
  intros Hm Ha Hk s1 s2 W1 W2 Fb Vs L Ka Kb. unfold bind.
  destruct (Hm s1 s2 W1 W2 Fb Vs L Ka Kb) as (o & t1 & t2 & E1 & E2 & V1 & V2 & Vt & G).
  specialize (Ha s1 W1 L Ka). rewrite E1 in Ha. rewrite E1, E2. destruct o as [a|x|p].
  - destruct G as (G1 & G2 & G3 & G4). destruct Ha as (_ & _ & _ & _ & Ha).
    eapply (Hk (vis s1) (fbits s1) a (vis t1) (fbits t1)); auto; [apply W1|apply Ha; auto].
  - exists (Err x), t1, t2. auto 10.
  - destruct G.
Qed.

Section Decoder.
Context (F : frame_decoder) (e : net_env) (D : decoder_for F e).

(** ** Actors and their history *)

Definition the_cache (obj : Z) : cache_info :=
  match cache_of F obj with Some ci => ci | None => mkCache 0 0 (seg_new 0) end.

Definition tag (o : map_op Z) : map_op (Z * cache_info) :=
  match o with
  | MInsert k obj => MInsert k (obj, the_cache obj)
  | MDelete k => MDelete k
  end.

Definition of_hist (h : list (map_op Z)) : seg_array (Z * cache_info) := fold_left run_op (map tag h) (seg_new 200).

Definition op_ok (o : map_op Z) : Prop :=
  is_i32 (op_key o) /\ match o with MInsert _ obj => is_i32 obj /\ cache_of F obj <> None | MDelete _ => True end.
Definition hist_ok (h : list (map_op Z)) : Prop := Forall op_ok h.

Lemma of_hist_app h ops : of_hist (h ++ ops) = fold_left run_op (map tag ops) (of_hist h).
Proof. unfold of_hist. now rewrite map_app, fold_left_app. Qed.

Lemma map_after_tag n h : forall k, map_after n (map tag h) k =
  match map_after n h k with Some obj => Some (obj, the_cache obj) | None => None end.
Proof.
  unfold map_after.
  assert (G : forall f g, (forall k, f k = match g k with Some obj => Some (obj, the_cache obj) | None => None end) ->
    forall k, fold_left (map_step n) (map tag h) f k =
      match fold_left (map_step n) h g k with Some obj => Some (obj, the_cache obj) | None => None end).
  { induction h as [|o h IH]; intros f g Hfg k; cbn [map fold_left]; auto. apply IH. clear k. intros k.
    destruct o as [j v|j]; simpl; unfold upd.
    - destruct (k =? j); auto.
    - destruct ((0 <=? j) && (j <? n)); auto. destruct (k =? j); auto. }
  apply G. auto.
Qed.

Lemma of_hist_get h k : hist_ok h -> is_i32 k ->
  seg_get k (of_hist h) = match map_after 200 h k with Some obj => Some (obj, the_cache obj) | None => None end.
Proof.
  intros H Hk. unfold of_hist. rewrite (seg_ops 200); auto; [apply map_after_tag|lia|].
  unfold hist_ok in H. apply Forall_map. eapply Forall_impl; [|exact H]. intros [j v|j] [Ho _]; exact Ho.
Qed.

Lemma map_after_value n h k obj : hist_ok h -> map_after n h k = Some obj -> is_i32 obj /\ cache_of F obj <> None.
Proof.
  unfold map_after. assert (G : forall f, (forall k obj, f k = Some obj -> is_i32 obj /\ cache_of F obj <> None) ->
    hist_ok h -> forall k obj, fold_left (map_step n) h f k = Some obj -> is_i32 obj /\ cache_of F obj <> None).
  { induction h as [|o h IH]; intros f Hf H; cbn [fold_left]; auto. inversion H as [|? ? H1 H2]; subst.
    apply IH; auto. intros j w. destruct o as [i v|i]; simpl; unfold upd.
    - destruct (j =? i); [|apply Hf]. intros [= <-]. apply H1.
    - destruct ((0 <=? i) && (i <? n)); [apply Hf|]. destruct (j =? i); [discriminate|apply Hf]. }
  intros H. apply G; auto. discriminate.
Qed.

(** equal actors, equal lookups *)
Lemma of_hist_inj h h' k : hist_ok h -> hist_ok h' -> of_hist h = of_hist h' -> is_i32 k ->
  map_after 200 h k = map_after 200 h' k.
Proof.
  intros H H' E Hk. pose proof (of_hist_get h k H Hk) as G. rewrite E, (of_hist_get h' k H' Hk) in G.
  destruct (map_after 200 h k), (map_after 200 h' k); congruence.
Qed.

Lemma actor_id_i32 i id o : w_actor_id e i id o -> is_i32 id.
Proof.
  intros (a & [R _] & ->). pose proof (df_range _ _ D) as M. rewrite <- signed32_as_i32 by lia. apply as_i32_range.
Qed.

Lemma w_record_ext h h' i r o : (forall k, is_i32 k -> map_after 200 h k = map_after 200 h' k) ->
  w_record e h i r o -> w_record e h' i r o.
Proof.
  intros H (id & i1 & Hid & Hr). exists id, i1. split; auto. destruct r as [a|id'|id' us]; auto.
  destruct Hr as (-> & i2 & obj & cls & Hi & Ho & Hs & Hus). split; auto.
  exists i2, obj, cls. split; auto. split; auto. unfold actor_object in *.
  rewrite <- H; auto. eapply actor_id_i32; eauto.
Qed.

Lemma w_records_ext i rs o h : w_records e h i rs o -> forall h',
  (forall k, is_i32 k -> map_after 200 h k = map_after 200 h' k) -> w_records e h' i rs o.
Proof.
  induction 1 as [h o|h i r m rs o Hr Hrs IH]; intros h' H; [constructor|].
  econstructor; [eapply w_record_ext; eauto|]. apply IH. intros k Hk. rewrite !map_after_app.
  apply map_steps_ext. auto.
Qed.

Definition Inv (x : vis_state) : Prop := exists h, hist_ok h /\ vs_actors x = of_hist h.

Lemma inv_updates us x : Inv x -> Inv (add_updates us x).
Proof. intros H. exact H. Qed.

Definition apply_rec (r : record) (x : vis_state) : vis_state :=
  mkVis (fold_left run_op (map tag (record_ops r)) (vs_actors x)) (vs_new x ++ new_of r)
        (vs_deleted x ++ deleted_of r) (vs_updated x ++ updated_of r).

Definition apply_recs (rs : list record) (x : vis_state) : vis_state :=
  mkVis (fold_left run_op (map tag (flat_map record_ops rs)) (vs_actors x)) (vs_new x ++ flat_map new_of rs)
        (vs_deleted x ++ flat_map deleted_of rs) (vs_updated x ++ flat_map updated_of rs).

Lemma apply_recs_cons r rs x : apply_recs (r :: rs) x = apply_recs rs (apply_rec r x).
Proof.
  unfold apply_recs, apply_rec. cbn [flat_map vs_actors vs_new vs_deleted vs_updated].
  rewrite map_app, fold_left_app, <- !app_assoc. reflexivity.
Qed.

Lemma apply_recs_nil x : apply_recs [] x = x.
Proof. unfold apply_recs. cbn. rewrite !app_nil_r. now destruct x. Qed.

(** ** One record *)

(** what follows the actor id *)
Definition f_body (id : Z) : fwire unit := fun x i v y o =>
  v = tt /\ exists h r, hist_ok h /\ vs_actors x = of_hist h /\
    match r with
    | RDelete id' => id' = id /\ i = false :: o
    | RNew a => exists i2, i = true :: true :: i2 /\ w_new e id i2 a o
    | RUpdate id' us => id' = id /\ exists i2 obj cls, i = true :: false :: i2 /\
        actor_object h id obj /\ spawnable (e_objects e) obj cls /\ w_many (w_update e id cls) i2 us o
    end /\ y = apply_rec r x.

(** the body of an announcement as the decoder reads it *)
Definition m_new (id : Z) : wire new_actor := fun i a o =>
  exists name i1 b i2 obj i3 sp t,
    w_when (e_names e) (w_int 32) i name i1 /\ w_bit i1 b i2 /\ w_int 32 i2 obj i3 /\
    getZ (as_usize obj) (fd_spawns F) = Some sp /\ w_trajectory sp (e_net e) i3 t o /\ a = mkNew id name obj t.

Lemma m_new_iff id i a o : cache_of F (n_object_id a) <> None -> m_new id i a o <-> w_new e id i a o.
Proof.
  intros C. unfold m_new, w_new. split.
  - intros (name & i1 & b & i2 & obj & i3 & sp & t & H1 & H2 & H3 & H4 & H5 & ->). cbn [n_object_id] in C.
    destruct (cache_of F obj) as [ci|] eqn:E; [|congruence].
    assert (Hi : is_i32 obj) by (destruct H3 as [H3 _]; exact H3).
    destruct (df_cache _ _ D obj ci Hi E) as (cls & S & _).
    exists name, i1, b, i2, obj, i3, cls, sp, t. do 3 (split; [assumption|]). split; auto. split; auto.
    now apply (df_spawn _ _ D obj cls).
  - intros (name & i1 & b & i2 & obj & i3 & cls & sp & t & H1 & H2 & H3 & S & H4 & H5 & ->).
    exists name, i1, b, i2, obj, i3, sp, t. do 3 (split; [assumption|]). split; auto.
    now apply (df_spawn _ _ D obj cls).
Qed.

Lemma w_new_cached id i a o : w_new e id i a o -> cache_of F (n_object_id a) <> None /\ is_i32 (n_object_id a) /\ n_actor_id a = id.
Proof.
  intros (name & i1 & b & i2 & obj & i3 & cls & sp & t & H1 & H2 & H3 & S & H4 & H5 & ->). cbn [n_object_id n_actor_id].
  destruct (df_cached _ _ D obj cls S) as [ci ->]. split; [discriminate|]. split; auto. destruct H3 as [H3 _]. exact H3.
Qed.

Lemma m_new_ids id i a o : m_new id i a o -> is_i32 (n_object_id a) /\ n_actor_id a = id.
Proof.
  intros (name & i1 & b & i2 & obj & i3 & sp & t & H1 & H2 & H3 & S & H4 & ->). cbn [n_object_id n_actor_id].
  split; auto. destruct H3 as [H3 _]. exact H3.
Qed.

Lemma facc_new B (HB : bitter_ok B) N K id : facc Inv N K (parse_new_actor B F id) (f_lift (m_new id)) N 0.
Proof.
  eapply facc_weaken with (K := 0%nat); [|reflexivity|lia|reflexivity|reflexivity].
  unfold parse_new_actor. eapply facc_iff.
  - eapply facc_bind with (N1 := N) (K1 := 0%nat) (P := f_lift (w_when (e_names e) (w_int 32))).
    { rewrite (df_names _ _ D). unfold w_when. destruct (e_names e).
      - apply facc_reader, acc_ok_or, acc_fmap, acc_read_i32, HB.
      - eapply facc_iff; [apply facc_ret|]. intros x i v y o _ _. unfold f_ret, f_lift, w_ret. tauto. }
    intros name. eapply facc_bind; [apply facc_reader, acc_ok_or, acc_read_bit, HB|]. intros b.
    eapply facc_bind; [apply facc_reader, acc_ok_or, acc_read_i32, HB|]. intros obj.
    eapply facc_need. intros sp _. rewrite (df_net _ _ D).
    eapply facc_bind; [apply facc_reader, acc_ok_or, (acc_trajectory B HB sp)|]. intros t.
    apply facc_ret.
  - intros x i v y o _ _. unfold f_bind, f_lift, m_new, f_ret. split.
    + intros (name & z & i1 & [H1 ->] & b & z2 & i2 & [H2 ->] & obj & z3 & i3 & [H3 ->] & H).
      destruct (getZ (as_usize obj) (fd_spawns F)) as [sp|] eqn:E; [|destruct H].
      destruct H as (t & z4 & i4 & [H4 ->] & -> & -> & ->). split; auto.
      exists name, i1, b, i2, obj, i3, sp, t. auto 10.
    + intros [(name & i1 & b & i2 & obj & i3 & sp & t & H1 & H2 & H3 & H4 & H5 & ->) ->].
      exists name, x, i1. split; auto. exists b, x, i2. split; auto. exists obj, x, i3. split; auto.
      rewrite H4. exists t, x, o. auto.
Qed.

Lemma fsame_new B1 B2 (H1 : bitter_ok B1) (H2 : bitter_ok B2) N K id :
  fsame Inv N K (parse_new_actor B1 F id) (parse_new_actor B2 F id) N 0.
Proof.
  eapply fsame_weaken with (K := 0%nat); [|reflexivity|lia|reflexivity|reflexivity].
  unfold parse_new_actor.
  eapply fsame_bind with (N1 := N) (K1 := 0%nat).
  { destruct (do_parse_name F); [|apply fsame_ret].
    apply fsame_reader, same_ok_or, same_fmap. eapply acc_same; apply acc_read_i32; auto. }
  intros name. eapply fsame_bind; [apply fsame_reader, same_ok_or; eapply acc_same; apply acc_read_bit; auto|]. intros b.
  eapply fsame_bind; [apply fsame_reader, same_ok_or; eapply acc_same; apply acc_read_i32; auto|]. intros obj.
  apply fsame_need. intros sp _. 
  eapply fsame_bind; [apply fsame_reader, same_ok_or, same_trajectory; auto|]. intros t. apply fsame_ret.
Qed.

(** the decoder's code for one record after the actor id *)
Definition body_code (B : bitter) (afuel : nat) (id alive : Z) : fcomp unit :=
  if alive =? 1 then
    bind (f_not_enough "Is new actor" (read_bit B)) (fun is_new =>
      if is_new : bool then
        bind (parse_new_actor B F id) (fun actor =>
        bind (need (FMissingCache id (n_object_id actor)) (cache_of F (n_object_id actor))) (fun ci =>
        bind (actors_insert (n_actor_id actor) (n_object_id actor, ci)) (fun _ => push_new actor)))
      else
        bind (actors_get id) (fun found =>
        bind (need (FMissingActor id) found) (fun oc => attributes_loop B F afuel id (fst oc) (snd oc))))
  else bind (push_deleted id) (fun _ => actors_delete id).

Definition vis_insert (k : Z) (v : Z * cache_info) (x : vis_state) : vis_state :=
  mkVis (seg_insert k v (vs_actors x)) (vs_new x) (vs_deleted x) (vs_updated x).
Definition vis_delete (k : Z) (x : vis_state) : vis_state :=
  mkVis (seg_delete k (vs_actors x)) (vs_new x) (vs_deleted x) (vs_updated x).
Definition vis_new (a : new_actor) (x : vis_state) : vis_state :=
  mkVis (vs_actors x) (vs_new x ++ [a]) (vs_deleted x) (vs_updated x).
Definition vis_deleted (id : Z) (x : vis_state) : vis_state :=
  mkVis (vs_actors x) (vs_new x) (vs_deleted x ++ [id]) (vs_updated x).

Lemma inv_insert id obj ci x : is_i32 id -> is_i32 obj -> cache_of F obj = Some ci -> Inv x ->
  Inv (vis_insert id (obj, ci) x).
Proof.
  intros H1 H2 H3 (h & Hh & E). exists (h ++ [MInsert id obj]). split.
  - apply Forall_app. split; auto. constructor; [|constructor]. split; [exact H1|]. split; auto. congruence.
  - rewrite of_hist_app, <- E. cbn. unfold the_cache. now rewrite H3.
Qed.
Lemma inv_delete id x : is_i32 id -> Inv x -> Inv (vis_delete id x).
Proof.
  intros H1 (h & Hh & E). exists (h ++ [MDelete id]). split.
  - apply Forall_app. split; auto. constructor; [|constructor]. split; [exact H1|exact Logic.I].
  - rewrite of_hist_app, <- E. reflexivity.
Qed.

(** lookups in reachable states *)
Lemma inv_get x id : Inv x -> is_i32 id -> forall oc, seg_get id (vs_actors x) = Some oc ->
  is_i32 (fst oc) /\ cache_of F (fst oc) = Some (snd oc).
Proof.
  intros (h & Hh & E) Hid [obj ci]. rewrite E, of_hist_get by auto.
  destruct (map_after 200 h id) as [obj'|] eqn:M; [|discriminate]. intros [= <- <-]. cbn [fst snd].
  destruct (map_after_value _ _ _ _ Hh M) as [Hi Hc]. split; auto. unfold the_cache.
  destruct (cache_of F obj'); congruence.
Qed.

Lemma w_uint1 i a o : w_uint 1 i a o <-> exists b : bool, a = (if b then 1 else 0) /\ i = b :: o.
Proof.
  unfold w_uint. rewrite enc_bits_S. change (2 ^ Z.of_nat 1) with 2. simpl. split.
  - intros [R ->]. assert (a = 0 \/ a = 1) as [-> | ->] by lia; [exists false|exists true]; auto.
  - intros ([|] & -> & ->); split; auto; lia.
Qed.

Lemma apply_new_actor a ci x : cache_of F (n_object_id a) = Some ci ->
  vis_new a (vis_insert (n_actor_id a) (n_object_id a, ci) x) = apply_rec (RNew a) x.
Proof.
  intros H. unfold vis_new, vis_insert, apply_rec. cbn. unfold the_cache. rewrite H, !app_nil_r. reflexivity.
Qed.
Lemma apply_delete id x : vis_delete id (vis_deleted id x) = apply_rec (RDelete id) x.
Proof. unfold vis_delete, vis_deleted, apply_rec. cbn. rewrite !app_nil_r. reflexivity. Qed.
Lemma apply_update id us x : add_updates us x = apply_rec (RUpdate id us) x.
Proof. unfold add_updates, apply_rec. cbn. rewrite !app_nil_r. reflexivity. Qed.

Lemma facc_body B (HB : bitter_ok B) N afuel id : is_i32 id -> (N <= afuel)%nat ->
  facc Inv N 1 (bind (on_reader (peek_and_consume 1)) (body_code B afuel id)) (f_body id) N 0.
Proof.
  intros Hid Hf. eapply facc_iff.
  - eapply facc_bind with (N1 := N) (K1 := 0%nat)
      (Q := fun alive => if alive =? 1 then
              f_bind (f_lift w_bit) (fun is_new => if is_new : bool then
                f_bind (f_lift (m_new id)) (fun a => match cache_of F (n_object_id a) with
                  | Some ci => f_bind (f_mod (vis_insert (n_actor_id a) (n_object_id a, ci))) (fun _ => f_mod (vis_new a))
                  | None => f_none
                  end)
                else fun x i v y o => match seg_get id (vs_actors x) with
                  | Some oc => exists cls, spawnable (e_objects e) (fst oc) cls /\ f_attrs e id cls x i v y o
                  | None => False
                  end)
            else f_bind (f_mod (vis_deleted id)) (fun _ => f_mod (vis_delete id))).
    { apply (facc_accp Inv N 1 0). apply (accp_peek 1 1); lia. }
    intros alive. unfold body_code. destruct (alive =? 1).
    + eapply facc_bind; [apply facc_reader, acc_ok_or, acc_read_bit, HB|]. intros [|].
      * eapply facc_bind_val; [apply facc_new; auto|]. intros x0 i0 a y0 o0 _ [Hm _].
        apply m_new_ids in Hm as [Hobj Hida].
        apply facc_need. intros ci Hci. eapply facc_bind.
        -- apply facc_mod; try reflexivity. intros x. apply inv_insert; auto. now rewrite Hida.
        -- intros _. apply facc_mod; try reflexivity. intros x Hx. exact Hx.
      * eapply (facc_get Inv N 0 (fun x => seg_get id (vs_actors x))
          (fun found => bind (need (FMissingActor id) found) (fun oc => attributes_loop B F afuel id (fst oc) (snd oc)))
          (fun found x i v y o => match found with
                  | Some oc => exists cls, spawnable (e_objects e) (fst oc) cls /\ f_attrs e id cls x i v y o
                  | None => False
                  end)).
        intros x Hx. destruct (seg_get id (vs_actors x)) as [oc|] eqn:G.
        -- destruct (inv_get x id Hx Hid oc G) as [Ho Hc].
           destruct (df_cache _ _ D _ _ Ho Hc) as (cls & Hs & Hcf).
           eapply facc_iff.
           ++ eapply facc_ext with (m := attributes_loop B F afuel id (fst oc) (snd oc)); [reflexivity|].
              eapply facc_tight; [|exact Hf].
              apply (facc_attributes F e D Inv inv_updates B HB id (fst oc) cls (snd oc) Hcf afuel).
           ++ intros x' i v y o _ _. split; [intros H; exists cls; auto|].
              intros (cls' & Hs' & H). now rewrite (spawnable_fun _ _ _ _ Hs Hs').
        -- eapply facc_ext; [|apply (facc_fail Inv N 0 (FMissingActor id))]. reflexivity.
    + eapply facc_bind.
      * apply facc_mod; try reflexivity. intros x Hx. exact Hx.
      * intros _. apply facc_mod; try reflexivity. intros x. now apply inv_delete.
  - intros x i v y o Hx _. cbn beta. unfold f_bind at 1, f_lift at 1. split.
    + intros (a & z & m & [Ha ->] & H). apply w_uint1 in Ha as (b & -> & ->). destruct Hx as (h & Hh & Eh).
      destruct b; cbn [Z.eqb Pos.eqb] in H.
      * destruct H as (b & z & i2 & [-> ->] & H). destruct b.
        -- destruct H as (a & z & i3 & [Hm ->] & H).
           destruct (cache_of F (n_object_id a)) as [ci|] eqn:C; [|destruct H].
           destruct H as (u & z & i4 & (-> & -> & ->) & (-> & -> & ->)). split; auto.
           exists h, (RNew a). split; auto. split; auto. rewrite (apply_new_actor _ _ _ C). split; auto.
           exists i2. split; auto. apply m_new_iff; auto. congruence.
        -- rewrite Eh, of_hist_get in H by auto. destruct (map_after 200 h id) as [obj|] eqn:M; [|destruct H].
           cbn [fst] in H. destruct H as (cls & Hs & -> & us & Hus & ->). split; auto.
           exists h, (RUpdate id us). split; auto. split; auto. split; [|apply apply_update].
           split; auto. exists i2, obj, cls. auto.
      * destruct H as (u & z & i2 & (-> & -> & ->) & (-> & -> & ->)). split; auto.
        exists h, (RDelete id). split; [exact Hh|]. split; [exact Eh|]. split; [split; reflexivity|]. apply apply_delete.
    + intros (-> & h & r & Hh & Eh & Hr & ->). destruct r as [a|id'|id' us].
      * destruct Hr as (i2 & -> & Hn). destruct (w_new_cached _ _ _ _ Hn) as (Hc & _).
        exists 1, x, (true :: i2). split; [split; [apply w_uint1; exists true; auto|reflexivity]|].
        cbn [Z.eqb Pos.eqb]. exists true, x, i2. split; [split; [reflexivity|auto]|].
        exists a, x, o. split; [split; [now apply m_new_iff|auto]|].
        destruct (cache_of F (n_object_id a)) as [ci|] eqn:C; [|congruence].
        exists tt, (vis_insert (n_actor_id a) (n_object_id a, ci) x), o.
        split; [split; auto|]. split; [reflexivity|]. split; [|reflexivity]. symmetry. now apply apply_new_actor.
      * destruct Hr as (-> & ->). exists 0, x, o. split; [split; [apply w_uint1; exists false; auto|reflexivity]|].
        cbn [Z.eqb]. exists tt, (vis_deleted id x), o. split; [split; auto|].
        split; [reflexivity|]. split; [|reflexivity]. symmetry. apply apply_delete.
      * destruct Hr as (-> & i2 & obj & cls & -> & Ho & Hs & Hus).
        exists 1, x, (false :: i2). split; [split; [apply w_uint1; exists true; auto|reflexivity]|].
        cbn [Z.eqb Pos.eqb]. exists false, x, i2. split; [split; [reflexivity|auto]|].
        rewrite Eh, of_hist_get by auto. unfold actor_object in Ho. rewrite Ho. cbn [fst].
        exists cls. split; auto. split; auto. exists us. split; auto. symmetry. apply apply_update.
Qed.

Lemma fsame_body B1 B2 (H1 : bitter_ok B1) (H2 : bitter_ok B2) N afuel id : is_i32 id -> (N <= afuel)%nat ->
  fsame Inv N 1 (bind (on_reader (peek_and_consume 1)) (body_code B1 afuel id))
                (bind (on_reader (peek_and_consume 1)) (body_code B2 afuel id)) N 0.
Proof.
  intros Hid Hf. eapply fsame_bind with (N1 := N) (K1 := 0%nat).
  { eapply (fsame_accp Inv N 1 0). apply (accp_peek 1 1); lia. }
  intros alive. unfold body_code. destruct (alive =? 1).
  - eapply fsame_bind; [apply fsame_reader, same_ok_or; eapply acc_same; apply acc_read_bit; auto|]. intros [|].
    + eapply fsame_bind_val; [apply fsame_new; auto|apply (facc_new B1 H1 N 0 id)|]. intros x0 i0 a y0 o0 _ [Hm _].
      apply m_new_ids in Hm as [Hobj Hida].
      apply fsame_need. intros ci Hci. eapply fsame_bind.
      * apply fsame_mod with (g := vis_insert (n_actor_id a) (n_object_id a, ci)); try reflexivity.
        intros x. apply inv_insert; auto. now rewrite Hida.
      * intros _. apply fsame_mod with (g := vis_new a); try reflexivity. intros x Hx. exact Hx.
    + eapply (fsame_get Inv N 0 (fun x => seg_get id (vs_actors x))
          (fun found => bind (need (FMissingActor id) found) (fun oc => attributes_loop B1 F afuel id (fst oc) (snd oc)))
          (fun found => bind (need (FMissingActor id) found) (fun oc => attributes_loop B2 F afuel id (fst oc) (snd oc)))).
      intros x Hx. destruct (seg_get id (vs_actors x)) as [oc|] eqn:G.
      * destruct (inv_get x id Hx Hid oc G) as [Ho Hc].
        destruct (df_cache _ _ D _ _ Ho Hc) as (cls & Hs & Hcf).
        eapply fsame_ext with (m1 := attributes_loop B1 F afuel id (fst oc) (snd oc))
                              (m2 := attributes_loop B2 F afuel id (fst oc) (snd oc)); try reflexivity.
        eapply fsame_tight; [|apply (facc_attributes F e D Inv inv_updates B1 H1 id (fst oc) cls (snd oc) Hcf afuel)|exact Hf].
        eapply fsame_attributes; eauto.
      * eapply fsame_ext; [| |apply (fsame_fail Inv N 0 (FMissingActor id))]; reflexivity.
  - eapply fsame_bind.
    + apply fsame_mod with (g := vis_deleted id); try reflexivity. intros x Hx. exact Hx.
    + intros _. apply fsame_mod with (g := vis_delete id); try reflexivity. intros x. now apply inv_delete.
Qed.

(** ** The records of a frame *)

Definition f_records : fwire unit := fun x i v y o =>
  v = tt /\ exists h rs, hist_ok h /\ vs_actors x = of_hist h /\ w_records e h i rs o /\ y = apply_recs rs x.

Lemma facc_shorter {A} I N (m : fcomp A) P N' K' x i v y o :
  facc I N 0 m P N' K' -> I x -> (length i < N)%nat -> P x i v y o -> (length o <= length i)%nat.
Proof.
  intros H Hx L HP. destruct (reader_for i) as (r & W & Fr).
  pose (s := mkFState r (vs_actors x) (vs_new x) (vs_deleted x) (vs_updated x)).
  assert (Vx : vis s = x) by (destruct x; reflexivity). assert (Fi : fbits s = i) by exact Fr.
  assert (Ws : fwf I s) by (split; [exact W|now rewrite Vx]).
  specialize (H s Ws ltac:(rewrite Fi; lia) ltac:(lia)). rewrite Vx, Fi in H.
  destruct (m s) as [[a|z|p] t]; destruct H as (_ & Le & H).
  - destruct H as (_ & _ & H). apply H in HP as (_ & _ & ->). exact Le.
  - exfalso. eapply H; eauto.
  - destruct H.
Qed.

Lemma inv_start : Inv (mkVis (seg_new 200) [] [] []).
Proof. exists []. split; [constructor|reflexivity]. Qed.

Lemma w_new_shorter id i a o : w_new e id i a o -> (length o <= length i)%nat.
Proof.
  intros H. destruct (w_new_cached _ _ _ _ H) as (C & _). apply m_new_iff in H; auto.
  eapply (facc_shorter Inv (S (length i)) _ _ _ _ _ _ a); [apply (facc_new _ std_bitter_ok _ 0 id)|apply inv_start|lia|].
  split; [exact H|reflexivity].
Qed.

Lemma f_body_shorter id x i v y o : f_body id x i v y o -> (length o < length i)%nat.
Proof.
  intros (_ & h & r & _ & _ & Hr & _). destruct r as [a|id'|id' us].
  - destruct Hr as (i2 & -> & H). apply w_new_shorter in H. cbn [length]. lia.
  - destruct Hr as (_ & ->). cbn [length]. lia.
  - destruct Hr as (_ & i2 & obj & cls & -> & _ & _ & H). apply many_updates_length in H. cbn [length]. lia.
Qed.

Lemma hist_ok_record h r id x i y o : hist_ok h -> is_i32 id ->
  match r with
    | RDelete id' => id' = id /\ i = false :: o
    | RNew a => exists i2, i = true :: true :: i2 /\ w_new e id i2 a o
    | RUpdate id' us => id' = id /\ exists i2 obj cls, i = true :: false :: i2 /\
        actor_object h id obj /\ spawnable (e_objects e) obj cls /\ w_many (w_update e id cls) i2 us o
    end -> y = apply_rec r x -> vs_actors x = of_hist h ->
  hist_ok (h ++ record_ops r) /\ vs_actors y = of_hist (h ++ record_ops r).
Proof.
  intros Hh Hid Hr -> E. split.
  - apply Forall_app. split; auto. destruct r as [a|id'|id' us]; cbn [record_ops].
    + destruct Hr as (i2 & _ & H). apply w_new_cached in H as (C & Ho & <-).
      constructor; [|constructor]. split; auto.
    + destruct Hr as (-> & _). constructor; [|constructor]. split; [exact Hid|exact Logic.I].
    + constructor.
  - rewrite of_hist_app, <- E. reflexivity.
Qed.

(** one record and the rest *)
Definition f_record (k : fwire unit) : fwire unit :=
  f_bind (f_lift (w_bounded (Z.max 1 (e_max_channels e)))) (fun raw => f_bind (f_body (as_i32 raw)) (fun _ => k)).

Lemma f_record_iff x i v y o : f_record f_records x i v y o <->
  v = tt /\ exists h r m rs, hist_ok h /\ vs_actors x = of_hist h /\ w_record e h i r m /\
    w_records e (h ++ record_ops r) m rs o /\ y = apply_recs (r :: rs) x.
Proof.
  pose proof (df_range _ _ D) as M. split.
  - intros (raw & z & i1 & [Hb ->] & u & y1 & m & (-> & h & r & Hh & Eh & Hr & E1) & -> & h' & rs & Hh' & Eh' & Hrs & ->).
    split; auto. pose proof (as_i32_range raw) as Hid.
    destruct (hist_ok_record h r (as_i32 raw) x i1 y1 m Hh Hid Hr E1 Eh) as [Hh1 Eh1].
    exists h, r, m, rs. split; auto. split; auto. split.
    { exists (as_i32 raw), i1. split; auto. exists raw. split; auto. destruct Hb as [R _].
      apply signed32_as_i32. lia. }
    split; [|subst y1; now rewrite apply_recs_cons].
    eapply w_records_ext; [exact Hrs|]. intros k Hk. apply of_hist_inj; auto. congruence.
  - intros (-> & h & r & m & rs & Hh & Eh & (id & i1 & (raw & Hb & ->) & Hr) & Hrs & ->).
    assert (R : 0 <= raw < 2 ^ 32) by (destruct Hb as [R _]; lia).
    rewrite <- signed32_as_i32 in Hr by exact R. pose proof (as_i32_range raw) as Hid.
    destruct (hist_ok_record h r (as_i32 raw) x i1 _ m Hh Hid Hr eq_refl Eh) as [Hh1 Eh1].
    exists raw, x, i1. split; [split; [exact Hb|reflexivity]|].
    exists tt, (apply_rec r x), m. split.
    + split; [reflexivity|]. exists h, r. auto.
    + split; [reflexivity|]. exists (h ++ record_ops r), rs. rewrite apply_recs_cons. auto.
Qed.

Lemma w_records_length h i rs o : w_records e h i rs o -> (length o < length i)%nat.
Proof.
  induction 1 as [h o|h i r m rs o Hr Hrs IH]; cbn [length]; [lia|].
  destruct Hr as (id & i1 & (raw & Hb & _) & Hr). apply w_bounded_shorter in Hb.
  assert (length m < length i1)%nat; [|lia]. destruct r as [a|id'|id' us].
  - destruct Hr as (i2 & -> & H). apply w_new_shorter in H. cbn [length]. lia.
  - destruct Hr as (_ & ->). cbn [length]. lia.
  - destruct Hr as (_ & i2 & obj & cls & -> & _ & _ & H). apply many_updates_length in H. cbn [length]. lia.
Qed.

Lemma channel_bits_nat : exists n, fd_channel_bits F = Z.of_nat n /\ (n <= 31)%nat /\
  Z.of_nat n = Z.max (bit_width (e_max_channels e) - 1) 0.
Proof.
  pose proof (df_range _ _ D) as M. rewrite (df_bits _ _ D). exists (Z.to_nat (Z.max (bit_width (e_max_channels e) - 1) 0)).
  split; [lia|]. split; [|lia]. destruct (Z.eq_dec (e_max_channels e) 0) as [->|N]; [vm_compute; lia|].
  rewrite bit_width_log2 by lia. assert (Z.log2 (e_max_channels e) < 32); [|lia].
  apply Z.log2_lt_pow2; lia.
Qed.

Lemma bind_assoc {S E A C G} (m : comp S E A) (f : A -> comp S E C) (g : C -> comp S E G) s :
  bind (bind m f) g s = bind m (fun a => bind (f a) g) s.
Proof. unfold bind. destruct (m s) as [[a|z|p] t]; reflexivity. Qed.

Lemma facc_records B (HB : bitter_ok B) afuel : forall fuel, (fuel <= afuel)%nat ->
  facc Inv fuel 0 (actors_loop B F afuel fuel) f_records fuel 0.
Proof.
  induction fuel as [|fuel IH]; intros Hf; [intros s W L; lia|]. cbn [actors_loop].
  specialize (IH ltac:(lia)). destruct channel_bits_nat as (n & Hb & Hn & Hn2).
  eapply facc_weaken with (N' := fuel) (K' := 0%nat); [|reflexivity|reflexivity|lia|lia].
  eapply facc_iff.
  - unfold f_not_enough.
    apply facc_bind with (N1 := fuel) (K1 := 0%nat)
      (Q := fun more => if more : bool then f_record f_records else f_ret tt).
    + apply facc_reader_dec; [apply acc_ok_or, acc_read_bit, HB|apply w_bit_dec].
    + intros [|]; [|apply facc_ret].
      replace (fd_channel_bits F + 1 + 1) with (Z.of_nat (S (S n))) by lia.
      apply facc_guard; [exact HB|lia| |].
      * unfold f_record. rewrite Hb, Nat2Z.id, (df_channels _ _ D).
        eapply facc_bind; [apply facc_accp, accp_bounded0; eauto; pose proof (df_range _ _ D); lia|]. intros raw.
        replace (S (S n) - S n)%nat with 1%nat by lia.
        eapply facc_ext; [intros s; apply (bind_assoc (on_reader (peek_and_consume 1)) (body_code B afuel (as_i32 raw)))|].
        eapply facc_bind; [apply facc_body; auto; [apply as_i32_range|lia]|]. intros _. exact IH.
      * intros x i v y o _ (raw & z & i1 & [Hw _] & u & y1 & m & Hbd & _ & h' & rs & _ & _ & Hrs & _).
        apply f_body_shorter in Hbd. apply w_records_length in Hrs.
        apply w_bounded_length in Hw. pose proof (df_range _ _ D) as M.
        destruct (Z.eq_dec (e_max_channels e) 0) as [Z0|NZ].
        -- rewrite Z0 in Hn2. change (Z.max (bit_width 0 - 1) 0) with 0 in Hn2. lia.
        -- rewrite bit_width_log2 in Hn2 by lia. rewrite Z.max_r in Hw by lia.
           pose proof (Z.log2_nonneg (e_max_channels e)). lia.
  - intros x i v y o Hx _. cbn beta. unfold f_bind at 1, f_lift at 1. split.
    + intros (more & z & m & [-> ->] & H). destruct more.
      * apply f_record_iff in H as (-> & h & r & m' & rs & Hh & Eh & Hr & Hrs & ->). split; auto.
        exists h, (r :: rs). split; auto. split; auto. split; auto. econstructor; eauto.
      * destruct H as (-> & -> & ->). split; auto. destruct Hx as (h & Hh & Eh). exists h, [].
        rewrite apply_recs_nil. repeat split; auto. constructor.
    + intros (-> & h & rs & Hh & Eh & H & ->). destruct H as [h o|h i r m rs o Hr Hrs].
      * exists false, x, o. rewrite apply_recs_nil. split; [split; reflexivity|]. repeat split; auto.
      * exists true, x, i. split; [split; reflexivity|]. apply f_record_iff. split; auto.
        exists h, r, m, rs. auto.
Qed.

Lemma fsame_records B1 B2 (H1 : bitter_ok B1) (H2 : bitter_ok B2) afuel : forall fuel, (fuel <= afuel)%nat ->
  fsame Inv fuel 0 (actors_loop B1 F afuel fuel) (actors_loop B2 F afuel fuel) fuel 0.
Proof.
  induction fuel as [|fuel IH]; intros Hf; [intros s1 s2 W1 W2 Fb Vs L; lia|]. cbn [actors_loop].
  specialize (IH ltac:(lia)). destruct channel_bits_nat as (n & Hb & Hn & Hn2).
  eapply fsame_weaken with (N' := fuel) (K' := 0%nat); [|reflexivity|reflexivity|lia|lia].
  unfold f_not_enough. apply fsame_bind with (N1 := fuel) (K1 := 0%nat).
  - eapply fsame_reader_dec; [|apply acc_ok_or, acc_read_bit, H1|apply w_bit_dec].
    apply same_ok_or. eapply acc_same; apply acc_read_bit; auto.
  - intros [|]; [|apply fsame_ret].
    replace (fd_channel_bits F + 1 + 1) with (Z.of_nat (S (S n))) by lia.
    apply fsame_guard; auto; [lia|]. rewrite Hb, Nat2Z.id, (df_channels _ _ D).
    eapply fsame_bind; [eapply fsame_accp, accp_bounded0; eauto; pose proof (df_range _ _ D); lia|]. intros raw.
    replace (S (S n) - S n)%nat with 1%nat by lia.
    eapply fsame_ext; [intros s; apply (bind_assoc (on_reader (peek_and_consume 1)) (body_code B1 afuel (as_i32 raw)))
      |intros s; apply (bind_assoc (on_reader (peek_and_consume 1)) (body_code B2 afuel (as_i32 raw)))|].
    eapply fsame_bind; [apply fsame_body; auto; [apply as_i32_range|lia]|]. intros _. exact IH.
Qed.

End Decoder.
