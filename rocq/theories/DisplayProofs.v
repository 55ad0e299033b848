(** * Proofs: the message of a frame error *)

From Coq Require Import ZArith List Bool Lia ZifyBool ZifyNat Sorted.
From Verif Require Import Base F32 Text NetTypes SegArray Errors Header Body BitReader Attributes Data ObjectIndex
  FrameDecoder Network Json Display SpecDecimal JsonLogic Wire SpecBasic BasicProofs HierarchyProofs MapProofs SpecNet
  TableProofs CacheProofs TableFacts SpecFrames FrameFacts NetworkProofs SpecAttrErrors SpecErrors SpecDisplay.
Open Scope Z_scope.
#[local] Opaque PARENT_CLASSES SPAWN_STATS ATTRIBUTES.

(** ** Sorting *)

Lemma lex_refl a : lex_le a a.
Proof. induction a; now constructor. Qed.
Lemma lex_trans a b c : lex_le a b -> lex_le b c -> lex_le a c.
Proof.
  intros H. revert c. induction H as [b|x a y b L|x a b _ IH]; intros c Hc; [constructor|..]; inversion Hc; subst.
  - apply lex_lt. lia.
  - now apply lex_lt.
  - now apply lex_lt.
  - now apply lex_eq, IH.
Qed.
Lemma lex_antisym a b : lex_le a b -> lex_le b a -> a = b.
Proof.
  intros H. induction H as [b|x a y b L|x a b _ IH]; intros H'; inversion H'; subst; auto; try lia.
  f_equal. auto.
Qed.
Lemma lex_total a : forall b, lex_le a b \/ lex_le b a.
Proof.
  induction a as [|x a IH]; intros [|y b]; try (left; constructor; fail); try (right; constructor; fail).
  destruct (N.lt_trichotomy (Byte.to_N x) (Byte.to_N y)) as [H|[H|H]].
  - left. now constructor.
  - apply (f_equal Byte.of_N) in H. rewrite !Byte.of_to_N in H. injection H as ->.
    destruct (IH b); [left|right]; now apply lex_eq.
  - right. now constructor.
Qed.

Lemma insert_in x l n : In n (sort_insert x l) <-> n = x \/ In n l.
Proof.
  induction l as [|y t IH]; cbn [sort_insert In]; [intuition congruence|].
  destruct (str_geb y x); cbn [In]; [|rewrite IH]; intuition congruence.
Qed.
Lemma insert_sorted x l : StronglySorted lex_le l -> StronglySorted lex_le (sort_insert x l).
Proof.
  induction l as [|y t IH]; intros S; cbn [sort_insert]; [repeat constructor|].
  destruct (str_geb y x) eqn:E.
  - apply lex_le_geb in E. constructor; auto. inversion S as [|? ? S' F]; subst. constructor; auto.
    eapply Forall_impl; [|exact F]. intros z Hz. eapply lex_trans; eauto.
  - inversion S as [|? ? S' F]; subst. constructor; auto. apply Forall_forall. intros z Hz.
    apply insert_in in Hz as [->|Hz]; [|rewrite Forall_forall in F; auto].
    destruct (lex_total y x) as [H|H]; auto. apply lex_le_geb in H. congruence.
Qed.
Lemma sort_in l n : In n (sort l) <-> In n l.
Proof. induction l as [|x t IH]; cbn [sort In]; [tauto|]. rewrite insert_in, IH. intuition congruence. Qed.
Lemma sort_sorted l : StronglySorted lex_le (sort l).
Proof. induction l; cbn [sort]; [constructor|now apply insert_sorted]. Qed.

Lemma dedup_in l n : In n (dedup l) <-> In n l.
Proof.
  induction l as [|x t IH]; cbn [dedup In]; [tauto|].
  destruct (dedup t) as [|y t'] eqn:E; cbn [In] in *; [intuition congruence|].
  destruct (str_eqb x y) eqn:Q; cbn [In]; [apply str_eqb_spec in Q; subst|]; intuition congruence.
Qed.
Lemma dedup_sorted l : StronglySorted lex_le l -> ascending (dedup l).
Proof.
  unfold ascending. induction l as [|x t IH]; intros S; cbn [dedup]; [constructor|].
  inversion S as [|? ? S' F]; subst. specialize (IH S'). pose proof (dedup_in t) as D.
  destruct (dedup t) as [|y t']; [repeat constructor|].
  destruct (str_eqb x y) eqn:Q; [exact IH|]. apply str_eqb_neq in Q. constructor; auto.
  rewrite Forall_forall in F. apply Forall_forall. intros z Hz. split; [apply F, D, Hz|]. intros ->.
  destruct Hz as [Hz|Hz]; [congruence|]. inversion IH as [|? ? _ F']; subst. rewrite Forall_forall in F'.
  specialize (F' _ Hz). apply Q, lex_antisym; [apply F, D; now left|apply F'].
Qed.

Lemma dedup_sort_list (l : list str) (P : str -> Prop) : (forall n, In n l <-> P n) -> SpecDisplay.list_of P (dedup (sort l)).
Proof.
  intros H. split; [apply dedup_sorted, sort_sorted|]. intros n. now rewrite dedup_in, sort_in.
Qed.

(** ** Pieces *)

Definition small (x : Z) : Prop := Z.abs x < 10 ^ 20.
Definition piece_ok (p : piece) : Prop := match p with SpecDisplay.I x => small x | _ => True end.
Definition pieces_ok : list piece -> Prop := Forall piece_ok.
Definition piece_text (p : piece) : str :=
  match p with W w => lit w | SpecDisplay.I x => display_Z x | T s => s end.
Definition render (l : list piece) : str := concat (map piece_text l).

Lemma render_reads l : pieces_ok l -> reads l (render l).
Proof.
  intros H. induction H as [|p l Hp _ IH]; [constructor|]. unfold render. cbn [map concat].
  destruct p; constructor; auto. now apply display_decimal.
Qed.
Lemma render_app a b : render (a ++ b) = render a ++ render b.
Proof. unfold render. now rewrite map_app, concat_app. Qed.
Lemma render_cons p b : render (p :: b) = piece_text p ++ render b.
Proof. reflexivity. Qed.
Lemma ok_app a b : pieces_ok a -> pieces_ok b -> pieces_ok (a ++ b).
Proof. intros H1 H2. apply Forall_app. auto. Qed.

Lemma i32_small x : is_i32 x -> small x.
Proof. unfold is_i32, small. lia. Qed.

Lemma render_commas l : render (commas l) = join (map render l).
Proof.
  induction l as [|x [|y t] IH]; [reflexivity|cbn; now rewrite ?app_nil_r|].
  change (commas (x :: y :: t)) with (x ++ W ", " :: commas (y :: t)).
  rewrite render_app, render_cons, IH. reflexivity.
Qed.
Lemma ok_commas l : Forall pieces_ok l -> pieces_ok (commas l).
Proof.
  intros H. induction H as [|x l Hx Hl IH]; [constructor|].
  destruct l as [|y t]; [exact Hx|]. change (commas (x :: y :: t)) with (x ++ W ", " :: commas (y :: t)).
  apply ok_app; auto. constructor; [exact Logic.I|exact IH].
Qed.

Ltac ok := repeat first
  [ apply ok_app | apply Forall_nil | apply Forall_cons; [first [exact Logic.I|cbn [piece_ok]; auto]|] ].

Lemma say_cons a l : say (a :: l) = a ++ say l.
Proof. reflexivity. Qed.
Lemma say_nil : say [] = [].
Proof. reflexivity. Qed.
Ltac rend := repeat rewrite ?render_cons, ?render_app, ?say_cons, ?say_nil, ?app_nil_r, <- ?app_assoc; try reflexivity.

(** ** The situation *)

Section Context.
Context (objects : list str) (L : lenZ objects <= 2 ^ 31).

Lemma object_range i n : object_at objects i n -> 0 <= i < 2 ^ 31.
Proof.
  intros [H1 H2]. split; auto. assert (Z.to_nat i < length objects)%nat by (apply nth_error_Some; congruence).
  unfold lenZ in L. lia.
Qed.
Lemma object_small i n : object_at objects i n -> small i.
Proof. intros H. apply object_range in H. unfold small. lia. Qed.
Lemma object_get i n : object_at objects i n -> getZ (as_usize i) objects = Some n.
Proof. intros H. apply (object_at_usize objects L); auto. apply object_range in H. unfold is_i32. lia. Qed.

Record update_ok (u : updated_attribute) : Prop := {
  uo_actor : is_i32 (u_actor_id u);
  uo_stream : is_i32 (u_stream_id u);
  uo_object : exists n, object_at objects (u_object_id u) n }.

Definition opt_ok (P : Z -> Prop) (o : option Z) : Prop := match o with Some x => P x | None => True end.
Definition loc_ok (o : option vector3i) : Prop :=
  match o with Some v => is_i32 (v3i_x v) /\ is_i32 (v3i_y v) /\ is_i32 (v3i_z v) | None => True end.
Definition rot_ok (o : option rotation) : Prop :=
  match o with
  | Some r => opt_ok is_i32 (r_yaw r) /\ opt_ok is_i32 (r_pitch r) /\ opt_ok is_i32 (r_roll r)
  | None => True
  end.

Record new_ok (a : new_actor) : Prop := {
  no_actor : is_i32 (n_actor_id a);
  no_name : opt_ok is_i32 (n_name_id a);
  no_object : exists n, object_at objects (n_object_id a) n;
  no_location : loc_ok (t_location (n_traj a));
  no_rotation : rot_ok (t_rotation (n_traj a)) }.

Record context_ok (c : frame_context) : Prop := {
  co_objects : fc_objects c = objects;
  co_frames : lenZ (fc_frames c) <= 2 ^ 31;
  co_updates : forall u, In u (fc_updated_actors c) -> update_ok u;
  co_news : forall a, In a (fc_new_actors c) -> new_ok a;
  co_updates' : forall f u, In f (fc_frames c) -> In u (f_updated_actors f) -> update_ok u;
  co_news' : forall f a, In f (fc_frames c) -> In a (f_new_actors f) -> new_ok a;
  co_nodup : NoDup (map fst (fc_actors c));
  co_actors : forall a o, In (a, o) (fc_actors c) -> exists n, object_at objects o n }.

Context (show_f32 : f32 -> str) (debug_attribute : attribute -> str).
Context (c : frame_context) (C : context_ok c).

Lemma obj_text i n : object_at objects i n -> object_ind_to_string c i = n.
Proof. intros H. unfold object_ind_to_string. rewrite (co_objects c C), (object_get _ _ H). reflexivity. Qed.

Lemma optional_render o : opt_ok is_i32 o -> pieces_ok (optional_part o) /\ render (optional_part o) = debug_opt_i8 o.
Proof.
  destruct o as [x|]; cbn [opt_ok optional_part debug_opt_i8]; intros H; (split; [ok|reflexivity]). now apply i32_small.
Qed.
Lemma location_render o : loc_ok o -> pieces_ok (location_part o) /\ render (location_part o) = debug_location o.
Proof.
  destruct o as [v|]; cbn [loc_ok location_part debug_location]; [intros (H1 & H2 & H3)|intros _]; (split; [ok|reflexivity]);
    now apply i32_small.
Qed.
Lemma rotation_render o : rot_ok o -> pieces_ok (rotation_part o) /\ render (rotation_part o) = debug_rotation o.
Proof.
  destruct o as [v|]; cbn [rot_ok rotation_part debug_rotation].
  2: { intros _. split; [ok|reflexivity]. }
  intros (H1 & H2 & H3). apply optional_render in H1 as [O1 R1], H2 as [O2 R2], H3 as [O3 R3]. split.
  - constructor; [exact Logic.I|]. apply ok_app; auto. constructor; [exact Logic.I|]. apply ok_app; auto.
    constructor; [exact Logic.I|]. apply ok_app; auto. ok.
  - repeat rewrite ?render_cons, ?render_app. rewrite R1, R2, R3. repeat rewrite ?say_cons, ?say_nil. reflexivity.
Qed.

Lemma actor_render id : exists l, actor_part objects c id l /\ pieces_ok l /\
  render l = match map_get id (fc_actors c) with
             | Some obj => say [lit "object id: "; show obj; newline; lit "object name: "; object_ind_to_string c obj; newline]
             | None => say [lit "object id: <none>"; newline]
             end.
Proof.
  destruct (map_get id (fc_actors c)) as [obj|] eqn:E.
  - apply map_get_in in E; [|apply (co_nodup c C)]. destruct (co_actors c C _ _ E) as [n Hn].
    exists [W "object id: "; SpecDisplay.I obj; NL; W "object name: "; T n; NL].
    split; [now constructor|]. split; [ok; eapply object_small; eauto|].
    rewrite (obj_text _ _ Hn). reflexivity.
  - exists [W "object id: <none>"; NL]. split; [|split; [ok|reflexivity]]. constructor. intros obj H.
    apply (map_get_in id obj) in H; [congruence|apply (co_nodup c C)].
Qed.

Lemma update_render u : update_ok u -> exists l, update_part debug_attribute objects c u l /\ pieces_ok l /\
  render l = display_update debug_attribute c u.
Proof.
  intros [H1 H2 [n Hn]]. destruct (actor_render (u_actor_id u)) as (l & Hl & O & R).
  eexists. split; [econstructor; eauto|]. split.
  - apply ok_app; [ok|apply ok_app; [exact O|ok]]; try (now apply i32_small). eapply object_small; eauto.
  - unfold display_update. rewrite <- R, (obj_text _ _ Hn). rend.
Qed.

Lemma new_render a : new_ok a -> exists l, new_part objects a l /\ pieces_ok l /\ render l = display_new_actor c a.
Proof.
  intros [H1 H2 [n Hn] H4 H5]. apply location_render in H4 as [O4 R4]. apply rotation_render in H5 as [O5 R5].
  eexists. split; [econstructor; eauto|]. split.
  - apply ok_app; [|apply ok_app; [exact O4|apply ok_app; [ok|apply ok_app; [exact O5|ok]]]].
    ok; try (now apply i32_small). 2: eapply object_small; eauto.
    destruct (n_name_id a); [now apply i32_small|exact Logic.I].
  - unfold display_new_actor. rend. rewrite R4, R5, (obj_text _ _ Hn).
    destruct (n_name_id a); reflexivity.
Qed.

Lemma last_of_spec {A} (l : list A) :
  match Display.last_of l with Some x => exists l', l = l' ++ [x] | None => l = [] end.
Proof.
  unfold Display.last_of. pose proof (rev_involutive l) as R. destruct (rev l) as [|x t]; cbn [rev] in R; eauto.
Qed.

Lemma last_render us ns : (forall u, In u us -> update_ok u) -> (forall a, In a ns -> new_ok a) ->
  match Display.last_of us, Display.last_of ns with
  | Some u, _ => exists l, last_part debug_attribute objects c us ns l /\ pieces_ok l /\ render l = display_update debug_attribute c u
  | None, Some a => exists l, last_part debug_attribute objects c us ns l /\ pieces_ok l /\ render l = display_new_actor c a
  | None, None => us = [] /\ ns = []
  end.
Proof.
  intros Hu Hn. pose proof (last_of_spec us) as Q1. pose proof (last_of_spec ns) as Q2.
  destruct (Display.last_of us) as [u|].
  - destruct Q1 as [l' ->]. destruct (update_render u) as (l & H & O & R); [apply Hu, in_or_app; cbn; auto|].
    exists l. split; [eapply last_update; eauto|auto].
  - destruct (Display.last_of ns) as [a|]; [|auto]. destruct Q2 as [l' ->].
    destruct (new_render a) as (l & H & O & R); [apply Hn, in_or_app; cbn; auto|].
    exists l. split; [eapply last_new; eauto|auto].
Qed.

Lemma enumerate_app {A} (a b : list A) : forall i, enumerate i (a ++ b) = enumerate i a ++ enumerate (i + lenZ a) b.
Proof.
  induction a as [|x a IH]; intros i; cbn [enumerate app].
  - unfold lenZ. cbn [length]. now rewrite Z.add_0_r.
  - rewrite IH. do 3 f_equal. unfold lenZ. cbn [length]. lia.
Qed.

Lemma has_data_none f : has_data f = false -> f_updated_actors f = [] /\ f_new_actors f = [].
Proof. unfold has_data. destruct (f_updated_actors f), (f_new_actors f); intros; try discriminate; auto. Qed.

Lemma recent_spec (fs : list frame) :
  match find (fun p => has_data (snd p)) (rev (enumerate 0 fs)) with
  | Some (i, f) => exists a b, fs = a ++ f :: b /\ i = lenZ a /\ has_data f = true /\
      forall g, In g b -> f_updated_actors g = [] /\ f_new_actors g = []
  | None => forall g, In g fs -> f_updated_actors g = [] /\ f_new_actors g = []
  end.
Proof.
  induction fs as [|x fs IH] using rev_ind; [cbn; intros g []|].
  rewrite enumerate_app, rev_app_distr. cbn [enumerate rev app find snd]. rewrite Z.add_0_l.
  destruct (has_data x) eqn:E.
  - exists fs, []. split; auto. split; auto. split; auto. intros g [].
  - apply has_data_none in E. destruct (find _ (rev (enumerate 0 fs))) as [[i f]|].
    + destruct IH as (a & b & -> & -> & H1 & H2). exists a, (b ++ [x]). rewrite <- app_assoc. split; auto. split; auto.
      split; auto. intros g Hg. apply in_app_iff in Hg as [Hg|[<-|[]]]; auto.
    + intros g Hg. apply in_app_iff in Hg as [Hg|[<-|[]]]; auto.
Qed.

Lemma situation_render : exists l, situation show_f32 debug_attribute objects c l /\ pieces_ok l /\
  render l = display_context show_f32 debug_attribute c.
Proof.
  set (t := match Display.last_of (fc_frames c) with Some f => f_time f | None => 0 end).
  set (d := match Display.last_of (fc_frames c) with Some f => f_delta f | None => 0 end).
  assert (LT : last_times c t d).
  { unfold last_times, t, d. pose proof (last_of_spec (fc_frames c)) as Q. destruct (Display.last_of (fc_frames c)).
    - right. destruct Q as [l' E]. eauto.
    - left. auto. }
  assert (M : forall l', current_part show_f32 debug_attribute objects c l' -> pieces_ok l' -> forall m,
    render l' = m -> exists l, situation show_f32 debug_attribute objects c l /\ pieces_ok l /\
      render l = say [lit "Current frame: "; show (lenZ (fc_frames c));
       lit " (time: "; show_f32 t; lit " delta: "; show_f32 d; lit ")"; newline; m]).
  { intros l' H O m R. eexists. split; [exists t, d, l'; split; [exact LT|]; split; [exact H|reflexivity]|].
    split.
    - apply ok_app; auto. ok. pose proof (co_frames c C) as Q. unfold small, lenZ in *. lia.
    - rewrite <- R. rend. }
  unfold display_context. fold t d.
  pose proof (last_render (fc_updated_actors c) (fc_new_actors c) (co_updates c C) (co_news c C)) as Q.
  destruct (Display.last_of (fc_updated_actors c)) as [u|].
  { destruct Q as (l & H & O & R). apply (M l); auto. now apply current_data. }
  destruct (Display.last_of (fc_new_actors c)) as [a|].
  { destruct Q as (l & H & O & R). apply (M l); auto. now apply current_data. }
  destruct Q as [E1 E2]. unfold most_recent_frame_with_data. pose proof (recent_spec (fc_frames c)) as Q.
  destruct (find _ (rev (enumerate 0 (fc_frames c)))) as [[i f]|].
  - destruct Q as (a & b & E & -> & Hf & Hb).
    assert (If : In f (fc_frames c)) by (rewrite E; apply in_or_app; cbn; auto).
    pose proof (last_render (f_updated_actors f) (f_new_actors f) (fun u => co_updates' c C f u If) (fun u => co_news' c C f u If)) as Q.
    assert (M2 : forall l', last_part debug_attribute objects c (f_updated_actors f) (f_new_actors f) l' -> pieces_ok l' ->
      forall m, render l' = m -> exists l, situation show_f32 debug_attribute objects c l /\ pieces_ok l /\
      render l = say [lit "Current frame: "; show (lenZ (fc_frames c));
       lit " (time: "; show_f32 t; lit " delta: "; show_f32 d; lit ")"; newline;
       say [lit "- No actor information decoded"; newline;
        say [lit "Retrace frame: "; show (lenZ a); lit " (time: "; show_f32 (f_time f);
             lit ", delta: "; show_f32 (f_delta f); lit ")"; newline; m]]]).
    { intros l' H O m R. eapply M; [eapply current_retrace; eauto|..].
      - apply ok_app; auto. ok. pose proof (co_frames c C) as Q'. rewrite E in Q'. unfold small, lenZ in *.
        rewrite app_length in Q'. lia.
      - rewrite <- R. rend. }
    destruct (Display.last_of (f_updated_actors f)) as [u|].
    { destruct Q as (l & H & O & R). apply (M2 l); auto. }
    destruct (Display.last_of (f_new_actors f)) as [x|].
    { destruct Q as (l & H & O & R). apply (M2 l); auto. }
    destruct Q as [Q1 Q2]. unfold has_data in Hf. rewrite Q1, Q2 in Hf. discriminate.
  - apply (M [W "- No actor information decoded"; NL]); [now apply current_nothing|ok|reflexivity].
Qed.

End Context.

(** ** The error *)

Lemma filter_map_in {A C} (f : A -> option C) l y : In y (filter_map f l) <-> exists x, In x l /\ f x = Some y.
Proof.
  induction l as [|x t IH]; cbn [filter_map In].
  - split; [intros []|intros (x & [] & _)].
  - destruct (f x) as [z|] eqn:E; cbn [In]; rewrite IH.
    + split; [intros [->|(w & H1 & H2)]; eauto|intros (w & [->|H1] & H2); [left; congruence|right; eauto]].
    + split; [intros (w & H1 & H2); eauto|intros (w & [->|H1] & H2); [congruence|eauto]].
Qed.

Lemma resolves_fun objects caches cls s p q : lenZ objects <= 2 ^ 31 ->
  resolves objects caches cls s p -> resolves objects caches cls s q -> p = q.
Proof.
  intros L (ids & H1 & H2) (ids' & H1' & H2'). rewrite (class_ids_fun _ L _ _ _ H1' H1) in H2'.
  destruct H2 as (b & x & a & E & M & N), H2' as (b' & x' & a' & E' & M' & N'). rewrite E in E'.
  assert (G : forall b b', b ++ x :: a = b' ++ x' :: a' -> (forall y z, In y b -> ~ mention caches s y z) ->
    (forall y z, In y b' -> ~ mention caches s y z) -> x = x').
  { clear - M M'. induction b as [|u b IH]; intros [|u' b'] Q N N'; cbn [app] in Q; injection Q as Q1 Q2; subst; auto.
    - exfalso. apply (N' u' p); cbn; auto.
    - exfalso. apply (N x' q); cbn; auto.
    - apply (IH b'); auto; intros y z Hy; [apply N|apply N']; cbn; auto. }
  assert (x = x') by (eapply G; eauto). subst. eapply mention_fun; eauto.
Qed.

Definition attribute_error_ok (x : attribute_error) : Prop :=
  match x with
  | AUnrecognizedRemoteId id => is_i32 id
  | ATooBigString n => is_i32 n
  | _ => True
  end.

Section Detail.
Context (show_f32 : f32 -> str) (debug_attribute : attribute -> str).
Context (ho : hash_order) (Hho : hash_order_ok ho).
Context (objects : list str) (L : lenZ objects <= 2 ^ 31).
Context (caches : list class_net_cache) (CI : net_cache_ok caches) (PR : props_in_range objects caches).
Context (c : frame_context) (Eo : fc_objects c = objects)
  (Ec : compute_caches ho (object_index_new objects) objects caches = Ok (fc_object_attributes c)).

Lemma table_spec obj cls : spawnable objects obj cls -> exists ci, getZ obj (fc_object_attributes c) = Some (Some ci) /\
  forall s a, is_i32 s -> (seg_get s (ci_attributes ci) = Some a <->
    exists p name, resolves objects caches cls s p /\ object_at objects (cp_object_ind p) name /\
      kind_of name (oa_attribute a) /\ oa_object_id a = cp_object_ind p).
Proof.
  intros H. destruct (attribute_table ho objects caches Hho L CI PR) as (v & Ev & Hv). rewrite Ec in Ev.
  injection Ev as <-. now apply Hv.
Qed.

Lemma kind_total name : exists t, kind_of name t.
Proof.
  destruct (str_assoc name ATTRIBUTES) as [t|] eqn:E.
  - exists t. apply kind_of_spec. now rewrite E.
  - exists TNotImplemented. apply kind_of_spec. now rewrite E.
Qed.

Lemma names_in s n : is_i32 s ->
  In n (filter_map (fun a => getZ (as_usize (oa_object_id a)) (fc_objects c))
    (filter_map (fun o => match o with Some ci => seg_get s (ci_attributes ci) | None => None end)
      (fc_object_attributes c))) <-> stream_name objects caches s n.
Proof.
  intros Hs. rewrite filter_map_in. split.
  - intros (a & Ha & Hn). apply filter_map_in in Ha as ([ci|] & Hci & Ha); [|discriminate].
    apply In_nth_error in Hci as [i Hi].
    assert (G : getZ (Z.of_nat i) (fc_object_attributes c) = Some (Some ci)).
    { rewrite getZ_nth by lia. now rewrite Nat2Z.id. }
    destruct (attribute_table_only _ _ _ _ _ _ Hho L CI Ec G) as [cls Hc].
    destruct (table_spec _ _ Hc) as (ci' & G' & T'). rewrite G in G'. apply some_inj, some_inj in G'. subst ci'.
    apply T' in Ha as (p & name & H1 & H2 & H3 & H4); auto. exists (Z.of_nat i), cls, p. split; auto. split; auto.
    rewrite H4, Eo, (object_get objects L _ _ H2) in Hn. apply some_inj in Hn. now subst.
  - intros (obj & cls & p & H1 & H2 & H3). destruct (table_spec _ _ H1) as (ci & G & T').
    destruct (kind_total n) as [t Ht]. exists (mkObjAttr t (cp_object_ind p)). split.
    + apply filter_map_in. exists (Some ci). split.
      * eapply getZ_in; eauto.
      * apply T'; auto. exists p, n. auto.
    + cbn [oa_object_id]. rewrite Eo. now apply object_get.
Qed.

Lemma unknown_spec n : negb (existsb (fun kv : str * attribute_tag => str_eqb (fst kv) n) ATTRIBUTES) = true <->
  ~ In n (map fst ATTRIBUTES).
Proof.
  rewrite negb_true_iff, <- not_true_iff_false, existsb_exists, in_map_iff. split; intros H Q; apply H.
  - destruct Q as (x & <- & Hx). exists x. split; auto. apply str_eqb_refl.
  - destruct Q as (x & Hx & E). apply str_eqb_spec in E. exists x. auto.
Qed.

Lemma names_render s : is_i32 s -> exists l, names_for objects caches s l /\ pieces_ok l /\ render l = display_names c s.
Proof.
  intros Hs. exists (name_lists (names_with_stream c s) (unknown_of (names_with_stream c s))). split; [|split].
  - exists (names_with_stream c s), (unknown_of (names_with_stream c s)).
    assert (N : SpecDisplay.list_of (stream_name objects caches s) (names_with_stream c s)).
    { apply dedup_sort_list. intros n. now apply names_in. }
    split; auto. split; auto. apply dedup_sort_list. intros n. rewrite filter_In, unknown_spec.
    destruct N as [_ N]. now rewrite N.
  - unfold name_lists. repeat apply ok_app; try (ok; fail); apply ok_commas, Forall_forall; intros x Hx;
      apply in_map_iff in Hx as (y & <- & _); ok.
  - unfold name_lists, display_names. rewrite !render_app, !render_commas, !map_map.
    assert (M1 : forall l, map (fun x : str => render [T x]) l = l).
    { intros l. rewrite <- (map_id l) at 2. apply map_ext. intros x. unfold render. cbn. apply app_nil_r. }
    rewrite M1. reflexivity.
Qed.

Lemma attribute_error_render x : attribute_error_ok x ->
  pieces_ok (attribute_message x) /\ render (attribute_message x) = display_attribute_error x.
Proof.
  destruct x; cbn [attribute_error_ok attribute_message display_attribute_error]; intros H; (split; [ok|]);
    try (apply i32_small; assumption); reflexivity.
Qed.

(** errors whose ids make sense *)
Definition ids_ok (x : frame_error) : Prop :=
  match x with
  | FObjectIdOutOfRange o => is_i32 o
  | FMissingActor a => is_i32 a
  | FMissingCache a o => is_i32 a /\ exists n, object_at objects o n
  | FMissingAttribute a o s =>
      is_i32 a /\ is_i32 s /\ exists cls, spawnable objects o cls /\
        ((forall p, ~ resolves objects caches cls s p) \/
         exists p n, resolves objects caches cls s p /\ object_at objects (cp_object_ind p) n /\ kind_of n TNotImplemented)
  | FAttributeError a o s y =>
      is_i32 a /\ is_i32 s /\ attribute_error_ok y /\ exists cls p n tag, spawnable objects o cls /\
        resolves objects caches cls s p /\ object_at objects (cp_object_ind p) n /\ kind_of n tag /\ tag <> TNotImplemented
  | _ => True
  end.

Lemma spawnable_text obj cls : spawnable objects obj cls ->
  getZ (as_usize obj) (fc_objects c) = Some cls /\ small obj /\ as_usize obj = obj.
Proof.
  intros H. apply spawnable_at in H. rewrite Eo. split; [now apply object_get|]. split; [eapply object_small; eauto|].
  apply object_range in H; auto. unfold as_usize. apply Z.mod_small. lia.
Qed.

Lemma not_listed : forall n, ~ In (n, TNotImplemented) ATTRIBUTES.
Proof.
  intros n H.
  assert (Q : forallb (fun kv => match snd kv with TNotImplemented => false | _ => true end) ATTRIBUTES = true)
    by (vm_compute; reflexivity).
  rewrite forallb_forall in Q. specialize (Q _ H). discriminate.
Qed.

Lemma frame_message_render x : ids_ok x -> pieces_ok (frame_message show_f32 x) /\
  render (frame_message show_f32 x) =
  display_frame_error show_f32 x ++ match x with FMissingAttribute _ _ _ => [] | _ => lit ". " end.
Proof.
  assert (A : forall o, (exists cls, spawnable objects o cls) -> small o).
  { intros o [cls H]. apply spawnable_text in H. tauto. }
  destruct x; cbn [ids_ok frame_message display_frame_error]; intros H.
  - split; [ok|rend].
  - split; [ok|rend].
  - split; [ok|rend].
  - split; [ok; now apply i32_small|rend].
  - split; [ok; now apply i32_small|rend].
  - destruct H as (H1 & n & H2). split; [ok; [now apply i32_small|eapply object_small; eauto]|rend].
  - destruct H as (H1 & H2 & cls & H3 & _). split; [ok; try (now apply i32_small); eauto|rend].
  - destruct H as (H1 & H2 & H3 & cls & p & n & tag & H4 & _). apply attribute_error_render in H3 as [O R]. split.
    + constructor; [exact Logic.I|]. apply ok_app; auto. ok; try (now apply i32_small); eauto.
    + rewrite render_cons, render_app, R. rend.
Qed.

Lemma attribute_of_spec obj cls s : spawnable objects obj cls -> is_i32 s ->
  match attribute_of c obj s with
  | Some a => exists p name, resolves objects caches cls s p /\ object_at objects (cp_object_ind p) name /\
      kind_of name (oa_attribute a) /\ getZ (as_usize (oa_object_id a)) (fc_objects c) = Some name
  | None => forall p, ~ resolves objects caches cls s p
  end.
Proof.
  intros H Hs. unfold attribute_of. destruct (spawnable_text _ _ H) as (_ & _ & ->).
  destruct (table_spec _ _ H) as (ci & -> & T'). destruct (seg_get s (ci_attributes ci)) as [a|] eqn:E.
  - apply T' in E as (p & name & H1 & H2 & H3 & H4); auto. exists p, name. split; auto. split; auto. split; auto.
    rewrite H4, Eo. now apply object_get.
  - intros p Hp. assert (I : exists name, object_at objects (cp_object_ind p) name).
    { apply PR. destruct Hp as (ids & _ & (b & x & af & _ & Hm & _)). apply mention_in in Hm. tauto. }
    destruct I as [name Hn]. destruct (kind_total name) as [t Ht].
    assert (Q : seg_get s (ci_attributes ci) = Some (mkObjAttr t (cp_object_ind p))) by (apply T'; auto; exists p, name; auto).
    congruence.
Qed.

Lemma detail_render x : ids_ok x -> exists l, detail objects caches x l /\ pieces_ok l /\ render l = contextualize c x.
Proof.
  destruct x as [what|t|t|o|a|a o|a o s|a o s y]; cbn [ids_ok contextualize]; intros H;
    try (exists []; split; [apply detail_none; congruence|split; [constructor|reflexivity]]; fail).
  - destruct H as (_ & n & Hn). exists [W "("; T n; W ")"]. split; [now constructor|]. split; [ok|].
    rewrite Eo, (object_get objects L _ _ Hn). reflexivity.
  - destruct H as (_ & Hs & cls & Hc & H). unfold contextualize_attribute. destruct (spawnable_text _ _ Hc) as (-> & _).
    pose proof (attribute_of_spec _ _ _ Hc Hs) as A. destruct (attribute_of c o s) as [at_|].
    + destruct A as (p & name & A1 & A2 & A3 & A4).
      destruct H as [H|(p' & n & H1 & H2 & H3)]; [destruct (H _ A1)|].
      rewrite (resolves_fun _ _ _ _ _ _ L H1 A1) in H2. assert (n = name) by (destruct H2, A2; congruence). subst n.
      assert (oa_attribute at_ = TNotImplemented) as -> by (apply kind_of_spec in A3, H3; congruence). rewrite A4.
      exists [W "attribute: "; T name; NL]. split; [|split; [ok|reflexivity]]. eapply detail_unimplemented; eauto.
      destruct H3 as [H3|[H3 _]]; auto. destruct (not_listed _ H3).
    + destruct (names_render s Hs) as (l & Hl & O & R). eexists. split; [eapply detail_unknown; eauto|]. split.
      * apply ok_app; auto. ok. now apply i32_small.
      * rewrite render_app, R. rend.
  - destruct H as (_ & Hs & _ & cls & p' & n & tag & Hc & H1 & H2 & H3 & Hne). unfold contextualize_attribute.
    destruct (spawnable_text _ _ Hc) as (-> & _).
    pose proof (attribute_of_spec _ _ _ Hc Hs) as A. destruct (attribute_of c o s) as [at_|]; [|destruct (A _ H1)].
    destruct A as (p & name & A1 & A2 & A3 & A4).
    rewrite (resolves_fun _ _ _ _ _ _ L H1 A1) in H2. assert (n = name) by (destruct H2, A2; congruence). subst n.
    assert (oa_attribute at_ = tag) as -> by (apply kind_of_spec in A3, H3; congruence).
    destruct (names_render s Hs) as (l & Hl & O & R). eexists. split; [eapply detail_value with (tag := tag); eauto|].
    { destruct H3 as [H3|[_ H3]]; [exact H3|congruence]. }
    split; [apply ok_app; auto; ok|].
    rewrite render_app, R. destruct tag; try congruence; rend.
Qed.

Lemma error_render x : context_ok objects c -> ids_ok x -> exists l,
  frame_error_message show_f32 debug_attribute objects caches c x l /\
  reads l (display_network_error show_f32 debug_attribute (NFrameError x c)).
Proof.
  intros C H. destruct (detail_render x H) as (l1 & D1 & O1 & R1).
  destruct (situation_render objects L show_f32 debug_attribute c C) as (l2 & D2 & O2 & R2).
  destruct (frame_message_render x H) as [O R].
  exists (W "Error decoding frame: " :: frame_message show_f32 x ++ l1 ++ NL :: l2). split; [exists l1, l2; auto|].
  assert (E : display_network_error show_f32 debug_attribute (NFrameError x c) =
    render (W "Error decoding frame: " :: frame_message show_f32 x ++ l1 ++ NL :: l2)).
  { cbn [display_network_error]. rewrite render_cons, !render_app, render_cons, R, R1, R2, !say_cons, say_nil, app_nil_r, <- !app_assoc.
    reflexivity. }
  rewrite E. apply render_reads. constructor; [exact Logic.I|]. apply ok_app; auto. apply ok_app; auto.
  constructor; [exact Logic.I|exact O2].
Qed.

End Detail.
