(** * Proofs: error messages are at most proportional to the file *)

From Coq Require Import ZArith List Bool Lia ZifyBool ZifyNat Sorted.
From Verif Require Import Base F32 Text NetTypes SegArray Errors Core Header Body BitReader Attributes Data ObjectIndex Network Parser
  Json JsonText Debug DebugNet FloatDisplay Display Wire SpecBasic SpecNet SpecFrames SpecSize SpecFile SpecCrc SpecReplay SpecJson SpecAttrErrors
  SpecErrors SpecFileErrors SpecResult SpecDisplay SpecMessage BitLemmas TypedProofs SizeProofs WireBits TextLength DebugLength DisplayProofs
  DisplayFacts TableProofs CauseProofs FileErrorProofs ResultProofs ParseProofs FileFacts ErrorFacts.
Open Scope Z_scope.

(** ** Numbers, lists of names *)

Lemma digits_len f : forall x acc, lenZ (dec_digits f x acc) <= Z.of_nat f + lenZ acc.
Proof.
  induction f as [|f IH]; intros x acc; cbn [dec_digits]; [lia|]. cbv zeta. destruct (_ =? 0); [rewrite lenZ_cons; lia|].
  etransitivity; [apply IH|]. rewrite lenZ_cons. lia.
Qed.
Lemma show_len x : lenZ (show x) <= 21.
Proof.
  unfold show, display_Z. destruct (_ <? _); rewrite ?lenZ_cons;
    match goal with |- context [dec_digits 20 ?y []] => pose proof (digits_len 20 y []) end; change (@lenZ byte []) with 0 in *; lia.
Qed.
Lemma say_len l : lenZ (say l) = total lenZ l.
Proof. unfold say. induction l as [|x l IH]; [reflexivity|]. cbn [concat]. rewrite lenZ_app, total_cons, IH. reflexivity. Qed.
Lemma join_len l : lenZ (join l) <= total (fun s => 2 + lenZ s) l.
Proof.
  induction l as [|x [|y t] IH]; [cbn; lia|rewrite total_cons, total_nil; cbn [join]; lia|].
  change (join (x :: y :: t)) with (x ++ lit ", " ++ join (y :: t)). rewrite total_cons, !lenZ_app. change (lenZ (lit ", ")) with 2. lia.
Qed.

(** names without repetition are at most as long as the list they are from *)
Lemma distinct_total (w : str -> Z) (W : forall x, 0 <= w x) l : NoDup l -> forall m, incl l m -> total w l <= total w m.
Proof.
  induction 1 as [|x l Hx _ IH]; intros m I; [apply total_nonneg, W|].
  destruct (in_split x m (I x (or_introl eq_refl))) as (a & b & ->). rewrite total_cons, total_app, total_cons.
  assert (I' : incl l (a ++ b)).
  { intros y Hy. specialize (I y (or_intror Hy)). apply in_app_iff in I as [I|[<-|I]]; [apply in_or_app; auto|contradiction|apply in_or_app; auto]. }
  apply IH in I'. rewrite total_app in I'. lia.
Qed.
Lemma ascending_distinct l : ascending l -> NoDup l.
Proof.
  unfold ascending. induction l as [|x l IH]; intros H; [constructor|]. inversion H as [|? ? H' F]; subst. constructor; [|auto].
  intros Hx. rewrite Forall_forall in F. apply F in Hx. tauto.
Qed.
Lemma dedup_names l : NoDup (dedup (sort l)).
Proof. apply ascending_distinct, dedup_sorted, sort_sorted. Qed.

Lemma filter_map_in {A C} (f : A -> option C) l y : In y (filter_map f l) -> exists x, In x l /\ f x = Some y.
Proof.
  induction l as [|x l IH]; cbn [filter_map]; [intros []|]. destruct (f x) eqn:E.
  - intros [<-|H]; [exists x; split; [now left|exact E]|]. apply IH in H as (z & Hz & Ez). exists z. split; [now right|exact Ez].
  - intros H. apply IH in H as (z & Hz & Ez). exists z. split; [now right|exact Ez].
Qed.
Lemma text_in s l : In s l -> 1 + lenZ s <= texts_size l.
Proof.
  unfold texts_size. induction l as [|y l IH]; [intros []|]. rewrite total_cons.
  assert (N : 0 <= total (fun s => 1 + text_size s) l) by (apply total_nonneg; intros x; unfold text_size; lia).
  intros [->|H]; [|apply IH in H]; unfold text_size, lenZ in *; lia.
Qed.
Lemma texts_nonneg l : 0 <= texts_size l.
Proof. apply total_nonneg. intros x. unfold text_size. lia. Qed.

(** ** The parts of a message *)

Ltac words :=
  repeat match goal with
  | |- context [lenZ (lit ?s)] => match s with String _ _ => idtac end; let v := eval vm_compute in (lenZ (lit s)) in change (lenZ (lit s)) with v
  | |- context [lenZ newline] => change (lenZ newline) with 1
  | |- context [lenZ (dashes ?n)] => let v := eval vm_compute in (lenZ (dashes n)) in change (lenZ (dashes n)) with v
  end.
Ltac shows :=
  repeat match goal with
  | |- context [lenZ (show ?x)] => let H := fresh in pose proof (show_len x) as H; revert H; generalize (lenZ (show x)); intros ? H
  end.
Ltac slia := unfold str in *; lia.
Ltac saying := rewrite ?say_len; repeat (rewrite total_cons); rewrite ?total_nil; words; shows.

Section Context.
Context (show_f32 : f32 -> str) (debug_attribute : attribute -> str) (Hf : forall x, lenZ (show_f32 x) <= 71).
Context (c : frame_context) (D : Z) (HD : 0 <= D).
Notation S := (texts_size (fc_objects c)).

Lemma name_len id d : lenZ d <= 20 -> lenZ (match getZ id (fc_objects c) with Some s => s | None => d end) <= 20 + S.
Proof.
  intros H. pose proof (texts_nonneg (fc_objects c)). destruct (getZ id (fc_objects c)) eqn:E; [|lia]. apply getZ_in, text_in in E. lia.
Qed.
Lemma object_len id : lenZ (object_ind_to_string c id) <= 20 + S.
Proof. apply name_len. cbn. lia. Qed.

Lemma names_len l : lenZ (display_names c l) <= 150 + 6 * S.
Proof.
  unfold display_names. cbv zeta. saying.
  assert (I : incl (names_with_stream c l) (fc_objects c)).
  { intros s H. unfold names_with_stream in H. apply dedup_in, (proj1 (sort_in _ _)) in H. apply filter_map_in in H as (a & _ & H). now apply getZ_in in H. }
  assert (N : NoDup (names_with_stream c l)) by apply dedup_names.
  assert (I' : incl (unknown_of (names_with_stream c l)) (fc_objects c)).
  { intros s H. unfold unknown_of in H. apply dedup_in, (proj1 (sort_in _ _)) in H. apply filter_In in H as [H _]. auto. }
  assert (N' : NoDup (unknown_of (names_with_stream c l))) by apply dedup_names.
  set (names := names_with_stream c l) in *. set (unknown := unknown_of names) in *.
  pose proof (join_len unknown) as J. pose proof (join_len (map (fun n => say [lit "("; n; lit ")"]) names)) as K. rewrite total_map in K.
  assert (J' : total (fun s => 2 + lenZ s) unknown <= 2 * S).
  { etransitivity; [apply (distinct_total (fun s => 2 + lenZ s) ltac:(intros x; pose proof (lenZ_nonneg x); lia) _ N' _ I')|].
    clear. unfold texts_size. induction (fc_objects c) as [|x t IH]; [reflexivity|]. rewrite !total_cons. unfold text_size, lenZ in *. lia. }
  assert (K' : total (fun s => 4 + lenZ s) names <= 4 * S).
  { etransitivity; [apply (distinct_total (fun s => 4 + lenZ s) ltac:(intros x; pose proof (lenZ_nonneg x); lia) _ N _ I)|].
    clear. unfold texts_size. induction (fc_objects c) as [|x t IH]; [reflexivity|]. rewrite !total_cons. unfold text_size, lenZ in *. lia. }
  assert (E : total (fun x => 2 + lenZ (say [lit "("; x; lit ")"])) names = total (fun s => 4 + lenZ s) names).
  { clear. induction names as [|x t IH]; [reflexivity|]. rewrite !total_cons, IH. rewrite say_len, !total_cons, total_nil. words. lia. }
  lia.
Qed.
#[local] Opaque display_names.

Lemma tag_len t : lenZ (lit (tag_name t)) <= 30.
Proof. destruct t; vm_compute; discriminate. Qed.

Lemma contextualize_len x : lenZ (contextualize c x) <= 400 + 7 * S.
Proof.
  pose proof (texts_nonneg (fc_objects c)) as P.
  assert (A : forall obj s, lenZ (contextualize_attribute c obj s) <= 400 + 7 * S).
  { intros obj s. unfold contextualize_attribute. cbv zeta. pose proof (names_len s).
    pose proof (name_len (as_usize obj) (lit "<none>") ltac:(cbn; lia)) as N.
    destruct (attribute_of c obj s) as [a|]; [|saying; unfold str in *; lia].
    pose proof (name_len (as_usize (oa_object_id a)) (lit "<unknown>") ltac:(cbn; lia)).
    pose proof (tag_len (oa_attribute a)). destruct (oa_attribute a); saying; unfold str in *; lia. }
  destruct x; cbn [contextualize]; try apply A; try (change (@lenZ byte []) with 0; lia).
  match goal with |- context [getZ ?i ?l] => destruct (getZ i l) eqn:E; [|change (@lenZ byte []) with 0; lia] end. apply getZ_in, text_in in E. saying. unfold str in *. lia.
Qed.
#[local] Opaque contextualize contextualize_attribute.

Lemma opt_len o : lenZ (debug_opt_i8 o) <= 27.
Proof. destruct o; cbn [debug_opt_i8]; saying; unfold str in *; lia. Qed.
#[local] Opaque debug_opt_i8.
Lemma location_len o : lenZ (debug_location o) <= 100.
Proof. destruct o as [v|]; cbn [debug_location]; saying; unfold str in *; lia. Qed.
#[local] Opaque debug_location.
Lemma rotation_len o : lenZ (debug_rotation o) <= 150.
Proof.
  destruct o as [v|]; cbn [debug_rotation]; saying; [|lia].
  pose proof (opt_len (r_yaw v)). pose proof (opt_len (r_pitch v)). pose proof (opt_len (r_roll v)). lia.
Qed.
#[local] Opaque debug_rotation.
Lemma new_len a : lenZ (display_new_actor c a) <= 600 + S.
Proof.
  unfold display_new_actor. pose proof (object_len (n_object_id a)). pose proof (location_len (t_location (n_traj a))).
  pose proof (rotation_len (t_rotation (n_traj a))).
  assert (lenZ (match n_name_id a with Some x => show x | None => lit "<none>" end) <= 21).
  { destruct (n_name_id a); [apply show_len|cbn; lia]. }
  saying. unfold str in *. lia.
Qed.
#[local] Opaque display_new_actor.
Lemma update_len u : lenZ (debug_attribute (u_attribute u)) <= D -> lenZ (display_update debug_attribute c u) <= 400 + 2 * S + D.
Proof.
  intros H. unfold display_update. pose proof (object_len (u_object_id u)). pose proof (texts_nonneg (fc_objects c)).
  saying.
  match goal with |- context [match ?m with Some _ => _ | None => _ end] =>
    assert (lenZ (match m with Some obj => say [lit "object id: "; show obj; newline; lit "object name: "; object_ind_to_string c obj; newline]
                             | None => say [lit "object id: <none>"; newline] end) <= 80 + S) end.
  { destruct (map_get _ _) as [o|]; [pose proof (object_len o)|]; saying; slia. }
  slia.
Qed.
#[local] Opaque display_update.

Lemma last_in {A} (l : list A) x : Display.last_of l = Some x -> In x l.
Proof. pose proof (last_of_spec l) as H. intros E. rewrite E in H. destruct H as [l' ->]. apply in_or_app. right. now left. Qed.
Lemma enumerate_in {A} (l : list A) : forall i p, In p (enumerate i l) -> In (snd p) l.
Proof. induction l as [|x l IH]; intros i p; cbn [enumerate]; [intros []|]. intros [<-|H]; [now left|right; eauto]. Qed.

Lemma situation_len : (forall u, In u (fc_updated_actors c) -> lenZ (debug_attribute (u_attribute u)) <= D) ->
  (forall f u, In f (fc_frames c) -> In u (f_updated_actors f) -> lenZ (debug_attribute (u_attribute u)) <= D) ->
  lenZ (display_context show_f32 debug_attribute c) <= 1200 + 2 * S + D.
Proof.
  intros H1 H2. pose proof (texts_nonneg (fc_objects c)). unfold display_context. cbv zeta. saying.
  set (t1 := match Display.last_of (fc_frames c) with Some f => f_time f | None => 0 end).
  set (t2 := match Display.last_of (fc_frames c) with Some f => f_delta f | None => 0 end).
  pose proof (Hf t1). pose proof (Hf t2).
  match goal with |- context [lenZ (match Display.last_of (fc_updated_actors c) with Some u => ?a u | None => ?b end)] =>
    assert (lenZ (match Display.last_of (fc_updated_actors c) with Some u => a u | None => b end) <= 900 + 2 * S + D); [|slia] end.
  destruct (Display.last_of (fc_updated_actors c)) as [u|] eqn:E1.
  { apply last_in in E1. pose proof (update_len u (H1 _ E1)). slia. }
  destruct (Display.last_of (fc_new_actors c)) as [a|] eqn:E2; [pose proof (new_len a); slia|]. saying.
  destruct (most_recent_frame_with_data c) as [[i f]|] eqn:E3; [|change (@lenZ byte []) with 0; slia].
  unfold most_recent_frame_with_data in E3. apply find_some in E3 as [E3 _]. apply in_rev, enumerate_in in E3. cbn [snd] in E3. saying.
  pose proof (Hf (f_time f)). pose proof (Hf (f_delta f)).
  destruct (Display.last_of (f_updated_actors f)) as [u|] eqn:E4.
  { apply last_in in E4. pose proof (update_len u (H2 _ _ E3 E4)). slia. }
  destruct (Display.last_of (f_new_actors f)) as [a|]; [pose proof (new_len a); slia|]. saying. slia.
Qed.
#[local] Opaque display_context.

Definition short (x : attribute_error) : Prop := match x with ANotEnoughDataFor what => lenZ (lit what) <= 40 | _ => True end.
Definition brief (x : frame_error) : Prop :=
  match x with FNotEnoughDataFor what => lenZ (lit what) <= 40 | FAttributeError _ _ _ y => short y | _ => True end.

Lemma frame_error_len x : brief x -> lenZ (display_frame_error show_f32 x) <= 250.
Proof.
  intros H. destruct x as [what|t|d|o|a|a o|a o s|a o s y]; cbn [display_frame_error brief] in *; try (pose proof (Hf t)); try (pose proof (Hf d)); saying; try slia.
  assert (lenZ (display_attribute_error y) <= 80); [|slia]. destruct y; cbn [display_attribute_error short] in *; saying; slia.
Qed.
#[local] Opaque display_frame_error.
End Context.

Lemma network_len show_f32 debug_attribute D c x : (forall y, lenZ (show_f32 y) <= 71) -> 0 <= D -> brief x ->
  (forall u, In u (fc_updated_actors c) -> lenZ (debug_attribute (u_attribute u)) <= D) ->
  (forall f u, In f (fc_frames c) -> In u (f_updated_actors f) -> lenZ (debug_attribute (u_attribute u)) <= D) ->
  lenZ (display_network_error show_f32 debug_attribute (NFrameError x c)) <= 2000 + 9 * texts_size (fc_objects c) + D.
Proof.
  intros Hf HD B H1 H2. cbn [display_network_error]. pose proof (frame_error_len show_f32 Hf D x B).
  pose proof (contextualize_len show_f32 Hf c D x). pose proof (situation_len show_f32 debug_attribute Hf c D HD H1 H2).
  assert (lenZ (match x with FMissingAttribute _ _ _ => [] | _ => lit ". " end) <= 2) by (destruct x; cbn; lia).
  saying. slia.
Qed.

(** ** What a frame error can be about *)

Section Names.
Lemma m_short_brief {A} what (P : wire A) i x : lenZ (lit what) <= 40 -> m_short what P i x -> short x.
Proof. intros H [-> _]. exact H. Qed.
Lemma m_part_brief {A} (X : misfit) (P : wire A) (Y : A -> misfit) i x : (forall i x, X i x -> short x) ->
  (forall a i x, Y a i x -> short x) -> m_part X P Y i x -> short x.
Proof. intros HX HY [H|(a & m & H1 & H2)]; eauto. Qed.
Lemma m_named_brief {A} what (P : wire A) (Y : A -> misfit) i x : lenZ (lit what) <= 40 ->
  (forall a i x, Y a i x -> short x) -> m_named what P Y i x -> short x.
Proof. intros H. apply m_part_brief. intros j y. now apply m_short_brief. Qed.
Ltac small := vm_compute; discriminate.
Lemma m_text_brief i x : m_text i x -> short x.
Proof. apply m_named_brief; [small|]. intros n j y [-> _]. exact Logic.I. Qed.
Lemma m_remote_brief net sys i x : m_remote net sys i x -> short x.
Proof.
  assert (Q : x = AUnrecognizedRemoteId sys -> short x) by (intros ->; exact Logic.I).
  destruct sys as [|p|p]; [apply m_short_brief; small| |exact Q].
  do 4 (try destruct p as [p|p|]); try exact Q; cbn [m_remote];
    repeat first [apply m_short_brief; small|apply m_text_brief|apply m_named_brief; [small|intros ? ? ?]].
  destruct (net <? 10); [apply m_short_brief; small|intros []].
Qed.
Lemma m_tail_brief net sys i x : m_unique_tail net sys i x -> short x.
Proof. apply m_part_brief; [intros j y; apply m_remote_brief|]. intros a j y. apply m_short_brief. small. Qed.
Lemma m_unique_brief net i x : m_unique net i x -> short x.
Proof. apply m_named_brief; [small|]. intros sys j y. apply m_tail_brief. Qed.
Lemma m_attribute_brief D tag i x : m_attribute D tag i x -> short x.
Proof.
  destruct tag; cbn [m_attribute]; try (apply m_short_brief; small); try (intros ->; exact Logic.I);
    repeat first [apply m_short_brief; small|apply m_text_brief|apply m_unique_brief
      |apply m_named_brief; [small|intros ? ? ?]|apply m_part_brief; [intros ? ?|intros ? ? ?]].
  - destruct (ad_is_rl_223 D); [apply m_text_brief|apply m_short_brief; small].
  - unfold m_reservation_name. destruct (_ =? _); [apply m_short_brief; small|apply m_text_brief].
  - destruct (_ =? _); [intros []|]. apply m_tail_brief.
Qed.

Context (e : net_env).
Lemma new_brief id i x : new_fails e id i x -> brief x.
Proof. intros H. inversion H; subst; try exact Logic.I; small. Qed.
Lemma update_brief id obj cls i x : update_fails e id obj cls i x -> brief x.
Proof. intros H. inversion H; subst; try exact Logic.I; [small|]. cbn [brief]. eapply m_attribute_brief; eauto. Qed.
Lemma record_brief h i us x : record_fails e h i us x -> brief x.
Proof. intros H. inversion H; subst; try exact Logic.I; try small; [eapply new_brief; eauto|eapply update_brief; eauto]. Qed.
Lemma frame_brief h i rs us x : frame_fails e h i rs us x -> brief x.
Proof. intros H. inversion H; subst; try exact Logic.I; try small. eapply record_brief; eauto. Qed.

Lemma attribute_bits_nonneg a : 0 <= attribute_bits a.
Proof.
  assert (P : forall l, 0 <= online_bits l).
    { intros l. apply total_nonneg. intros x. assert (0 <= total product_bits x); [|lia]. apply total_nonneg. intros p.
      unfold product_bits, product_size, text_size. destruct (pr_value p); lia. }
    destruct a; cbn [attribute_bits attribute_size]; try lia;
    repeat match goal with
    | |- context [unique_size ?u] => first [match goal with K : 0 <= unique_size u |- _ => fail 2 end|pose proof (usize_nonneg u)]
    | |- context [maybe text_size ?u] => first [match goal with K : 0 <= maybe text_size u |- _ => fail 2 end|pose proof (maybe_pos text_size u text_nonneg)]
    | |- context [maybe unique_size ?u] =>
        first [match goal with K : 0 <= maybe unique_size u |- _ => fail 2 end|pose proof (maybe_pos unique_size u usize_nonneg)]
    | |- context [text_size ?u] => first [match goal with K : 0 <= text_size u |- _ => fail 2 end|pose proof (text_nonneg u)]
    | |- context [online_bits ?u] => first [match goal with K : 0 <= online_bits u |- _ => fail 2 end|pose proof (P u)]
    end; lia.
Qed.
(** an update of at most [n] bits *)
Definition within (n : Z) (u : updated_attribute) : Prop := typed_attribute (u_attribute u) /\ attribute_bits (u_attribute u) <= n.
Lemma within_mono n m u : n <= m -> within n u -> within m u.
Proof. intros L [H K]. split; [exact H|lia]. Qed.
Lemma within_update id cls i u o : w_update e id cls i u o -> within (len i) u /\ len o <= len i.
Proof.
  intros H. pose proof (bits_update e id cls i u o H) as K. pose proof (wp_update e id cls i u o H) as K'.
  destruct H as (bound & s & i1 & p & pn & tag & a & _ & H1 & _ & _ & _ & H2 & ->).
  pose proof (y_attribute _ _ _ _ _ H2) as Y. pose proof (shr_bounded _ _ _ _ H1) as L1. pose proof (wp_attribute _ _ _ _ _ H2) as L2.
  pose proof (bits_attribute _ _ _ _ _ H2) as L3. unfold within. cbn [u_attribute] in *.
  pose proof (attribute_bits_nonneg a). repeat split; [exact Y|lia|lia].
Qed.
Lemma within_many id cls i us o : w_many (w_update e id cls) i us o -> Forall (within (len i)) us /\ len o <= len i.
Proof.
  intros H. induction H as [o|i x m xs o H _ [IH L]]; [split; [constructor|cbn [length]; lia]|].
  apply within_update in H as [W K]. cbn [length]. split; [|lia]. constructor; [eapply within_mono; [|exact W]; lia|].
  eapply Forall_impl; [|exact IH]. intros u. apply within_mono. lia.
Qed.
Lemma within_before id cls i us o : many_before (good_update e id cls) i us o -> Forall (within (len i)) us /\ len o <= len i.
Proof.
  intros H. induction H as [o|i x m xs o [_ H] _ [IH L]]; [split; [constructor|lia]|].
  apply within_update in H as [W K]. cbn [length]. split; [|lia]. constructor; [eapply within_mono; [|exact W]; lia|].
  eapply Forall_impl; [|exact IH]. intros u. apply within_mono. lia.
Qed.
Lemma actor_shrinks : shrinks (w_actor_id e).
Proof. unfold w_actor_id. apply shr_map, shr_bounded. Qed.
Definition within_record n r := Forall (within n) (updated_of r).
Lemma within_rec h i r o : w_record e h i r o -> within_record (len i) r /\ len o <= len i.
Proof.
  intros H. pose proof (bits_record e h i r o H) as K. destruct H as (id & i1 & H & R). apply actor_shrinks in H.
  assert (L : len o <= len i).
  { assert (0 <= record_bits r); [|lia]. destruct r as [a|id'|id' us]; cbn [record_bits]; try lia.
    assert (0 <= total update_bits us); [|lia]. apply total_nonneg. intros u. unfold update_bits.
    pose proof (attribute_bits_nonneg (u_attribute u)). lia. }
  split; [|exact L]. unfold within_record. destruct r as [a|id'|id' us]; cbn [updated_of]; try constructor.
  destruct R as (_ & i2 & obj & cls & -> & _ & _ & R). apply within_many in R as [W R]. cbn [length] in *.
  eapply Forall_impl; [|exact W]. intros u. apply within_mono. lia.
Qed.
Lemma within_records h i rs o : w_records e h i rs o -> Forall (within_record (len i)) rs /\ len o <= len i.
Proof.
  intros H. induction H as [h o|h i r m rs o H _ [IH L]]; [split; [constructor|cbn [length]; lia]|].
  apply within_rec in H as [W K]. cbn [length]. split; [|lia].
  constructor; [eapply Forall_impl; [|exact W]; intros u; apply within_mono; lia|].
  eapply Forall_impl; [|exact IH]. intros x. apply Forall_impl. intros u. apply within_mono. lia.
Qed.
Lemma within_records_before h i rs o : records_before e h i rs o -> Forall (within_record (len i)) rs /\ len o <= len i.
Proof.
  intros H. induction H as [h o|h i r m rs o _ H _ [IH L]]; [split; [constructor|lia]|].
  apply within_rec in H as [W K]. cbn [length]. split; [|lia].
  constructor; [eapply Forall_impl; [|exact W]; intros u; apply within_mono; lia|].
  eapply Forall_impl; [|exact IH]. intros x. apply Forall_impl. intros u. apply within_mono. lia.
Qed.
Lemma within_frames_before h i xs h' o : frames_before e h i xs h' o ->
  Forall (fun x => Forall (within_record (len i)) (snd x)) xs /\ len o <= len i.
Proof.
  intros H. induction H as [h o|h i t d rs m xs h' o H _ [IH L]]; [split; [constructor|lia]|].
  destruct H as (i1 & i2 & H1 & H2 & _ & _ & _ & H3). apply wp_uint in H1, H2. apply within_records in H3 as [W K].
  split; [|lia]. constructor; cbn [snd].
  - eapply Forall_impl; [|exact W]. intros x. apply Forall_impl. intros u. apply within_mono. lia.
  - eapply Forall_impl; [|exact IH]. intros x. apply Forall_impl. intros y. apply Forall_impl. intros u. apply within_mono. lia.
Qed.
Lemma within_record_fails h i us x : record_fails e h i us x -> Forall (within (len i)) us.
Proof.
  intros H. inversion H; subst; try constructor;
    match goal with H : w_actor_id e _ _ _ |- _ => apply actor_shrinks in H end;
    match goal with H : many_before _ _ _ _ |- _ => apply within_before in H as [W K] end; cbn [length] in *;
    (eapply Forall_impl; [|exact W]); intros u; apply within_mono; lia.
Qed.
Lemma within_frame_fails h i rs us x : frame_fails e h i rs us x -> Forall (within_record (len i)) rs /\ Forall (within (len i)) us.
Proof.
  intros H. inversion H; subst; try (split; constructor);
    repeat match goal with H : w_f32 _ _ _ |- _ => apply wp_uint in H end;
    match goal with H : records_before _ _ _ _ _ |- _ => apply within_records_before in H as [W K] end;
    (split; [eapply Forall_impl; [|exact W]; intros y; apply Forall_impl; intros u; apply within_mono; lia|]); try constructor.
  match goal with H : record_fails _ _ _ _ _ |- _ => apply within_record_fails in H as W' end. cbn [length] in *.
  eapply Forall_impl; [|exact W']. intros u. apply within_mono. lia.
Qed.

Lemma frames_fail_within n i x ctx : frames_fail e n i x ctx -> brief x /\ fc_objects ctx = e_objects e /\
  (forall u, In u (fc_updated_actors ctx) -> within (len i) u) /\
  (forall f u, In f (fc_frames ctx) -> In u (f_updated_actors f) -> within (len i) u).
Proof.
  intros (xs & h & j & rs & us & FB & _ & _ & FF & E1 & E2 & _ & E4 & _). split; [eapply frame_brief; eauto|]. split; [exact E1|].
  apply within_frames_before in FB as [W L]. apply within_frame_fails in FF as [W1 W2].
  rewrite !Forall_forall in *. split.
  - intros u. rewrite E4, in_app_iff, in_flat_map. intros [(r & Hr & Hu)|Hu].
    + specialize (W1 r Hr). red in W1. rewrite Forall_forall in W1. eapply within_mono; [exact L|]. apply W1, Hu.
    + eapply within_mono; [exact L|]. apply W2, Hu.
  - intros f u. rewrite E2, in_map_iff. intros ([[t d] rs'] & <- & Hx) Hu. specialize (W _ Hx). cbn [snd] in W.
    cbn [to_frame frame_of f_updated_actors] in Hu. apply in_flat_map in Hu as (r & Hr & Hu).
    rewrite Forall_forall in W. specialize (W r Hr). red in W. rewrite Forall_forall in W. apply W, Hu.
Qed.
End Names.

(** ** Errors outside the frames *)

Fixpoint kind_len (e : parse_error) : Z :=
  match e with
  | EParseError _ _ x | ECorruptReplay _ x => kind_len x
  | EUnexpectedProperty p => lenZ p
  | _ => 0
  end.
Definition fault_len (t : fault) : Z := match snd t with UnknownKind k => lenZ k | _ => 0 end.
Lemma report_kind total t o : kind_len (report total t o) = fault_len t.
Proof.
  destruct t as [parts c]. unfold report, fault_len. cbn [fst snd]. induction parts as [|p parts IH]; cbn [fold_right kind_len]; [|exact IH].
  now destruct c.
Qed.

Definition unnamed (X : faulty) : Prop := forall i t o, X i t o -> fault_len t = 0.
Lemma un_none : unnamed x_none.
Proof. intros i t o []. Qed.
Lemma un_now c : (forall k, c <> UnknownKind k) -> unnamed (x_now c).
Proof. intros H i t o [-> _]. unfold fault_len. cbn [snd]. destruct c; try reflexivity. now destruct (H kind). Qed.
Lemma un_cut n : unnamed (x_cut n).
Proof. intros i t o [_ H]. eapply un_now; [|exact H]. discriminate. Qed.
Lemma un_in part X : unnamed X -> unnamed (x_in part X).
Proof. intros H i t o (parts & c & K & ->). apply H in K. exact K. Qed.
Lemma un_then {A} (P : form A) X Y : unnamed X -> (forall a, unnamed (Y a)) -> unnamed (x_then P X Y).
Proof. intros H1 H2 i t o [H|(a & m & _ & H)]; [eapply H1|eapply H2]; exact H. Qed.
Lemma un_times {A} n (P : form A) X : unnamed X -> unnamed (x_times n P X).
Proof. intros H i t o (k & l & m & _ & _ & K). eapply H, K. Qed.
Lemma un_str : unnamed x_str.
Proof.
  apply un_then; [apply un_cut|]. intros n. apply un_then; [apply un_cut|]. intros l i t o (e & _ & H). eapply un_now; [|exact H]. discriminate.
Qed.
Lemma un_text : unnamed x_text.
Proof. apply un_then; [apply un_cut|]. intros n. destruct (_ || _); [apply un_now; discriminate|apply un_cut]. Qed.
Lemma un_list {A} (P : form A) X : unnamed X -> unnamed (x_list P X).
Proof. intros H. apply un_then; [apply un_cut|]. intros n. unfold x_counted. destruct (_ || _); [apply un_now; discriminate|now apply un_times]. Qed.
Lemma un_declared a b c : unnamed (x_declared a b c).
Proof. unfold x_declared, x_i32. repeat first [apply un_then; [|intros ?]|apply un_in|apply un_cut]. Qed.
Lemma un_body : unnamed x_body.
Proof.
  unfold x_body, x_network, x_keyframe, x_debug, x_tickmark, x_class_index, x_net_cache, x_cache_prop.
  repeat first [apply un_list|apply un_text|apply un_str|apply un_then; [|intros ?]|apply un_in|apply un_cut].
Qed.

Lemma str_len i s o : f_str i s o -> lenZ s + lenZ o <= lenZ i.
Proof.
  intros (n & m & H & K). apply fp_i32 in H. destruct (n <? 0); [destruct K|]. destruct K as (l & K & -> & _).
  apply fp_bytes in K. pose proof (removelast_len l). unfold lenZ in *. lia.
Qed.
Lemma opens_len i k o : opens i k o -> lenZ k <= lenZ i /\ lenZ o <= lenZ i.
Proof.
  intros (key & m1 & m2 & x & H1 & _ & H2 & H3). apply str_len in H1, H2. apply fp_bytes_n in H3. unfold lenZ in *. lia.
Qed.
Scheme x_props_m := Minimality for x_props Sort Prop
  with x_value_m := Minimality for x_value Sort Prop.
Combined Scheme x_props_mut from x_props_m, x_value_m.

Lemma props_kind q :
  (forall i t o, x_props q i t o -> fault_len t <= lenZ i) /\
  (forall k i t o, x_value q k i t o -> fault_len t <= Z.max (lenZ k) (lenZ i)).
Proof.
  assert (U : forall X i t o n, unnamed X -> X i t o -> 0 <= n -> fault_len t <= n) by (intros X i t o n H K; apply H in K; lia).
  assert (P : forall (l : bytes), 0 <= lenZ l) by (intros; unfold lenZ; lia).
  assert (P' : forall (k : str) (l : bytes), 0 <= Z.max (lenZ k) (lenZ l)) by (intros k l; specialize (P l); lia).
  assert (V : forall k i v o, f_value q k i v o -> lenZ o <= lenZ i).
  { intros k i v o H. apply (fp_props_all q) in H. unfold lenZ. lia. }
  assert (R : forall n i v o, f_rows q n i v o -> lenZ o <= lenZ i).
  { intros k i v o H. apply (fp_props_all q) in H. unfold lenZ. lia. }
  apply x_props_mut; intros;
    try (eapply U; [|eassumption|auto]; first [apply un_str|apply un_cut|apply un_text|apply un_in, un_cut|apply un_now; discriminate]);
    repeat match goal with
    | H : f_str _ _ _ |- _ => apply str_len in H
    | H : opens _ _ _ |- _ => apply opens_len in H
    | H : f_value _ _ _ _ _ |- _ => apply V in H
    | H : f_rows _ _ _ _ _ |- _ => apply R in H
    | H : f_i32 _ _ _ |- _ => apply fp_i32 in H
    | H : f_bytes _ _ _ _ |- _ => apply fp_bytes_n in H
    | H : f_str ?i ?s ?o |- _ => assert (0 <= lenZ s) by (unfold lenZ; lia); apply str_len in H
    end; try (unfold lenZ in *; lia).
  match goal with H : x_now _ _ _ _ |- _ => destruct H as [-> _] end. unfold fault_len. cbn [snd]. lia.
Qed.
Lemma header_kind i t o : x_header i t o -> fault_len t <= lenZ i.
Proof.
  assert (P : forall (l : bytes), 0 <= lenZ l) by (intros; unfold lenZ; lia).
  assert (U : forall X i t o (l : bytes), unnamed X -> X i t o -> fault_len t <= lenZ l) by (intros X j u p l H K; apply H in K; specialize (P l); lia).
  unfold x_header. cbv zeta. intros [H|(major & m & H1 & [H|(minor & m1 & H2 & [H|(v & m2 & H3 & [H|(g & m3 & H4 & H)])])])].
  - eapply U; [apply un_in, un_cut|exact H].
  - eapply U; [apply un_in, un_cut|exact H].
  - destruct (_ && _); [|destruct H]. eapply U; [apply un_in, un_cut|exact H].
  - eapply U; [apply un_in, un_text|exact H].
  - destruct H as (parts & c & H & ->). apply props_kind in H. change (fault_len (parts, c) <= lenZ i). 
    apply fp_i32 in H1, H2. pose proof (fp_text _ _ _ H4). pose proof (text_nonneg g).
    assert (8 * len m2 <= 8 * len m1).
    { destruct (_ && _); [apply (fp_such _ _ (fun _ => 32) (fun _ => 0)) in H3; [lia|apply fp_i32|intros; lia]|].
      destruct H3 as [_ ->]. lia. }
    unfold lenZ in *. lia.
Qed.
Lemma declared_len i size crc cov m : declared i size crc cov m -> lenZ m <= lenZ i.
Proof. intros (m1 & H1 & H2 & _). apply fp_i32 in H1. apply fp_u32 in H2. unfold lenZ. lia. Qed.

Lemma fails_kind c data e : file_fails c data e -> kind_len e <= lenZ data.
Proof.
  assert (P : 0 <= lenZ data) by (unfold lenZ; lia).
  assert (C : forall name (X : faulty) crc cov m e n, 0 <= n -> (forall t o, X m t o -> fault_len t <= n) ->
    x_contents c (Z.of_nat (length data)) name X crc cov m e -> kind_len e <= n).
  { intros name X crc cov m x n N H [(_ & _ & ->)|[(t & o & K & _ & ->)|(t & o & K & _ & _ & ->)]]; cbn [kind_len]; [lia| |];
      rewrite report_kind; eapply H; eauto. }
  intros H. inversion H; subst.
  - rewrite report_kind. apply un_declared in H0. lia.
  - eapply C; [exact P| |eassumption]. intros t o K. apply header_kind in K. apply declared_len in H0. lia.
  - rewrite report_kind. apply un_declared in H3. lia.
  - eapply C; [exact P| |eassumption]. intros t o K. apply un_body in K. lia.
Qed.

Section Files.
Context (shown : Z -> bool).
Definition debug_value (a : attribute) : str := debug_text shown (dbg_attribute a).
Notation message := (display_parse_error display_f32 debug_value).

Lemma show_utf8_len x : lenZ (show_utf8 x) <= 120.
Proof. destruct x as [a [n|]]; cbn [show_utf8]; saying; slia. Qed.
#[local] Opaque show_utf8.
Lemma plain_message e : SpecDisplay.plain e -> lenZ (message e) <= 160 + kind_len e.
Proof.
  destruct e; intros H; try destruct H; cbn [display_parse_error kind_len]; try (pose proof (show_utf8_len e)); saying; slia.
Qed.
Lemma placed_message parts e : (forall p, In p parts -> lenZ (lit p) <= 40) -> SpecDisplay.placed parts e ->
  lenZ (message e) <= 400 + kind_len e.
Proof.
  intros HP (part & a & e' & -> & H & [K|(_ & size & a' & want & have & -> & K)]); specialize (HP _ H); clear H.
  - apply plain_message in K. cbn [display_parse_error kind_len]. saying. slia.
  - assert (lenZ (lit size) <= 20) by (destruct K as [<-|[<-|[]]]; vm_compute; discriminate).
    cbn [display_parse_error kind_len]. do 3 saying. slia.
Qed.
Lemma placed_kind parts e : SpecDisplay.placed parts e -> 0 <= kind_len e.
Proof.
  intros (part & a & e' & -> & _ & [K|(_ & size & a' & want & have & -> & _)]); cbn [kind_len]; [|lia].
  destruct e'; try destruct K; cbn [kind_len]; unfold lenZ; lia.
Qed.
Lemma shape_message e : error_shape e -> (forall x c, e <> ENetworkError (NFrameError x c)) ->
  (forall x, e = ENetworkError x -> lenZ (display_network_error display_f32 debug_value x) <= 400) -> lenZ (message e) <= 400 + kind_len e.
Proof.
  intros [K|[(e' & -> & K)|[(e' & -> & K)|[(want & have & -> & _)|(x & ->)]]]] N X.
  - eapply placed_message; [|exact K]. intros p H. cbn in H.
    repeat match goal with H : _ \/ _ |- _ => destruct H as [<-|H] end; try destruct H; vm_compute; discriminate.
  - apply placed_kind in K. cbn [display_parse_error kind_len]. saying. slia.
  - apply placed_kind in K. cbn [display_parse_error kind_len]. saying. slia.
  - cbn [display_parse_error kind_len]. saying. slia.
  - cbn [display_parse_error kind_len]. specialize (X x eq_refl). lia.
Qed.

Context (B : bitter) (HB : bitter_ok B) (ho : hash_order) (Hho : hash_order_ok ho).
Lemma result_message c n data e : lenZ data < 2 ^ 31 -> parse_with B ho c n data = Err e ->
  (SpecMessage.outside e -> lenZ (message e) <= lenZ data + 400) /\ lenZ (message e) <= 512 * lenZ data + 4000.
Proof.
  intros L E. pose proof (parse_shape _ _ _ _ _ _ E) as S. pose proof (parse_means B HB ho Hho c n data L) as M. rewrite E in M.
  assert (P : 0 <= lenZ data) by (unfold lenZ; lia).
  inversion M as [e' H|h b F|h b fs F|h b x F|h b x F Hn H]; subst.
  - pose proof (fails_kind _ _ _ H) as K.
    assert (lenZ (message e) <= 400 + kind_len e); [|split; [intros _|]; lia].
    apply shape_message; [exact S| |]; [intros x ctx ->|intros x ->]; exfalso; clear - H; inversion H; subst;
      repeat match goal with
      | H : report _ ?t _ = _ |- _ => destruct t as [[|] []]; discriminate H
      | H : x_contents _ _ _ _ _ _ _ _ |- _ => destruct H as [(_ & _ & H)|[(t & o & _ & _ & H)|(t & o & _ & _ & _ & H)]]; try discriminate H; symmetry in H
      end.
  - assert (Q : (forall y ctx, x <> NFrameError y ctx) -> lenZ (message (ENetworkError x)) <= 400).
    { intros N. destruct x; try destruct H; try (exfalso; eapply N; reflexivity); cbn [display_parse_error display_network_error]; saying; slia. }
    destruct x as [| | | | |x ctx|]; try (specialize (Q ltac:(discriminate)); split; [intros _|]; lia). clear Q.
    split; [intros []|]. destruct H as [_ (nf & env & _ & _ & HE & HF)].
    destruct F as ((rest & F) & _). destruct (frames_fail_within _ _ _ _ _ HF) as (Br & Ob & H1 & H2).
    apply env_lists in HE as [HE _]. rewrite enc_bytes_len in H1, H2.
    cbn [display_parse_error].
    assert (W : texts_size (b_objects (sec_value b)) + 8 * len (b_network_data (sec_value b)) <= 8 * len data).
    { destruct F as (h' & m1 & Sh & b' & m2 & Sb & [= <- <-] & <-). apply (fp_section _ _ fp_body) in Sb.
      destruct Sh as (size & crc & cov & m & v & (m3 & D1 & D2 & _) & Hv & _). apply fp_i32 in D1. apply fp_u32 in D2. apply header_shrinks in Hv.
      assert (N : forall A (f : A -> Z) l, (forall a, 0 <= f a) -> 0 <= total f l) by (intros; now apply total_nonneg).
      set (y := sec_value b) in *.
      pose proof (texts_nonneg (b_levels y)). pose proof (texts_nonneg (b_packages y)). pose proof (texts_nonneg (b_names y)).
      pose proof (N _ (fun d => 1 + text_size (di_user d) + text_size (di_text d)) (b_debug_info y) ltac:(intros; unfold text_size; lia)).
      pose proof (N _ (fun t => 1 + text_size (tm_description t)) (b_tick_marks y) ltac:(intros; unfold text_size; lia)).
      pose proof (N _ (fun c => 1 + text_size (cx_class c)) (b_class_indices y) ltac:(intros; unfold text_size; lia)).
      pose proof (N _ (fun c => 1 + len (nc_properties c)) (b_net_cache y) ltac:(intros; cbn beta; lia)). cbn beta in *. lia. }
    pose proof (texts_nonneg (b_objects (sec_value b))).
    assert (D : forall u, within (8 * len (b_network_data (sec_value b))) u ->
      lenZ (debug_value (u_attribute u)) <= 1300 + 64 * (8 * len (b_network_data (sec_value b)))).
    { intros u [T K]. pose proof (attribute_text_len shown (u_attribute u) T). unfold debug_value. lia. }
    pose proof (network_len display_f32 debug_value (1300 + 64 * (8 * len (b_network_data (sec_value b)))) ctx x display_f32_len
      ltac:(lia) Br (fun u Hu => D u (H1 u Hu)) (fun f u Hf Hu => D u (H2 f u Hf Hu))) as K.
    rewrite Ob, HE in K. unfold lenZ in *. lia.
Qed.
End Files.
