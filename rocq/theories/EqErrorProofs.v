(** * Proofs: comparison of errors *)

From Coq Require Import ZArith List Bool Lia String.
From Verif Require Import Base F32 Text NetTypes SegArray Errors Header Body BitReader ObjectIndex FrameDecoder Network Parser Wire EqNet EqErrors
  SpecBasic SpecNet SpecFrames SpecRange SpecErrors SpecDisplay SpecFile SpecReplay SpecFacts SpecJson SpecEq SpecBlank SpecEqReplay SpecEqErrors
  BasicProofs MapProofs NetworkProofs ParseProofs RangeProofs FloatBits EqLogic EqNetProofs EqReplayProofs CauseProofs DisplayFacts ErrorFacts ErrorProofs HierarchyProofs TableProofs CacheProofs TableFacts FrameFacts SpecCrc FileProofs FileFacts DisplayProofs WidthNet.
Open Scope Z_scope.

(** ** Maps and tables *)

Lemma map_exact {A} (e : A -> A -> bool) v w : exact e -> sorted v -> sorted w -> (eq_map e v w = true <-> v = w).
Proof.
  intros He Sv Sw. unfold eq_map. rewrite andb_true_iff, Z.eqb_eq, forallb_forall. unfold lenZ.
  pose proof (sorted_nodup v Sv) as Nv. pose proof (sorted_nodup w Sw) as Nw. split.
  - intros [L H]. apply Nat2Z.inj in L.
    assert (I : incl v w).
    { intros [k a] Hin. specialize (H _ Hin). cbn [fst snd] in H. destruct (map_get k w) as [b|] eqn:G; [|discriminate].
      apply (exact_iff _ He) in H. subst b. now apply map_get_in. }
    assert (J : incl w v) by (apply NoDup_length_incl; [eapply NoDup_map_inv; exact Nv|lia|exact I]).
    apply sorted_ext; auto. intros k. destruct (map_get k v) as [a|] eqn:G.
    + symmetry. apply map_get_in; auto. apply I. now apply map_get_in.
    + symmetry. apply map_get_none. intros Hin. apply map_get_none in G. apply G.
      apply in_map_iff in Hin as ([k' a] & E & Hin). cbn [fst] in E. subst k'. apply J in Hin. apply (in_map fst) in Hin. exact Hin.
  - intros <-. split; [reflexivity|]. intros [k a] Hin. cbn [fst snd]. apply map_get_in in Hin; auto. rewrite Hin. now apply (exact_iff _ He).
Qed.

Lemma vec_exact_on {A} (e : A -> A -> bool) (P : A -> Prop) : (forall a b, P a -> P b -> (e a b = true <-> a = b)) ->
  forall l m, Forall P l -> Forall P m -> (eq_vec e l m = true <-> l = m).
Proof.
  intros H. induction l as [|a l IH]; intros [|b m] Hl Hm; cbn [eq_vec]; try (split; congruence).
  inversion Hl; inversion Hm; subst. rewrite andb_true_iff, H, IH by assumption. split; [intros [-> ->]; reflexivity|intros [= -> ->]; auto].
Qed.

Lemma eqs_tag : exact attribute_tag_beq.
Proof. apply eqs_exact. intros a b. split; [destruct a, b; first [discriminate|reflexivity]|intros <-; destruct a; reflexivity]. Qed.
Lemma eqs_object_attribute : exact eq_object_attribute.
Proof.
  apply eqs_exact. intros [a x] [b y]. unfold eq_object_attribute. cbn [oa_attribute oa_object_id].
  rewrite andb_true_iff, (exact_iff _ eqs_tag), Z.eqb_eq. split; [intros [-> ->]; reflexivity|intros [= -> ->]; auto].
Qed.

Definition cache_sorted (o : option cache_info) : Prop :=
  match o with Some ci => sorted (sg_map (ci_attributes ci)) | None => True end.
Lemma cache_exact v w : cache_sorted v -> cache_sorted w -> (eq_opt eq_cache_info v w = true <-> v = w).
Proof.
  destruct v as [[m b [a t]]|], w as [[m' b' [a' t']]|]; cbn [eq_opt cache_sorted ci_attributes sg_map]; try (split; congruence).
  intros Sv Sw. unfold eq_cache_info, eq_seg_array. cbn [ci_max_prop_id ci_prop_id_bits ci_attributes sg_array sg_map].
  rewrite !andb_true_iff, !Z.eqb_eq, (map_exact _ _ _ eqs_object_attribute Sv Sw).
  rewrite (exact_iff _ (eqs_vec_exact _ (eqs_opt_exact _ eqs_object_attribute))).
  split; [intros [[-> ->] [-> ->]]; reflexivity|intros [= -> -> -> ->]; auto].
Qed.

(** ** Errors without floats *)

Lemma eqs_string : exact String.eqb.
Proof. apply eqs_exact, String.eqb_eq. Qed.
Lemma eqs_utf8 : exact eq_utf8_error.
Proof.
  apply eqs_exact. intros [a x] [b y]. unfold eq_utf8_error. cbn [fst snd].
  rewrite andb_true_iff, Z.eqb_eq, (exact_iff _ (eqs_opt_exact _ eqs_Z)). split; [intros [-> ->]; reflexivity|intros [= -> ->]; auto].
Qed.
#[local] Hint Resolve eqs_string eqs_utf8 eqs_new_actor : eqs.
Lemma eqs_attribute_error : exact eq_attribute_error.
Proof. apply eqs_exact; intros a b; destruct a, b; cbn [eq_attribute_error]; try (split; discriminate); try tauto; exact_solve. Qed.
#[local] Hint Resolve eqs_attribute_error : eqs.

(** ** Errors *)

Lemma eqs_frame_error : eqs eq_frame_error blank_frame_error frame_error_floats.
Proof.
  intros a b. split; [destruct a, b; cbn; congruence|]. unfold bits.
  destruct a, b; cbn [eq_frame_error blank_frame_error frame_error_floats];
    try (intros _ _; split; [discriminate|intros [? _]; discriminate]);
    try (intros _ _; exact_fields; split; [intros; eqs_conj; subst; auto|intros [[=] _]; subst; auto]; fail).
  - intros Ha Hb. inversion Ha; inversion Hb; subst. rewrite f32_same by assumption.
    split; [auto|intros [_ F]; now inversion F].
  - intros Ha Hb. inversion Ha; inversion Hb; subst. rewrite f32_same by assumption.
    split; [auto|intros [_ F]; now inversion F].
Qed.

Definition context_sorted (c : frame_context) : Prop := sorted (fc_actors c) /\ Forall cache_sorted (fc_object_attributes c).
Fixpoint error_sorted (e : parse_error) : Prop :=
  match e with
  | EParseError _ _ x | ECorruptReplay _ x => error_sorted x
  | ENetworkError (NFrameError _ c) => context_sorted c
  | _ => True
  end.

Lemma context_exact c d : context_sorted c -> context_sorted d ->
  (blank_context c = blank_context d -> List.length (context_floats c) = List.length (context_floats d)) /\
  (Forall is_u32 (context_floats c) -> Forall is_u32 (context_floats d) ->
   (eq_frame_context c d = true <-> blank_context c = blank_context d /\ Forall2 same_value (context_floats c) (context_floats d))).
Proof.
  destruct c as [o t f a n u], d as [o' t' f' a' n' u']. unfold context_sorted, context_floats, eq_frame_context, blank_context.
  cbn [fc_objects fc_object_attributes fc_frames fc_actors fc_new_actors fc_updated_actors]. intros [Sa St] [Sa' St'].
  destruct (eqs_vec _ _ _ eqs_frame f f') as [Lf Ef]. destruct (eqs_vec _ _ _ eqs_updated_attribute u u') as [Lu Eu].
  unfold bits, vec_floats in *. split.
  - intros [= -> -> Ff -> -> Fu]. rewrite !app_length, Lf, Lu by assumption. reflexivity.
  - rewrite !Forall_app. intros [Hf Hu] [Hf' Hu'].
    rewrite !andb_true_iff, (vec_exact_on _ _ cache_exact _ _ St St'), (map_exact _ _ _ eqs_Z Sa Sa'), Ef, Eu by assumption.
    rewrite (exact_iff _ (eqs_vec_exact _ eqs_str)), (exact_iff _ (eqs_vec_exact _ eqs_new_actor)). split.
    + intros (((((-> & ->) & [Ff Vf]) & ->) & ->) & [Fu Vu]). rewrite Ff, Fu. split; [reflexivity|now apply Forall2_app].
    + intros [[= -> -> Ff -> -> Fu] V]. apply Forall2_split in V as [Vf Vu]; auto 12.
Qed.

Theorem error_exact e : forall f, error_sorted e -> error_sorted f ->
  Forall is_u32 (error_floats e) -> Forall is_u32 (error_floats f) -> (eq_parse_error e f = true <-> equal_error e f).
Proof.
  unfold equal_error. induction e as [s n e IH|u|n|n m|k|n m|s e IH|n|x]; intros f Se Sf He Hf.
  - destruct f as [s' n' f|?|?|? ?|?|? ?|? ?|?|[]]; cbn [eq_parse_error blank_error error_floats error_sorted] in *;
      try (split; [discriminate|intros [? _]; discriminate]).
    rewrite !andb_true_iff, IH by assumption. exact_fields. split.
    + intros [[-> ->] [-> V]]. auto.
    + intros [[= -> -> E] V]. auto.
  - destruct f as [? ? ?|?|?|? ?|?|? ?|? ?|?|[]]; cbn [eq_parse_error blank_error error_floats];
      try (split; [discriminate|intros [? _]; discriminate]). exact_fields. split; [intros ->; auto|intros [[= ->] _]; auto].
  - destruct f as [? ? ?|?|?|? ?|?|? ?|? ?|?|[]]; cbn [eq_parse_error blank_error error_floats];
      try (split; [discriminate|intros [? _]; discriminate]). exact_fields. split; [intros ->; auto|intros [[= ->] _]; auto].
  - destruct f as [? ? ?|?|?|? ?|?|? ?|? ?|?|[]]; cbn [eq_parse_error blank_error error_floats];
      try (split; [discriminate|intros [? _]; discriminate]). exact_fields. split; [intros [-> ->]; auto|intros [[= -> ->] _]; auto].
  - destruct f as [? ? ?|?|?|? ?|?|? ?|? ?|?|[]]; cbn [eq_parse_error blank_error error_floats];
      try (split; [discriminate|intros [? _]; discriminate]). exact_fields. split; [intros ->; auto|intros [[= ->] _]; auto].
  - destruct f as [? ? ?|?|?|? ?|?|? ?|? ?|?|[]]; cbn [eq_parse_error blank_error error_floats];
      try (split; [discriminate|intros [? _]; discriminate]). exact_fields. split; [intros [-> ->]; auto|intros [[= -> ->] _]; auto].
  - destruct f as [? ? ?|?|?|? ?|?|? ?|s' f|?|[]]; cbn [eq_parse_error blank_error error_floats error_sorted] in *;
      try (split; [discriminate|intros [? _]; discriminate]).
    rewrite !andb_true_iff, IH by assumption. exact_fields. split.
    + intros [-> [-> V]]. auto.
    + intros [[= -> E] V]. auto.
  - destruct f as [? ? ?|?|?|? ?|?|? ?|? ?|?|[]]; cbn [eq_parse_error blank_error error_floats];
      try (split; [discriminate|intros [? _]; discriminate]). exact_fields. split; [intros ->; auto|intros [[= ->] _]; auto].
  - destruct f as [? ? ?|?|?|? ?|?|? ?|? ?|?|y]; try (destruct x; cbn [eq_parse_error blank_error]; (split; [discriminate|intros [? _]; discriminate])).
    destruct x, y; cbn [eq_parse_error eq_network_error blank_error error_floats error_sorted] in *;
      try (split; [discriminate|intros [? _]; discriminate]);
      try (exact_fields; split; [intros; eqs_conj; subst; auto|intros [[=] _]; subst; auto]; fail).
    apply Forall_app in He as [He Hc], Hf as [Hf Hd].
    destruct (context_exact ctx ctx0 Se Sf) as [L C]. destruct (eqs_frame_error e e0) as [L0 X].
    rewrite andb_true_iff, (X He Hf), (C Hc Hd). split.
    + intros [[E V] [E' V']]. rewrite E, E'. split; [reflexivity|now apply Forall2_app].
    + intros [H V]. assert (E : blank_frame_error e = blank_frame_error e0 /\ blank_context ctx = blank_context ctx0) by (split; congruence).
      destruct E as [E E']. apply Forall2_split in V as [V V']; [auto|apply L0, E].
Qed.

Lemma error_sym e f : equal_error e f -> equal_error f e.
Proof.
  intros [E F]. split; [auto|]. eapply Forall2_sym; [|exact F]. apply Forall_forall. intros x _ y. apply same_value_sym.
Qed.
Lemma error_trans e f g : equal_error e f -> equal_error f g -> equal_error e g.
Proof.
  intros [E F] [E' F']. split; [congruence|]. eapply Forall2_trans; [|exact F|exact F']. apply Forall_forall. intros x _ y z. apply same_value_trans.
Qed.
Lemma error_self e : equal_error e e <-> Forall numeric (error_floats e).
Proof.
  unfold equal_error. rewrite Forall2_diag. split.
  - intros [_ H]. eapply Forall_impl; [|exact H]. intros x. apply same_value_refl.
  - intros H. split; [reflexivity|]. eapply Forall_impl; [|exact H]. intros x. apply same_value_refl.
Qed.

(** ** Errors of the parser *)

Lemma info_sorted ho attrs : cache_sorted (Some (cache_info_of ho attrs)).
Proof.
  unfold cache_info_of. cbn [cache_sorted ci_attributes]. generalize (ho _ attrs). intros l.
  assert (G : forall a : seg_array object_attribute, seg_sorted a -> seg_sorted (fold_left (fun a kv => seg_insert (fst kv) (snd kv) a) l a)).
  { induction l as [|[k v] l IH]; intros a S; [exact S|]. cbn [fold_left]. apply IH. unfold seg_insert. now apply raw_insert_sorted. }
  apply G. exact Logic.I.
Qed.
Lemma store_sorted ho : forall l v w, store_caches ho l v = Ok w -> Forall cache_sorted v -> Forall cache_sorted w.
Proof.
  induction l as [|[k a] l IH]; intros v w; cbn [store_caches]; [intros [= ->]; auto|].
  destruct (setZ _ _ v) as [v'|] eqn:E; cbn [must obind]; [|discriminate]. intros H F. eapply IH; [exact H|].
  eapply setZ_forall; [apply info_sorted|exact F|exact E].
Qed.
Lemma caches_sorted ho ix objs nc w : compute_caches ho ix objs nc = Ok w -> Forall cache_sorted w.
Proof.
  unfold compute_caches. destruct (build_net_properties _ _ _); cbn [obind]; try discriminate.
  destruct (traverse_all _ _ _ _); cbn [obind]; try discriminate. intros H. eapply store_sorted; [exact H|].
  apply Forall_forall. intros x Hx. apply repeat_spec in Hx. now subst.
Qed.
Lemma loop_actors B ho F fuel : forall n acc s x ctx, frames_loop B ho F fuel n acc s = Err (NFrameError x ctx) -> sorted (fc_actors ctx).
Proof.
  induction n as [|n IH]; intros acc s x ctx; cbn [frames_loop]; [discriminate|].
  destruct (is_empty (fs_r s)); [discriminate|].
  destruct (decode_frame B F fuel s) as [[[f|]|y|p] s']; try discriminate; [apply IH|]. intros [= _ <-].
  unfold frame_context_of. cbn [fc_actors]. apply sorted_extend. exact Logic.I.
Qed.
Lemma network_sorted B ho h b x ctx : hash_order_ok ho -> net_ready h b ->
  network_parse_frames B ho h b = Err (NFrameError x ctx) -> context_sorted ctx.
Proof.
  intros Hho R E. split; [|eapply caches_sorted, network_context; eassumption].
  destruct R as [L _ CI _]. revert E. unfold network_parse_frames.
  destruct (compute_spawns_ok (b_objects b) L) as (v & -> & _). cbn [obind].
  destruct (compute_caches_ok (b_objects b) L (b_net_cache b) ho Hho CI) as [[_ (cs & -> & _)]|(y & _ & ->)]; cbn [obind]; [|discriminate].
  destruct (num_frames h) as [n|]; [|discriminate]. destruct (_ <? _); [discriminate|]. apply loop_actors.
Qed.

Section Floats.
Variable e : net_env.
Lemma before_updates id cls i us j : many_before (good_update e id cls) i us j -> Forall is_u32 (flat_map floats_updated_attribute us).
Proof.
  induction 1 as [|i u m us j [_ H] _ IH]; [constructor|]. cbn [flat_map]. apply Forall_app. split; [|exact IH].
  apply g_update in H. destruct u. destruct H as (_ & bound & p & name & tag & _ & _ & _ & _ & _ & _ & Ha). eapply bits_attribute; exact Ha.
Qed.
Lemma before_records h i rs j : records_before e h i rs j -> records_range e h rs.
Proof. induction 1 as [|h i r m rs j _ H _ IH]; cbn [records_range]; [exact Logic.I|]. apply g_record in H. split; assumption. Qed.
Lemma before_frames h i xs h' j : frames_before e h i xs h' j -> frames_range e h xs.
Proof.
  induction 1 as [|h i t d rs m xs h' j (i1 & i2 & (Ht & _) & (Hd & _) & T1 & T2 & T3 & H) _ IH]; cbn [frames_range]; [exact Logic.I|].
  apply g_records in H. auto 9.
Qed.
Lemma record_fails_bits h i us x : record_fails e h i us x -> Forall is_u32 (flat_map floats_updated_attribute us) /\ frame_error_floats x = [].
Proof.
  intros H. destruct H as [| |? ? ? ? ? N| | |? ? ? ? ? ? ? ? ? ? ? ? N]; try (split; [constructor|reflexivity]).
  - split; [constructor|]. destruct N; reflexivity.
  - split; [eapply before_updates; eassumption|reflexivity].
  - split; [eapply before_updates; eassumption|]. destruct N; reflexivity.
Qed.
Lemma records_bits h rs : records_range e h rs -> Forall is_u32 (flat_map floats_updated_attribute (flat_map updated_of rs)).
Proof.
  intros H. apply bits_records in H. rewrite flat_map_flat. erewrite flat_map_ext; [exact H|]. intros [?|?|? ?]; reflexivity.
Qed.
Lemma frames_fail_bits n i x ctx : frames_fail e n i x ctx -> Forall is_u32 (frame_error_floats x ++ context_floats ctx).
Proof.
  intros (xs & h & j & rs & us & Hb & _ & _ & Hf & _ & E1 & _ & E2 & _). unfold context_floats. rewrite E1, E2.
  apply before_frames, bits_frames in Hb. rewrite !Forall_app, flat_map_app, Forall_app. split; [|split; [exact Hb|]].
  - destruct Hf; try constructor; try (apply record_fails_bits in H5 as [_ ->]; constructor).
    + destruct H as [Hr _]. exact Hr.
    + constructor.
    + destruct H1 as [Hr _]. exact Hr.
    + constructor.
  - destruct Hf; try (split; constructor).
    + split; [eapply records_bits, before_records; eassumption|constructor].
    + split; [eapply records_bits, before_records; eassumption|]. eapply record_fails_bits; eassumption.
Qed.
End Floats.

Lemma placed_floats parts e : placed parts e -> error_sorted e /\ error_floats e = [].
Proof.
  intros (part & at_ & e' & -> & _ & [P|(_ & size & at' & want & have & -> & _)]); cbn [error_sorted error_floats]; [|auto].
  destruct e'; try contradiction; cbn; auto.
Qed.

Theorem parsed_error_fine B (HB : bitter_ok B) ho (Hho : hash_order_ok ho) c n data e : lenZ data < 2 ^ 31 ->
  parse_with B ho c n data = Err e -> error_sorted e /\ Forall is_u32 (error_floats e).
Proof.
  intros L E. destruct (parse_shape _ _ _ _ _ _ E) as [P|[(e' & -> & P)|[(e' & -> & P)|[(want & have & -> & _)|(x & ->)]]]].
  - apply placed_floats in P as [S ->]. auto.
  - apply placed_floats in P. cbn [error_sorted error_floats]. destruct P as [S ->]. auto.
  - apply placed_floats in P. cbn [error_sorted error_floats]. destruct P as [S ->]. auto.
  - cbn. auto.
  - destruct x as [| | | | |x ctx|]; try (split; [exact Logic.I|constructor]). cbn [error_sorted error_floats]. split.
    + destruct (net_policies B HB ho Hho data c L) as [(e & Ne & He)|(r & _ & Hr & [(fs & Hf)|(e & H1 & H2)])].
      * rewrite He in E. injection E as ->. exfalso. apply Ne. eexists. reflexivity.
      * destruct n; [rewrite Hf in E by discriminate|rewrite Hr in E|rewrite Hf in E by discriminate]; discriminate.
      * destruct n; [|congruence|congruence]. rewrite H2 in E. injection E as ->.
        destruct (parse_ok_file B ho _ _ _ _ L Hr) as (h & b & rest & F & Er).
        rewrite (fate_file B ho _ _ _ _ L F) in H2.
        destruct (mismatch c (sec_crc h) (sec_bytes h)); [discriminate|].
        destruct (mismatch c (sec_crc b) (sec_bytes b)); [discriminate|].
        destruct (network_parse_frames B ho (sec_value h) (sec_value b)) as [fs|e|p] eqn:En; cbn [net_result out_map] in H2; try discriminate.
        injection H2 as ->. apply file_ready in F as R. eapply network_sorted; eassumption.
    + destruct (parse_err B HB ho Hho c n data _ L E) as (_ & h & b & rest & _ & _ & m & env & _ & _ & _ & FF).
      eapply frames_fail_bits; exact FF.
Qed.

Section Parsed.
Variable B : bitter.
Hypothesis HB : bitter_ok B.
Variable ho : forall V, amap V -> amap V.
Hypothesis Hho : hash_order_ok ho.

Lemma parsed_equal c n data e c' n' data' f : lenZ data < 2 ^ 31 -> lenZ data' < 2 ^ 31 ->
  parse_with B ho c n data = Err e -> parse_with B ho c' n' data' = Err f -> (eq_parse_error e f = true <-> equal_error e f).
Proof.
  intros L L' E E'. apply (parsed_error_fine B HB ho Hho _ _ _ _ L) in E as [S F]. apply (parsed_error_fine B HB ho Hho _ _ _ _ L') in E' as [S' F'].
  now apply error_exact.
Qed.
Lemma parsed_itself c n data e : lenZ data < 2 ^ 31 ->
  parse_with B ho c n data = Err e -> (eq_parse_error e e = true <-> Forall numeric (error_floats e)).
Proof. intros L E. rewrite (parsed_equal _ _ _ _ _ _ _ _ L L E E). apply error_self. Qed.
Lemma parsed_sym c n data e c' n' data' f : lenZ data < 2 ^ 31 -> lenZ data' < 2 ^ 31 ->
  parse_with B ho c n data = Err e -> parse_with B ho c' n' data' = Err f -> eq_parse_error e f = eq_parse_error f e.
Proof.
  intros L L' E E'. apply eq_true_iff_eq. rewrite (parsed_equal _ _ _ _ _ _ _ _ L L' E E'), (parsed_equal _ _ _ _ _ _ _ _ L' L E' E).
  split; apply error_sym.
Qed.
Lemma parsed_trans c n data e c' n' data' f c'' n'' data'' g :
  lenZ data < 2 ^ 31 -> lenZ data' < 2 ^ 31 -> lenZ data'' < 2 ^ 31 ->
  parse_with B ho c n data = Err e -> parse_with B ho c' n' data' = Err f -> parse_with B ho c'' n'' data'' = Err g ->
  eq_parse_error e f = true -> eq_parse_error f g = true -> eq_parse_error e g = true.
Proof.
  intros L L' L'' E E' E''. rewrite (parsed_equal _ _ _ _ _ _ _ _ L L' E E'), (parsed_equal _ _ _ _ _ _ _ _ L' L'' E' E''),
    (parsed_equal _ _ _ _ _ _ _ _ L L'' E E''). apply error_trans.
Qed.
(** outside the network stream, equal errors are the same *)
Lemma parsed_same c n data e c' n' data' f : lenZ data < 2 ^ 31 -> lenZ data' < 2 ^ 31 ->
  parse_with B ho c n data = Err e -> parse_with B ho c' n' data' = Err f -> (forall x ctx, e <> ENetworkError (NFrameError x ctx)) ->
  (eq_parse_error e f = true <-> e = f).
Proof.
  intros L L' E E' N. rewrite (parsed_equal _ _ _ _ _ _ _ _ L L' E E'). unfold equal_error.
  assert (G : forall e c n data, parse_with B ho c n data = Err e -> (exists x ctx, e = ENetworkError (NFrameError x ctx)) \/ (blank_error e = e /\ error_floats e = [])).
  { clear. intros e c n data E.
    assert (P : forall parts e, placed parts e -> blank_error e = e).
    { clear. intros parts e (part & at_ & e' & -> & _ & [P|(_ & size & at' & want & have & -> & _)]); [|reflexivity].
      destruct e'; try contradiction; reflexivity. }
    destruct (parse_shape _ _ _ _ _ _ E) as [Q|[(e' & -> & Q)|[(e' & -> & Q)|[(want & have & -> & _)|(x & ->)]]]]; cbn [blank_error error_floats].
    - right. split; [eapply P; exact Q|now apply placed_floats in Q].
    - right. split; [f_equal; eapply P; exact Q|now apply placed_floats in Q].
    - right. split; [f_equal; eapply P; exact Q|now apply placed_floats in Q].
    - auto.
    - destruct x; auto. left. eauto. }
  destruct (G _ _ _ _ E) as [(x & ctx & ->)|[Be Fe]]; [exfalso; eapply N; reflexivity|]. rewrite Be, Fe.
  destruct (G _ _ _ _ E') as [(x & ctx & ->)|[Bf Ff]].
  - split; [|intros ->; exfalso; eapply N; reflexivity]. intros [-> _]. exfalso. eapply N. cbn [blank_error]. reflexivity.
  - rewrite Bf, Ff. split; [tauto|auto].
Qed.
End Parsed.
