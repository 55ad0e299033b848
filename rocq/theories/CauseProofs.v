(** * Proofs: the shape of errors *)

From Coq Require Import ZArith List Bool Lia ZifyBool.
From Verif Require Import Base F32 Text Crc NetTypes Errors Core Header Body BitReader ObjectIndex FrameDecoder Network Parser
  Display SpecReplay SpecDisplay.
Open Scope Z_scope.

(** every error of [m] satisfies [P] *)
Definition errs {A} (m : parser A) (P : parse_error -> Prop) : Prop :=
  forall s e s', m s = (Err e, s') -> P e.

Lemma errs_weaken {A} (m : parser A) (P Q : parse_error -> Prop) : (forall e, P e -> Q e) -> errs m P -> errs m Q.
Proof. intros H E s e s' M. eauto. Qed.

Lemma errs_bind {A C} (m : parser A) (k : A -> parser C) P : errs m P -> (forall x, errs (k x) P) -> errs (bind m k) P.
Proof.
  intros Hm Hk s e s'. unfold bind. destruct (m s) as [[a|x|p] t] eqn:E.
  - apply Hk.
  - intros [= <- <-]. eapply Hm; eauto.
  - discriminate.
Qed.

Lemma errs_ret {A} (x : A) P : errs (ret x) P.
Proof. intros s e s'. discriminate. Qed.
Lemma errs_fail {A} e (P : parse_error -> Prop) : P e -> errs (fail e : parser A) P.
Proof. intros H s x s' [= <- _]. exact H. Qed.
Lemma errs_panics {A} x P : errs (panics x : parser A) P.
Proof. intros s e s'. discriminate. Qed.
Lemma errs_fmap {A C} (f : A -> C) (m : parser A) P : errs m P -> errs (fmap f m) P.
Proof. intros H. apply errs_bind; auto. intros x. apply errs_ret. Qed.

Definition short (e : parse_error) : Prop := exists w h, e = EInsufficientData w h.
Lemma short_plain e : short e -> plain e.
Proof. intros (w & h & ->). exact Logic.I. Qed.

Lemma errs_take_data n : errs (take_data n) short.
Proof.
  intros s e s'. unfold take_data. destruct (split_at n (c_data s)) as [[a b]|].
  - destruct (fits_i32 _); discriminate.
  - intros [= <- _]. unfold short. eauto.
Qed.
Lemma errs_view_data n : errs (view_data n) short.
Proof.
  intros s e s'. unfold view_data. destruct (split_at n (c_data s)) as [[a b]|]; [discriminate|].
  intros [= <- _]. unfold short. eauto.
Qed.
Lemma errs_take n : errs (take n) short.
Proof. apply errs_take_data. Qed.

Lemma errs_section {A} part (m : parser A) P : errs m P ->
  errs (in_section part m) (fun e => exists at_ e', e = EParseError part at_ e' /\ P e').
Proof.
  intros H s e s'. unfold in_section, map_err. destruct (m s) as [[a|x|p] t] eqn:E; try discriminate.
  intros [= <- _]. exists (c_col t), x. split; eauto.
Qed.

(** ** Values *)

Lemma plain_take_data n : errs (take_data n) plain.
Proof. eapply errs_weaken; [exact short_plain|apply errs_take_data]. Qed.
Lemma plain_raw_i32 : errs raw_i32 plain.
Proof. apply errs_fmap, plain_take_data. Qed.
Lemma plain_raw_f32 : errs raw_f32 plain.
Proof. apply errs_fmap, plain_take_data. Qed.

Lemma plain_repeat {A} (f : parser A) (P : parse_error -> Prop) : errs f P -> forall n, errs (repeat_n n f) P.
Proof.
  intros H. induction n as [|n IH]; cbn [repeat_n]; [apply errs_ret|].
  apply errs_bind; [exact H|]. intros x. apply errs_bind; [exact IH|]. intros xs. apply errs_ret.
Qed.
Lemma errs_repeat_of {A} n (f : parser A) (P : parse_error -> Prop) : (forall e, plain e -> P e) -> errs f P -> errs (repeat_of n f) P.
Proof.
  intros HP H. unfold repeat_of. destruct (_ <? _); [apply errs_fail, HP; exact Logic.I|now apply plain_repeat].
Qed.
Lemma plain_list {A} (f : parser A) : errs f plain -> errs (Core.list_of f) plain.
Proof. intros H. apply errs_bind; [apply plain_raw_i32|]. intros n. now apply errs_repeat_of. Qed.

Lemma plain_str : errs parse_str plain.
Proof.
  apply errs_bind; [apply plain_raw_i32|]. intros n. apply errs_bind; [apply plain_take_data|]. intros d.
  destruct (decode_str d); [now apply errs_fail|apply errs_ret].
Qed.
Lemma plain_text : errs parse_text plain.
Proof.
  apply errs_bind; [apply plain_raw_i32|]. intros n. destruct (negb _); [now apply errs_fail|].
  destruct (n <? 0); (apply errs_bind; [apply plain_take_data|]; intros d; apply errs_ret).
Qed.

Ltac plain_tac := repeat first
  [ apply plain_list | apply plain_str | apply plain_text | apply plain_raw_i32 | apply plain_raw_f32
  | apply errs_ret | apply errs_bind; [|intros ?] ].

(** ** Header properties *)

Definition in_props (e : parse_error) : Prop :=
  plain e \/ exists size at' want have, e = EParseError size at' (EInsufficientData want have) /\
    In size ["property size"; "array property size"]%string.

Lemma props_plain {A} (m : parser A) : errs m plain -> errs m in_props.
Proof. apply errs_weaken. intros e. now left. Qed.

Lemma props_size part {A} (m : parser A) : In part ["property size"; "array property size"]%string -> errs m short ->
  errs (in_section part m) in_props.
Proof.
  intros Hp H. eapply errs_weaken; [|apply errs_section, H]. intros e (at_ & e' & -> & w & h & ->). right. eauto 6.
Qed.

Lemma props_rdict mode : forall fuel, errs (parse_rdict fuel mode) in_props.
Proof.
  induction fuel as [|fuel IH]; cbn [parse_rdict]; [apply errs_panics|].
  apply errs_bind; [apply props_plain, plain_str|]. intros key. destruct (str_eqb _ _); [apply errs_ret|].
  apply errs_bind; [apply props_plain, plain_str|]. intros kind.
  apply errs_bind.
  { apply props_size; [cbn; auto|]. apply errs_fmap, errs_take. }
  intros _. apply errs_bind; [apply props_plain, plain_take_data|]. intros _.
  apply errs_bind.
  2: { intros v. apply errs_bind; [apply IH|]. intros rest. apply errs_ret. }
  assert (PB : forall d, errs (fmap Some (bool_prop d)) in_props).
  { intros d. apply errs_fmap. destruct d; [apply errs_panics|apply errs_ret]. }
  destruct (str_eqb kind _); [destruct mode; (apply errs_bind; [apply props_plain, plain_take_data|exact PB])|].
  destruct (str_eqb kind _).
  { destruct mode.
    - apply errs_bind; [apply props_plain, plain_str|]. intros k. destruct (str_eqb k _).
      + apply errs_bind; [apply props_plain, plain_take_data|]. intros _. apply errs_ret.
      + apply errs_bind; [apply props_plain, plain_str|]. intros v. apply errs_ret.
    - apply errs_fmap, props_plain, plain_text. }
  destruct (str_eqb kind _).
  { apply errs_bind; [apply props_size; [cbn; auto|apply errs_fmap, errs_take]|]. intros size.
    apply errs_bind; [apply errs_repeat_of; [now left|apply IH]|]. intros rows. apply errs_ret. }
  destruct (str_eqb kind _); [apply errs_fmap, props_plain, plain_take_data|].
  destruct (str_eqb kind _); [apply errs_fmap, props_plain, plain_take_data|].
  destruct (str_eqb kind _); [apply errs_fmap, props_plain, plain_take_data|].
  destruct (str_eqb kind _); [apply errs_fmap, props_plain, plain_text|].
  destruct (str_eqb kind _); [apply errs_fmap, props_plain, plain_text|].
  destruct (str_eqb kind _).
  { apply errs_bind; [apply props_plain, plain_str|]. intros name. apply errs_bind; [apply IH|]. intros f. apply errs_ret. }
  apply errs_fail. left. exact Logic.I.
Qed.

(** ** Parts *)

Lemma part_plain {A} parts part (m : parser A) : In part parts -> errs m plain -> errs (in_section part m) (placed parts).
Proof.
  intros Hp H. eapply errs_weaken; [|apply errs_section, H]. intros e (at_ & e' & -> & Q).
  exists part, at_, e'. auto.
Qed.
Lemma part_i32 parts part : In part parts -> errs (take_i32 part) (placed parts).
Proof. intros H. apply part_plain; auto. apply plain_raw_i32. Qed.
Lemma part_u32 parts part : In part parts -> errs (take_u32 part) (placed parts).
Proof. intros H. apply part_plain; auto. apply errs_fmap, plain_take_data. Qed.

Lemma errs_header : errs parse_header (placed header_parts).
Proof.
  apply errs_bind; [apply part_i32; cbn; tauto|]. intros major.
  apply errs_bind; [apply part_i32; cbn; tauto|]. intros minor.
  apply errs_bind.
  { destruct (_ && _); [apply errs_fmap, part_i32; cbn; tauto|apply errs_ret]. }
  intros net. apply errs_bind; [apply part_plain; [cbn; tauto|apply plain_text]|]. intros gt.
  apply errs_bind; [|intros ps; apply errs_ret].
  eapply errs_weaken; [|apply errs_section with (P := in_props)].
  - intros e (at_ & e' & -> & Q). exists "header properties"%string, at_, e'. split; auto. split; [cbn; tauto|].
    destruct Q; auto.
  - intros s e s'. apply props_rdict.
Qed.

Lemma errs_body : errs parse_body (placed body_parts).
Proof.
  unfold parse_body, text_list, parse_keyframe, parse_debuginfo, parse_tickmarks, parse_classindex, parse_classcache.
  apply errs_bind; [apply part_plain; [cbn; tauto|plain_tac]|intros ?].
  apply errs_bind; [apply part_plain; [cbn; tauto|plain_tac]|intros ?].
  apply errs_bind; [apply part_i32; cbn; tauto|intros ?].
  apply errs_bind; [apply part_plain; [cbn; tauto|apply plain_take_data]|intros ?].
  do 7 (apply errs_bind; [apply part_plain; [cbn; tauto|plain_tac]|intros ?]).
  apply errs_ret.
Qed.

(** ** Whole files *)

Lemma placed_incl p q e : (forall x, In x p -> In x q) -> placed p e -> placed q e.
Proof. intros H (part & at_ & e' & E & Hp & Q). exists part, at_, e'. auto. Qed.

Lemma errs_crc {A} c data crc section (m : parser A) (P Q : parse_error -> Prop) : errs m P ->
  (forall e, P e -> Q e) -> (forall e, P e -> Q (ECorruptReplay section e)) ->
  (forall want have, want <> have -> Q (ECrcMismatch want have)) ->
  errs (crc_section c data crc section m) Q.
Proof.
  intros H H1 H2 H3 s e s'. unfold crc_section. destruct (m s) as [[a|x|p] t] eqn:E.
  - destruct c; try discriminate. destruct (Z.eqb_spec (calc_crcZ data) crc) as [->|N]; [discriminate|].
    intros [= <- _]. apply H3. congruence.
  - destruct c.
    + destruct (Z.eqb_spec (calc_crcZ data) crc) as [->|N]; cbn [negb].
      * intros [= <- _]. eauto.
      * intros [= <- _]. apply H3. congruence.
    + intros [= <- _]. eauto.
    + destruct (negb _); intros [= <- _]; eauto.
  - discriminate.
Qed.

Lemma errs_parse B ho c n : errs (parse_replay B ho c n) error_shape.
Proof.
  assert (F : forall {A} (m : parser A), errs m (placed frame_parts) -> errs m error_shape).
  { intros A m. apply errs_weaken. intros e He. left. eapply placed_incl; [|exact He].
    intros x Hx. apply in_or_app. auto. }
  unfold parse_replay.
  apply errs_bind; [apply F, part_i32; cbn; tauto|intros ?].
  apply errs_bind; [apply F, part_u32; cbn; tauto|intros ?].
  apply errs_bind; [apply F, part_plain; [cbn; tauto|]|intros ?].
  { eapply errs_weaken; [exact short_plain|apply errs_view_data]. }
  apply errs_bind; [|intros ?].
  { eapply errs_crc; [apply errs_header|..].
    - intros e He. left. eapply placed_incl; [|exact He]. intros part Hpart. apply in_or_app. right. apply in_or_app. auto.
    - intros e He. right. left. eauto.
    - intros w h N. right. right. right. left. eauto. }
  apply errs_bind; [apply F, part_i32; cbn; tauto|intros ?].
  apply errs_bind; [apply F, part_u32; cbn; tauto|intros ?].
  apply errs_bind; [apply F, part_plain; [cbn; tauto|]|intros ?].
  { eapply errs_weaken; [exact short_plain|apply errs_view_data]. }
  apply errs_bind; [|intros ?].
  { eapply errs_crc; [apply errs_body|..].
    - intros e He. left. eapply placed_incl; [|exact He]. intros part Hpart. apply in_or_app. right. apply in_or_app. auto.
    - intros e He. right. right. left. eauto.
    - intros w h N. right. right. right. left. eauto. }
  apply errs_bind; [|intros ?; apply errs_ret].
  intros s e s'. unfold parse_network. destruct n; [destruct (network_parse_frames _ _ _ _)| |destruct (network_parse_frames _ _ _ _)];
    try discriminate.
  intros [= <- _]. do 4 right. eauto.
Qed.

Lemma parse_shape B ho c n data e : parse_with B ho c n data = Err e -> error_shape e.
Proof.
  unfold parse_with, builder_parse. cbn [pb_crc_check pb_network_parse pb_data with_network_parse with_crc_check builder_new].
  destruct (parse_replay B ho c n (core_new data)) as [o s] eqn:E. cbn [fst]. intros ->. eapply errs_parse; eauto.
Qed.

(** ** Causes *)

Lemma causes_plain e : plain e -> exists l, causes (AnyParse e) l /\ (length l <= 2)%nat.
Proof.
  destruct e; intros []; try (eexists; split; [apply causes_root; reflexivity|cbn; lia]).
  eexists. split; [eapply causes_more; [reflexivity|apply causes_root; reflexivity]|cbn; lia].
Qed.

Lemma causes_step e e' l k : source e = Some e' -> causes e' l -> (length l <= k)%nat ->
  exists l', causes e l' /\ (length l' <= S k)%nat.
Proof. intros H C L. exists (e :: l). split; [eapply causes_more; eauto|cbn [length]; lia]. Qed.

Lemma causes_placed parts e : placed parts e -> exists l, causes (AnyParse e) l /\ (length l <= 3)%nat.
Proof.
  intros (part & at_ & e' & -> & _ & [P|(_ & size & at' & w & h & -> & _)]).
  - apply causes_plain in P as (l & C & L). eapply causes_step; eauto. reflexivity.
  - eexists. split; [eapply causes_more; [reflexivity|eapply causes_more; [reflexivity|apply causes_root; reflexivity]]|].
    cbn; lia.
Qed.

Lemma shape_causes e : error_shape e -> exists l, causes (AnyParse e) l /\ (length l <= 4)%nat.
Proof.
  intros [H|[(e' & -> & H)|[(e' & -> & H)|[(w & h & -> & _)|(x & ->)]]]].
  - apply causes_placed in H as (l & C & L). exists l. split; auto.
  - apply causes_placed in H as (l & C & L). eapply causes_step; eauto. reflexivity.
  - apply causes_placed in H as (l & C & L). eapply causes_step; eauto. reflexivity.
  - eexists. split; [apply causes_root; reflexivity|cbn; lia].
  - assert (N : exists l, causes (AnyNetwork x) l /\ (length l <= 3)%nat).
    { destruct x as [| | | | |x c|]; try (eexists; split; [apply causes_root; reflexivity|cbn; lia]).
      destruct x;
        try (eexists; split; [eapply causes_more; [reflexivity|apply causes_root; reflexivity]|cbn; lia]).
      eexists; split; [eapply causes_more; [reflexivity|eapply causes_more; [reflexivity|apply causes_root; reflexivity]]|cbn; lia]. }
    destruct N as (l & C & L). eapply causes_step; eauto. reflexivity.
Qed.

Lemma parse_causes B ho c n data e : parse_with B ho c n data = Err e ->
  exists l, causes (AnyParse e) l /\ (length l <= 4)%nat.
Proof. intros H. eapply shape_causes, parse_shape; eauto. Qed.
