(** * Errors other than missing data do not depend on what follows *)

From Coq Require Import ZArith List Bool Lia ZifyBool ZifyNat.
From Verif Require Import Base Text F32 Crc NetTypes Errors Core Header Body BitReader ObjectIndex
  FrameDecoder Network Parser AppendProofs SpecExamples.
Open Scope Z_scope.

(** [m'] fails on longer input as [m] does, unless data is missing. *)
Definition steady {A} (m m' : parser A) : Prop := extends m m' /\
  forall s e s' x, m s = (Err e, s') -> ~ short e -> m' (more x s) = (Err e, more x s').

Lemma st_ret {A} (a : A) : steady (ret a) (ret a).
Proof. split; [apply ext_ret|]. discriminate. Qed.
Lemma st_fail {A} e : steady (fail e : parser A) (fail e).
Proof. split; [apply ext_fail|]. intros s e' s' x [= -> ->] _. reflexivity. Qed.
Lemma st_panics {A} p m : steady (panics p : parser A) m.
Proof. split; [apply ext_panics|]. discriminate. Qed.
Lemma st_bind {A C} m m' (k k' : A -> parser C) :
  steady m m' -> (forall a, steady (k a) (k' a)) -> steady (bind m k) (bind m' k').
Proof.
  intros [Hm Sm] Hk. split; [apply ext_bind; auto; apply Hk|]. intros s e s' x E N. unfold bind in *.
  destruct (m s) as [[a|e1|p] s1] eqn:Em; try discriminate E.
  - rewrite (Hm _ _ _ x Em). now apply Hk.
  - injection E as -> ->. now rewrite (Sm _ _ _ x Em N).
Qed.
Lemma st_fmap {A C} (f : A -> C) m m' : steady m m' -> steady (fmap f m) (fmap f m').
Proof. intros H. apply st_bind; auto. intros. apply st_ret. Qed.
Lemma st_section {A} n (m m' : parser A) : steady m m' -> steady (in_section n m) (in_section n m').
Proof.
  intros [H S]. split; [now apply ext_section|]. intros s e s' x E N. unfold in_section, map_err in *.
  destruct (m s) as [[a|e1|p] s1] eqn:Em; try discriminate E. injection E as <- <-.
  rewrite (S _ _ _ x Em); [reflexivity|]. intros Q. now apply N, short_section.
Qed.
Lemma st_view n : steady (view_data n) (view_data n).
Proof.
  split; [apply ext_view|]. intros s e s' x. unfold view_data. destruct (split_at n (c_data s)) as [[h t]|]; [discriminate|].
  intros [= <- <-] N. destruct N. constructor.
Qed.
Lemma st_take n : steady (take_data n) (take_data n).
Proof.
  split; [apply ext_take|]. intros s e s' x. unfold take_data. destruct (split_at n (c_data s)) as [[h t]|].
  - destruct (fits_i32 _); discriminate.
  - intros [= <- <-] N. destruct N. constructor.
Qed.
#[local] Hint Resolve st_ret st_fail st_panics st_view st_take : st.

Lemma st_repeat {A} n (m m' : parser A) : steady m m' -> steady (repeat_n n m) (repeat_n n m').
Proof.
  intros H. induction n as [|n IH]; cbn [repeat_n]; [apply st_ret|].
  apply st_bind; auto. intros. apply st_bind; auto with st.
Qed.
Lemma st_repeat_of {A} n (m m' : parser A) : steady m m' -> steady (repeat_of n m) (repeat_of n m').
Proof. intros H. unfold repeat_of. destruct (25000 <? n); [apply st_fail|]. now apply st_repeat. Qed.
Lemma st_raw_i32 : steady raw_i32 raw_i32.
Proof. apply st_fmap, st_take. Qed.
Lemma st_raw_f32 : steady raw_f32 raw_f32.
Proof. apply st_fmap, st_take. Qed.
Lemma st_i32 n : steady (take_i32 n) (take_i32 n).
Proof. apply st_section, st_raw_i32. Qed.
Lemma st_u32 n : steady (take_u32 n) (take_u32 n).
Proof. apply st_section, st_fmap, st_take. Qed.
Lemma st_list {A} (m m' : parser A) : steady m m' -> steady (list_of m) (list_of m').
Proof. intros H. apply st_bind; [apply st_raw_i32|]. intros. now apply st_repeat_of. Qed.
Lemma st_str : steady parse_str parse_str.
Proof.
  apply st_bind; [apply st_raw_i32|]. intros n. apply st_bind; auto with st. intros d.
  destruct (decode_str d); auto with st.
Qed.
Lemma st_text : steady parse_text parse_text.
Proof.
  apply st_bind; [apply st_raw_i32|]. intros n. destruct (negb _); auto with st.
  destruct (n <? 0); apply st_bind; auto with st.
Qed.
#[local] Hint Resolve st_raw_i32 st_raw_f32 st_i32 st_u32 st_str st_text : st.

Ltac st_tac :=
  repeat first
    [ progress auto with st
    | apply st_bind; [|intros ?]
    | apply st_fmap | apply st_section | apply st_list | apply st_repeat_of
    | match goal with |- steady (if ?b then _ else _) _ => destruct b end ].

Lemma st_rdict mode : forall fuel fuel', (fuel <= fuel')%nat ->
  steady (parse_rdict fuel mode) (parse_rdict fuel' mode).
Proof.
  induction fuel as [|fuel IH]; intros fuel' L; [apply st_panics|].
  destruct fuel' as [|fuel']; [lia|]. assert (R := IH fuel' ltac:(lia)). clear IH.
  cbn [parse_rdict]. st_tac.
  all: match goal with a : list byte |- _ => destruct a as [|b l]; cbn [bool_prop]; auto with st end.
Qed.

Lemma st_header : steady parse_header parse_header.
Proof.
  unfold parse_header. st_tac. split; intros s v s' x E; [|intros N].
  - refine (proj1 (st_rdict _ _ _ _) s v s' x E). cbn. rewrite app_length. lia.
  - refine (proj2 (st_rdict _ _ _ _) s v s' x E N). cbn. rewrite app_length. lia.
Qed.

Lemma st_body : steady parse_body parse_body.
Proof.
  unfold parse_body, text_list, parse_keyframe, parse_debuginfo, parse_tickmarks, parse_classindex,
    parse_classcache. st_tac.
Qed.

(** the same at the level of sections, where a failure may also become a panic *)
Definition same_end {A} (m m' : parser A) : Prop := extends m m' /\
  forall s e s' x, m s = (Err e, s') -> ~ short e ->
    fst (m' (more x s)) = Err e \/ exists p, fst (m' (more x s)) = Panic p.

Lemma se_steady {A} (m m' : parser A) : steady m m' -> same_end m m'.
Proof. intros [H S]. split; auto. intros s e s' x E N. left. now rewrite (S _ _ _ x E N). Qed.
Lemma se_bind {A C} m m' (k k' : A -> parser C) :
  same_end m m' -> (forall a, same_end (k a) (k' a)) -> same_end (bind m k) (bind m' k').
Proof.
  intros [Hm Sm] Hk. split; [apply ext_bind; auto; apply Hk|]. intros s e s' x E N. unfold bind in *.
  destruct (m s) as [[a|e1|p] s1] eqn:Em; try discriminate E.
  - rewrite (Hm _ _ _ x Em). now apply (proj2 (Hk a) _ _ _ x E).
  - injection E as -> ->. destruct (Sm _ _ _ x Em N) as [Q|[p Q]]; destruct (m' (more x s)) as [[?|?|?] ?];
      cbn in *; try discriminate Q; injection Q as ->; eauto.
Qed.
Lemma se_crc {A} check cov crc n (m : parser A) : steady m m ->
  same_end (crc_section check cov crc n m) (crc_section check cov crc n m).
Proof.
  intros [H S]. split; [now apply ext_crc|]. intros s e s' x. unfold crc_section.
  destruct (m s) as [[a|e1|p] s1] eqn:E; [| |discriminate].
  - rewrite (H _ _ _ x E). destruct check; try discriminate.
    destruct (negb _); [|discriminate]. intros [= <- <-] _. now left.
  - destruct check.
    + destruct (negb _) eqn:Q; intros [= <- <-] N.
      * destruct (m (more x s)) as [[?|?|?] ?]; cbn; eauto.
      * rewrite (S _ _ _ x E N). now left.
    + intros [= <- <-] N. rewrite (S _ _ _ x E N). now left.
    + destruct (negb _) eqn:Q; intros [= <- <-] N.
      * rewrite (S _ _ _ x E); [now left|]. intros Z. now apply N, short_corrupt.
      * rewrite (S _ _ _ x E N). now left.
Qed.

Lemma se_replay B ho c n : same_end (parse_replay B ho c n) (parse_replay B ho c n).
Proof.
  unfold parse_replay.
  repeat (apply se_bind; [first [apply se_steady; solve [st_tac] | apply se_crc; first [apply st_header|apply st_body]]|intros ?]).
  apply se_bind; [|intros ?; apply se_steady, st_ret]. apply se_steady. split.
  - intros s v s' x. unfold parse_network. destruct n, (network_parse_frames B ho a2 a6);
      try discriminate; intros [= <- <-]; reflexivity.
  - intros s v s' x. unfold parse_network. destruct n, (network_parse_frames B ho a2 a6);
      try discriminate; intros [= <- <-] _; reflexivity.
Qed.

Lemma append_error B ho p e extra : builder_parse B ho p = Err e -> ~ short e ->
  let o := builder_parse B ho (mkBuilder (pb_data p ++ extra) (pb_crc_check p) (pb_network_parse p)) in
  o = Err e \/ exists q, o = Panic q.
Proof.
  unfold builder_parse. cbn [pb_data pb_crc_check pb_network_parse].
  set (c := match pb_crc_check p with Some c => c | None => CrcOnError end).
  set (n := match pb_network_parse p with Some n => n | None => NetIgnoreOnError end).
  destruct (parse_replay B ho c n (core_new (pb_data p))) as [o s'] eqn:E. cbn [fst]. intros -> N.
  exact (proj2 (se_replay B ho c n) _ _ _ extra E N).
Qed.
