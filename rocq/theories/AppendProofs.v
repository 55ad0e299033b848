(** * Bytes after a successful parse do not matter *)

From Coq Require Import ZArith List Bool Lia ZifyBool ZifyNat.
From Verif Require Import Base Text F32 Crc NetTypes Errors Core Header Body BitReader ObjectIndex
  FrameDecoder Network Parser.
Open Scope Z_scope.

Definition more (x : list byte) (s : core) : core := mkCore (c_data s ++ x) (c_col s).

(** [m'] does on longer input what [m] does, when that succeeds. *)
Definition extends {A} (m m' : parser A) : Prop :=
  forall s v s' x, m s = (Ok v, s') -> m' (more x s) = (Ok v, more x s').

Lemma ext_ret {A} (a : A) : extends (ret a) (ret a).
Proof. intros s v s' x [= -> ->]. reflexivity. Qed.
Lemma ext_fail {A} e m : extends (fail e : parser A) m.
Proof. intros s v s' x [=]. Qed.
Lemma ext_panics {A} p m : extends (panics p : parser A) m.
Proof. intros s v s' x [=]. Qed.
Lemma ext_bind {A C} m m' (k k' : A -> parser C) :
  extends m m' -> (forall a, extends (k a) (k' a)) -> extends (bind m k) (bind m' k').
Proof.
  intros Hm Hk s v s' x E. unfold bind in *. destruct (m s) as [[a|e|p] s1] eqn:Em; try discriminate E.
  rewrite (Hm _ _ _ x Em). now apply Hk.
Qed.
Lemma ext_fmap {A C} (f : A -> C) m m' : extends m m' -> extends (fmap f m) (fmap f m').
Proof. intros H. apply ext_bind; auto. intros. apply ext_ret. Qed.
Lemma ext_section {A} n (m m' : parser A) : extends m m' -> extends (in_section n m) (in_section n m').
Proof.
  intros H s v s' x E. unfold in_section, map_err in *. destruct (m s) as [[a|e|p] s1] eqn:Em; try discriminate E.
  rewrite (H _ _ _ x Em). now injection E as -> ->.
Qed.

Lemma split_at_more {A} (x : list A) : forall l n h t,
  split_at n l = Some (h, t) -> split_at n (l ++ x) = Some (h, t ++ x).
Proof.
  induction l as [|y l IH]; intros n h t; cbn [split_at app].
  - destruct (n <=? 0) eqn:E; [|discriminate]. intros [= <- <-]. destruct x; cbn [split_at app]; now rewrite E.
  - destruct (n <=? 0) eqn:E; [intros [= <- <-]; reflexivity|].
    destruct (split_at (n - 1) l) as [[h' t']|] eqn:Es; [|discriminate]. intros [= <- <-].
    now rewrite (IH _ _ _ Es).
Qed.

Lemma ext_view n : extends (view_data n) (view_data n).
Proof.
  intros s v s' x. unfold view_data. destruct (split_at n (c_data s)) as [[h t]|] eqn:E; [|discriminate].
  intros [= <- <-]. cbn. now rewrite (split_at_more _ _ _ _ _ E).
Qed.
Lemma ext_take n : extends (take_data n) (take_data n).
Proof.
  intros s v s' x. unfold take_data. destruct (split_at n (c_data s)) as [[h t]|] eqn:E; [|discriminate].
  cbn. rewrite (split_at_more _ _ _ _ _ E). destruct (fits_i32 (c_col s + as_i32 n)); [|discriminate].
  intros [= <- <-]. reflexivity.
Qed.

#[local] Hint Resolve ext_ret ext_fail ext_panics ext_view ext_take : ext.

Lemma ext_repeat {A} n (m m' : parser A) : extends m m' -> extends (repeat_n n m) (repeat_n n m').
Proof.
  intros H. induction n as [|n IH]; cbn [repeat_n]; [apply ext_ret|].
  apply ext_bind; auto. intros. apply ext_bind; auto with ext.
Qed.
Lemma ext_repeat_of {A} n (m m' : parser A) : extends m m' -> extends (repeat_of n m) (repeat_of n m').
Proof. intros H. unfold repeat_of. destruct (25000 <? n); [apply ext_fail|]. now apply ext_repeat. Qed.
Lemma ext_raw_i32 : extends raw_i32 raw_i32.
Proof. apply ext_fmap, ext_take. Qed.
Lemma ext_raw_f32 : extends raw_f32 raw_f32.
Proof. apply ext_fmap, ext_take. Qed.
Lemma ext_i32 n : extends (take_i32 n) (take_i32 n).
Proof. apply ext_section, ext_raw_i32. Qed.
Lemma ext_u32 n : extends (take_u32 n) (take_u32 n).
Proof. apply ext_section, ext_fmap, ext_take. Qed.
Lemma ext_list {A} (m m' : parser A) : extends m m' -> extends (list_of m) (list_of m').
Proof. intros H. apply ext_bind; [apply ext_raw_i32|]. intros. now apply ext_repeat_of. Qed.
Lemma ext_str : extends parse_str parse_str.
Proof.
  apply ext_bind; [apply ext_raw_i32|]. intros n. apply ext_bind; auto with ext. intros d.
  destruct (decode_str d); auto with ext.
Qed.
Lemma ext_text : extends parse_text parse_text.
Proof.
  apply ext_bind; [apply ext_raw_i32|]. intros n. destruct (negb _); auto with ext.
  destruct (n <? 0); apply ext_bind; auto with ext.
Qed.
#[local] Hint Resolve ext_raw_i32 ext_raw_f32 ext_i32 ext_u32 ext_str ext_text : ext.

Ltac ext_tac :=
  repeat first
    [ progress auto with ext
    | apply ext_bind; [|intros ?]
    | apply ext_fmap | apply ext_section | apply ext_list | apply ext_repeat_of
    | match goal with |- extends (if ?b then _ else _) _ => destruct b end ].

Lemma ext_rdict mode : forall fuel fuel', (fuel <= fuel')%nat ->
  extends (parse_rdict fuel mode) (parse_rdict fuel' mode).
Proof.
  induction fuel as [|fuel IH]; intros fuel' L; [apply ext_panics|].
  destruct fuel' as [|fuel']; [lia|]. assert (R := IH fuel' ltac:(lia)). clear IH.
  cbn [parse_rdict]. ext_tac.
  all: match goal with a : list byte |- _ => destruct a as [|b l]; cbn [bool_prop]; auto with ext end.
Qed.

Lemma ext_header : extends parse_header parse_header.
Proof.
  unfold parse_header. ext_tac. intros s v s' x E. refine (ext_rdict _ _ _ _ s v s' x E).
  cbn. rewrite app_length. lia.
Qed.

Lemma ext_body : extends parse_body parse_body.
Proof.
  unfold parse_body, text_list, parse_keyframe, parse_debuginfo, parse_tickmarks, parse_classindex,
    parse_classcache. ext_tac.
Qed.

Lemma ext_crc {A} check cov crc n (m : parser A) : extends m m ->
  extends (crc_section check cov crc n m) (crc_section check cov crc n m).
Proof.
  intros H s v s' x. unfold crc_section. destruct (m s) as [[a|e|p] s1] eqn:E; [| |discriminate].
  - rewrite (H _ _ _ x E). destruct check.
    + destruct (negb _); [discriminate|]. intros [= <- <-]. reflexivity.
    + intros [= <- <-]. reflexivity.
    + intros [= <- <-]. reflexivity.
  - destruct check; try discriminate; destruct (negb _); discriminate.
Qed.

Lemma ext_replay B ho c n : extends (parse_replay B ho c n) (parse_replay B ho c n).
Proof.
  unfold parse_replay.
  assert (N : forall h b, extends (parse_network B ho n h b) (parse_network B ho n h b)).
  { intros h b s v s' x. unfold parse_network. destruct n, (network_parse_frames B ho h b);
      try discriminate; intros [= <- <-]; reflexivity. }
  ext_tac; apply ext_crc; [apply ext_header|apply ext_body].
Qed.

Lemma append_same B ho p r extra : builder_parse B ho p = Ok r ->
  builder_parse B ho (mkBuilder (pb_data p ++ extra) (pb_crc_check p) (pb_network_parse p)) = Ok r.
Proof.
  unfold builder_parse. cbn [pb_data pb_crc_check pb_network_parse].
  set (c := match pb_crc_check p with Some c => c | None => CrcOnError end).
  set (n := match pb_network_parse p with Some n => n | None => NetIgnoreOnError end).
  destruct (parse_replay B ho c n (core_new (pb_data p))) as [o s'] eqn:E. cbn [fst]. intros ->.
  apply (ext_replay B ho c n _ _ _ extra) in E. unfold more, core_new in *. cbn [c_data c_col] in E.
  rewrite E. reflexivity.
Qed.

(** The contrapositive: a prefix of a file never parses to another replay. *)
Lemma truncate_same B ho c n data k r r' :
  builder_parse B ho (mkBuilder data c n) = Ok r ->
  builder_parse B ho (mkBuilder (firstn k data) c n) = Ok r' -> r' = r.
Proof.
  intros H1 H2. apply (append_same _ _ _ _ (skipn k data)) in H2. cbn in H2.
  rewrite firstn_skipn in H2. congruence.
Qed.
