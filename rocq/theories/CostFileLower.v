(** * Proofs: reading a file takes an operation for each frame and record at least *)

From Coq Require Import ZArith List Bool Lia.
From Verif Require Import Base Text F32 Errors NetTypes Core Header Body BitReader ObjectIndex FrameDecoder Network Crc Parser
  BitLemmas SpecReplay SpecCost Cost CostNet CostFile CostBound CostLower CoreLogic CostFileProofs.
Open Scope Z_scope.

Definition k0 : core -> Z := fun _ => 0.

Lemma up_take_data n : up k0 (take_data_c n).
Proof.
  intros s k. unfold take_data_c, take_data, k0. cbn [fst snd]. pose proof (split_at_spec n (c_data s)) as H.
  destruct (split_at n (c_data s)) as [[h t]|]; [|lia]. destruct (fits_i32 _); [|lia]. destruct H as [E _]. cbn [c_data].
  rewrite E, lenZ_app. pose proof (lenZ_nonneg h). lia.
Qed.
Lemma up_view n : up k0 (view_data_c n).
Proof. apply up_op. intros s. unfold k0. lia. Qed.
Lemma up_push : up k0 push_c.
Proof. apply up_op. intros s. unfold k0. lia. Qed.
#[export] Hint Resolve up_take_data up_view up_push : up.
Lemma up_repeat_n A n (f : parser_c A) : up k0 f -> up k0 (repeat_n_c n f).
Proof. intros H. induction n as [|n IH]; cbn [repeat_n_c]; up_go. Qed.
Lemma up_repeat_of A n (f : parser_c A) : up k0 f -> up k0 (repeat_of_c n f).
Proof. intros H. unfold repeat_of_c. destruct (_ <? _); [apply up_fail|now apply up_repeat_n]. Qed.
Lemma up_list_of A (f : parser_c A) : up k0 f -> up k0 (list_of_c f).
Proof. intros H. pose proof (fun n => up_repeat_of A n f H). unfold list_of_c. up_go. Qed.
Lemma up_rdict mode fuel : up k0 (parse_rdict_c fuel mode).
Proof.
  induction fuel as [|fuel IH]; cbn [parse_rdict_c]; [apply up_panics|].
  pose proof (fun n => up_repeat_of _ n _ IH) as R. up_go.
Qed.
Lemma up_header : up k0 parse_header_c.
Proof.
  assert (R : forall mode, up k0 (fun s => parse_rdict_c (S (length (c_data (fst s)))) mode s)).
  { intros mode s k. apply up_rdict. }
  unfold parse_header_c. up_go.
Qed.
Lemma up_body : up k0 parse_body_c.
Proof.
  assert (T : up k0 text_list_c) by (apply up_list_of; up_go).
  assert (K : up k0 parse_keyframe_c) by (apply up_list_of; up_go).
  assert (D : up k0 parse_debuginfo_c) by (apply up_list_of; up_go).
  assert (M : up k0 parse_tickmarks_c) by (apply up_list_of; up_go).
  assert (I : up k0 parse_classindex_c) by (apply up_list_of; up_go).
  assert (C : up k0 parse_classcache_c).
  { apply up_list_of.
    assert (P : up k0 (list_of_c (let* o := raw_i32_c in let* s := raw_i32_c in ret (mkCacheProp o s)))) by (apply up_list_of; up_go).
    up_go. }
  unfold parse_body_c. up_go.
Qed.
Lemma up_crc A check data crc section (f : parser_c A) : up k0 f -> up k0 (crc_section_c check data crc section f).
Proof.
  intros H s k. specialize (H s k). unfold crc_section_c, k0 in *. pose proof (lenZ_nonneg data).
  destruct (f (s, k)) as [[v|e|p] [s1 k1]]; cbn [fst snd]; [| |exact H];
    destruct check; cbn [crc_cost]; try (destruct (negb _)); lia.
Qed.
Definition shown (o : option (list frame)) : Z := match o with Some fs => frames_size fs | None => 0 end.
Lemma shown_nonneg o : 0 <= shown o.
Proof.
  destruct o as [fs|]; cbn [shown]; [|lia]. induction fs as [|f fs IH]; cbn [frames_size]; [lia|].
  unfold frame_size, lenZ in *. lia.
Qed.
Lemma up_parse_network B ho np h b : grows k0 (parse_network_c B ho np h b) shown.
Proof.
  pose proof (network_least B ho h b) as N. intros s k. unfold parse_network_c, k0. pose proof (network_up B ho h b) as U.
  destruct (network_parse_frames_c B ho h b) as [o n]. cbn [fst snd] in *.
  destruct np; [destruct o as [fs|e|p]| |destruct o as [fs|e|p]]; cbn [shown]; try lia; specialize (U _ eq_refl); lia.
Qed.
Lemma up_replay B ho check np : grows k0 (parse_replay_c B ho check np) (fun r => shown (r_network_frames r)).
Proof.
  assert (P : forall r, 0 <= shown (r_network_frames r)) by (intros r; apply shown_nonneg).
  unfold parse_replay_c.
  do 3 (apply up_bind; [exact P|up_go|intros ?]). apply up_bind; [exact P|apply up_crc, up_header|intros h].
  do 3 (apply up_bind; [exact P|up_go|intros ?]). apply up_bind; [exact P|apply up_crc, up_body|intros b].
  intros s k. pose proof (up_parse_network B ho np h b s k) as U. unfold bind at 1.
  destruct (parse_network_c B ho np h b (s, k)) as [[o|e|p] [s1 k1]]; exact U.
Qed.
Theorem counted_least B ho check np data r fs : parse_with B ho check np data = Ok r -> r_network_frames r = Some fs ->
  frames_size fs <= snd (parse_counted B ho check np data).
Proof.
  rewrite <- same_result. unfold parse_counted. intros H E. pose proof (up_replay B ho check np (core_new data) 0) as U.
  destruct (parse_replay_c B ho check np (core_new data, 0)) as [o [s k]]. cbn [fst snd] in *. subst o.
  rewrite E in U. cbn [shown] in U. unfold k0 in U. lia.
Qed.
