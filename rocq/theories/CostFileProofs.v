(** * Proofs: the operations of reading a file *)

From Coq Require Import ZArith List Bool Lia.
From Verif Require Import Base Text F32 Errors NetTypes Core Header Body BitReader ObjectIndex FrameDecoder Network Crc Parser
  BitLemmas CoreLogic SpecReplay Cost CostNet CostFile CostProofs CostBound CostNetProofs.
Open Scope Z_scope.

(** ** Without the counter *)

Lemma er_take_data n : erases (take_data_c n) (take_data n).
Proof. intros s k. unfold take_data_c. cbn [fst snd]. destruct (take_data n s) as [o t]. eexists. reflexivity. Qed.
#[export] Hint Resolve er_take_data : er.
Lemma er_then_push A (m' : parser_c A) (m : parser A) : erases m' m -> erases (bind push_c (fun _ => m')) m.
Proof. intros H s k. unfold push_c, bind, op. cbn [ret fst snd]. apply H. Qed.
Lemma er_repeat_n A n (f' : parser_c A) (f : parser A) : erases f' f -> erases (repeat_n_c n f') (repeat_n n f).
Proof.
  intros H. induction n as [|n IH]; cbn [repeat_n_c repeat_n]; [apply er_ret|].
  apply er_bind; [exact H|]. intros x. apply er_then_push. apply er_bind; [exact IH|]. intros xs. apply er_ret.
Qed.
Lemma er_repeat_of A n (f' : parser_c A) (f : parser A) : erases f' f -> erases (repeat_of_c n f') (repeat_of n f).
Proof. intros H. unfold repeat_of_c, repeat_of. destruct (_ <? _); [apply er_fail|now apply er_repeat_n]. Qed.
Lemma er_list_of A (f' : parser_c A) (f : parser A) : erases f' f -> erases (list_of_c f') (list_of f).
Proof. intros H. unfold list_of_c, list_of. apply er_bind; [er|]. intros n. now apply er_repeat_of. Qed.
Lemma er_str : erases parse_str_c parse_str.
Proof. er. Qed.
Lemma er_text_c : erases parse_text_c parse_text.
Proof. er. Qed.
#[export] Hint Resolve er_str er_text_c : er.
Lemma er_rdict mode fuel : erases (parse_rdict_c fuel mode) (parse_rdict fuel mode).
Proof.
  induction fuel as [|fuel IH]; cbn [parse_rdict_c parse_rdict]; [apply er_panics|].
  apply er_bind; [er|]. intros key. destruct (str_eqb key _); [apply er_ret|].
  apply er_bind; [er|]. intros kind. apply er_bind; [er|]. intros _. apply er_bind; [er|]. intros _. apply er_bind.
  { repeat match goal with |- erases (if str_eqb kind ?x then _ else _) _ => destruct (str_eqb kind x) end;
      try (apply er_bind; [er|]; intros n; apply er_bind; [apply er_repeat_of, IH|]; intros rows; apply er_ret); er. }
  intros v. destruct v as [p|]; [apply er_then_push; er|].
  intros s k. unfold bind at 1. cbn [ret]. revert s k. change (erases (bind (parse_rdict_c fuel mode) (fun rest => ret rest))
    (bind (parse_rdict fuel mode) (fun rest => ret rest))). er.
Qed.
Lemma er_header : erases parse_header_c parse_header.
Proof.
  unfold parse_header_c, parse_header. apply er_bind; [er|]. intros major. apply er_bind; [er|]. intros minor.
  apply er_bind; [er|]. intros net. apply er_bind; [er|]. intros game. apply er_bind; [|intros ps; apply er_ret].
  apply er_map_err; [reflexivity|]. intros s k. apply er_rdict.
Qed.
Lemma er_body : erases parse_body_c parse_body.
Proof.
  assert (L : forall A (f' : parser_c A) f n, erases f' f -> erases (in_section_c n (list_of_c f')) (in_section n (list_of f))).
  { intros A f' f n H. apply er_map_err; [reflexivity|now apply er_list_of]. }
  unfold parse_body_c, parse_body.
  apply er_bind; [apply L; er|]. intros x1. apply er_bind; [apply L; er|]. intros x2. apply er_bind; [er|]. intros x3.
  apply er_bind; [er|]. intros x4. apply er_bind; [apply L; er|]. intros x5. apply er_bind; [apply L; er|]. intros x6.
  apply er_bind; [apply L; er|]. intros x7. apply er_bind; [apply L; er|]. intros x8. apply er_bind; [apply L; er|]. intros x9.
  apply er_bind; [apply L; er|]. intros x10. apply er_bind; [|intros x11; apply er_ret]. apply L.
  apply er_bind; [er|]. intros o. apply er_bind; [er|]. intros p. apply er_bind; [er|]. intros c.
  apply er_bind; [apply er_list_of; er|]. intros ps. apply er_ret.
Qed.
Lemma er_crc A check data crc section (f' : parser_c A) (f : parser A) : erases f' f ->
  erases (crc_section_c check data crc section f') (crc_section check data crc section f).
Proof.
  intros H s k. unfold crc_section_c, crc_section. destruct (H s k) as [n ->]. destruct (f s) as [[v|e|p] t]; cbn [fst snd].
  - destruct check; [destruct (negb _)|..]; eexists; reflexivity.
  - destruct check; [destruct (negb _)| |destruct (negb _)]; eexists; reflexivity.
  - eexists. reflexivity.
Qed.
Lemma er_parse_network B ho np h b : erases (parse_network_c B ho np h b) (parse_network B ho np h b).
Proof.
  intros s k. unfold parse_network_c, parse_network. rewrite <- (er_network B ho h b).
  destruct (network_parse_frames_c B ho h b) as [o n]. cbn [fst snd]. destruct np, o; eexists; reflexivity.
Qed.
Lemma er_replay B ho check np : erases (parse_replay_c B ho check np) (parse_replay B ho check np).
Proof.
  unfold parse_replay_c, parse_replay.
  repeat first [apply er_crc, er_header|apply er_crc, er_body|apply er_parse_network|
                apply er_bind; [|intros ?]|apply er_ret|progress er].
Qed.
Theorem same_result B ho check np data : fst (parse_counted B ho check np data) = parse_with B ho check np data.
Proof.
  unfold parse_counted, parse_with, builder_parse, with_network_parse, with_crc_check, builder_new.
  cbn [pb_data pb_crc_check pb_network_parse]. destruct (er_replay B ho check np (core_new data) 0) as [n ->].
  destruct (parse_replay B ho check np (core_new data)) as [o s]. reflexivity.
Qed.

(** ** The bound *)

Section Bound.
Context (L : Z).
Definition c_good (s : core) : Prop := lenZ (c_data s) <= L.
Definition c_left (s : core) : Z := lenZ (c_data s).
Notation cfits := (fits c_good c_left).
Notation cpays := (pays c_good c_left).

Lemma p_take n : cpays (take_data_c n) (fun v a => a <= 1 - 3 * n /\ a <= 1 /\ lenZ v <= L) 1.
Proof.
  intros s k G. unfold take_data_c, take_data, c_good, c_left in *. cbn [fst snd]. pose proof (split_at_spec n (c_data s)) as H.
  destruct (split_at n (c_data s)) as [[h t]|]; [|split; [exact G|lia]].
  destruct (fits_i32 _); [|split; [exact G|lia]]. destruct H as [E Lh]. cbn [c_data].
  rewrite E, lenZ_app in *. assert (0 <= lenZ h) by apply lenZ_nonneg. assert (0 <= lenZ t) by apply lenZ_nonneg.
  split; [lia|]. exists (1 - 3 * lenZ h). unfold lenZ in *. repeat split; lia.
Qed.
Lemma f_take n : cfits (take_data_c n) (1 - 3 * Z.max n 0) 1.
Proof.
  intros s k G. pose proof (p_take n s k G) as H. destruct (take_data_c n (s, k)) as [[v|e|p] [s1 k1]]; [|exact H..].
  destruct H as (G1 & a & (H1 & H2 & _) & H3). split; [exact G1|]. exists a. split; lia.
Qed.
Lemma p_view n : cpays (view_data_c n) (fun v a => a <= 1 /\ lenZ v <= L) 1.
Proof.
  intros s k G. unfold view_data_c, op, view_data, c_good, c_left in *. cbn [fst snd]. pose proof (split_at_spec n (c_data s)) as H.
  destruct (split_at n (c_data s)) as [[h t]|]; (split; [exact G|]); [|lia].
  destruct H as [E _]. rewrite E, lenZ_app in G. assert (0 <= lenZ t) by apply lenZ_nonneg. exists 1. repeat split; lia.
Qed.
Lemma f_push : cfits push_c 1 1.
Proof. apply (fits_op _ _ _ _ _ _ 0); [lia|]. intros s G. cbn [ret fst snd]. split; [exact G|lia]. Qed.
End Bound.
#[export] Hint Resolve f_take f_push : fit.

Section Bound2.
Context (L : Z).
Notation cfits := (fits (c_good L) c_left).
Notation cpays := (pays (c_good L) c_left).

Lemma f_i32 : cfits raw_i32_c (-11) 1.
Proof. pay. Qed.
Lemma f_f32 : cfits raw_f32_c (-11) 1.
Proof. pay. Qed.
Lemma f_str : cfits parse_str_c (-10) 1.
Proof. pose proof f_i32. pay. Qed.
Lemma f_text_c : cfits parse_text_c (-10) 1.
Proof. pose proof f_i32. pay. Qed.
Lemma f_repeat_n A n (f : parser_c A) : cfits f (-1) 1 -> cfits (repeat_n_c n f) 0 1.
Proof. intros H. induction n as [|n IH]; cbn [repeat_n_c]; pay. Qed.
Lemma f_repeat_of A n (f : parser_c A) : cfits f (-1) 1 -> cfits (repeat_of_c n f) 0 1.
Proof. intros H. unfold repeat_of_c. destruct (_ <? _); [apply pays_fail; lia|now apply f_repeat_n]. Qed.
Lemma f_list_of A (f : parser_c A) : cfits f (-1) 1 -> cfits (list_of_c f) (-11) 1.
Proof. intros H. pose proof f_i32. pose proof (fun n => f_repeat_of A n f H). unfold list_of_c. pay. Qed.
End Bound2.
#[export] Hint Resolve f_i32 f_f32 f_str f_text_c : fit.

Section Bound3.
Context (L : Z).
Notation cfits := (fits (c_good L) c_left).
Notation cpays := (pays (c_good L) c_left).

Lemma f_rdict mode fuel : cfits (parse_rdict_c fuel mode) (-10) 1.
Proof.
  induction fuel as [|fuel IH]; cbn [parse_rdict_c]; [apply pays_panics; lia|].
  assert (R : forall n, cfits (repeat_of_c n (parse_rdict_c fuel mode)) 0 1).
  { intros n. apply f_repeat_of. eapply fits_weaken; [exact IH|lia..]. }
  pay.
Qed.
Lemma f_take_i32 n : cfits (take_i32_c n) (-11) 1.
Proof. pay. Qed.
Lemma f_take_u32 n : cfits (take_u32_c n) (-11) 1.
Proof. pay. Qed.
Lemma f_header : cfits parse_header_c 0 1.
Proof.
  pose proof f_take_i32. unfold parse_header_c, in_section_c.
  assert (R : forall mode, cfits (fun s => parse_rdict_c (S (length (c_data (fst s)))) mode s) (-10) 1).
  { intros mode s k G. now apply f_rdict. }
  pay.
Qed.

(** the network data are part of the file *)
Lemma p_body : cpays parse_body_c (fun b a => a <= 0 /\ lenZ (b_network_data b) <= L) 1.
Proof.
  pose proof f_take_i32.
  assert (T : cfits text_list_c (-11) 1) by (apply f_list_of; pay).
  assert (K : cfits parse_keyframe_c (-11) 1) by (apply f_list_of; pay).
  assert (D : cfits parse_debuginfo_c (-11) 1) by (apply f_list_of; pay).
  assert (M : cfits parse_tickmarks_c (-11) 1) by (apply f_list_of; pay).
  assert (I : cfits parse_classindex_c (-11) 1) by (apply f_list_of; pay).
  assert (C : cfits parse_classcache_c (-11) 1).
  { apply f_list_of.
    assert (P : cfits (list_of_c (let* o := raw_i32_c in let* s := raw_i32_c in ret (mkCacheProp o s))) (-11) 1) by (apply f_list_of; pay).
    pay. }
  unfold parse_body_c, in_section_c.
  do 3 (apply pays_bind; lazymatch goal with |- pays _ _ (map_err _ _) _ _ => apply pays_map_err | _ => idtac end;
    eapply pays_use; [solve [eauto 2]|lia|]; intros ? ? ?).
  apply pays_bind, pays_map_err. intros s k G. pose proof (p_take L (as_usize v1) s k G) as P.
  destruct (take_data_c (as_usize v1) (s, k)) as [[data|e|p] [s1 k1]]; [|destruct P as [G1 P]; split; [exact G1|lia]..].
  destruct P as (G1 & a' & (_ & A1 & A2) & P). split; [exact G1|]. exists a'. split; [|exact P].
  repeat (apply pays_bind; lazymatch goal with |- pays _ _ (map_err _ _) _ _ => apply pays_map_err | _ => idtac end;
    eapply pays_use; [solve [eauto 2]|lia|]; intros ? ? ?).
  apply pays_ret. cbn [b_network_data]. split; [lia|exact A2].
Qed.

Lemma p_crc A check data crc section (f : parser_c A) (Q : A -> Z -> Prop) : lenZ data <= L -> 
  cpays f (fun v a => a <= 0 /\ Q v a) 1 ->
  cpays (crc_section_c check data crc section f) (fun v a => exists x, a <= x + L /\ x <= 0 /\ Q v x) (1 + L).
Proof.
  intros HL H s k G. specialize (H s k G). unfold crc_section_c. pose proof (lenZ_nonneg data).
  destruct (f (s, k)) as [[v|e|p] [s1 k1]]; cbn [fst snd].
  - destruct H as (G1 & a & (La & HQ) & P).
    destruct check; cbn [crc_cost]; [destruct (negb _)|..]; (split; [exact G1|]); [lia|..];
      exists (a + L); (split; [exists a; auto with zarith|lia]).
  - destruct H as (G1 & P). destruct check; cbn [crc_cost]; [destruct (negb _)| |destruct (negb _)]; (split; [exact G1|]); lia.
  - destruct H as (G1 & P). split; [exact G1|lia].
Qed.
End Bound3.

Section Whole.
Context (B : bitter) (HB : bitter_ok B) (ho : hash_order) (L : Z) (HL : 0 <= L).
Notation cfits := (fits (c_good L) c_left).
Notation cpays := (pays (c_good L) c_left).

Lemma f_parse_network np h b : lenZ (b_network_data b) <= L -> cfits (parse_network_c B ho np h b) (32 * L + 1100) (32 * L + 1100).
Proof.
  intros Hb s k G. unfold parse_network_c. pose proof (f_network B ho h b HB) as N.
  destruct (network_parse_frames_c B ho h b) as [o n]. cbn [fst snd] in *.
  destruct np; [destruct o as [fs|e|p]| |destruct o as [fs|e|p]]; (split; [exact G|]); try lia;
    exists (32 * L + 1100); (split; [lia|]); cbn [fst snd]; lia.
Qed.

Lemma f_replay check np : cfits (parse_replay_c B ho check np) (34 * L + 1100) (34 * L + 1100).
Proof.
  unfold parse_replay_c, fits.
  do 2 (apply pays_bind; eapply pays_use; [solve [eauto using f_take_i32, f_take_u32]|lia|]; intros ? ? ?).
  (* the header *)
  apply pays_bind, pays_map_err. intros s k G. pose proof (p_view L (as_usize v) s k G) as P.
  destruct (view_data_c (as_usize v) (s, k)) as [[hd|e|p] [s1 k1]]; [|destruct P as [G1 P]; split; [exact G1|lia]..].
  destruct P as (G1 & a1 & (A1 & A2) & P). split; [exact G1|]. exists a1. split; [|exact P]. clear s k G s1 k1 G1 P.
  apply pays_bind. intros s k G.
  pose proof (p_crc L header check hd v0 "header" parse_header_c (fun _ _ => True) A2) as P.
  assert (H' : cpays parse_header_c (fun v a => a <= 0 /\ True) 1).
  { eapply pays_use; [apply f_header|lia|]. intros x b Hb. auto. }
  specialize (P H' s k G). clear H'.
  destruct (crc_section_c check hd v0 "header" parse_header_c (s, k)) as [[h|e|p] [s1 k1]];
    [|destruct P as [G1 P]; split; [exact G1|lia]..].
  destruct P as (G1 & a2 & (x & A3 & A4 & _) & P). split; [exact G1|]. exists a2. split; [|exact P]. clear s k G s1 k1 G1 P.
  do 2 (apply pays_bind; eapply pays_use; [solve [eauto using f_take_i32, f_take_u32]|lia|]; intros ? ? ?).
  (* the body *)
  apply pays_bind, pays_map_err. intros s k G. pose proof (p_view L (as_usize v1) s k G) as P.
  destruct (view_data_c (as_usize v1) (s, k)) as [[cd|e|p] [s1 k1]]; [|destruct P as [G1 P]; split; [exact G1|lia]..].
  destruct P as (G1 & a5 & (B1 & B2) & P). split; [exact G1|]. exists a5. split; [|exact P]. clear s k G s1 k1 G1 P.
  apply pays_bind. intros s k G.
  pose proof (p_crc L body check cd v2 "body" parse_body_c (fun b _ => lenZ (b_network_data b) <= L) B2 (p_body L) s k G) as P.
  destruct (crc_section_c check cd v2 "body" parse_body_c (s, k)) as [[b|e|p] [s1 k1]];
    [|destruct P as [G1 P]; split; [exact G1|lia]..].
  destruct P as (G1 & a6 & (y & B3 & B4 & B5) & P). split; [exact G1|]. exists a6. split; [|exact P]. clear s k G s1 k1 G1 P.
  apply pays_bind. eapply pays_use; [apply f_parse_network; exact B5|lia|]. intros fs a7 A7.
  apply pays_ret. lia.
Qed.
End Whole.

Theorem counted_bound B ho check np data : bitter_ok B ->
  snd (parse_counted B ho check np data) <= 38 * lenZ data + 1100.
Proof.
  intros HB. unfold parse_counted.
  pose proof (f_replay B HB ho (lenZ data) (lenZ_nonneg data) check np (core_new data) 0 (Z.le_refl _)) as H.
  destruct (parse_replay_c B ho check np (core_new data, 0)) as [[r|e|p] [s k]]; cbn [snd];
    pose proof (lenZ_nonneg (c_data s)); unfold c_left in H; cbn [core_new c_data] in H.
  - destruct H as (_ & a & A & P). lia.
  - destruct H as (_ & P). lia.
  - destruct H as (_ & P). lia.
Qed.
