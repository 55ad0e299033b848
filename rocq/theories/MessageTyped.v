(** * Proofs: the numbers in errors are within their Rust types *)

From Coq Require Import ZArith List Bool Lia ZifyBool.
From Verif Require Import Base F32 Text Crc NetTypes Errors Core Header Body BitReader ObjectIndex FrameDecoder Network Parser
  NetworkProofs SpecBasic SpecFacts SpecNet SpecJson SpecFile SpecReplay SpecErrors SpecFileErrors SpecMessage BitLemmas CoreLogic RecordProofs
  CrcProofs Utf8Errors BasicProofs CacheProofs ParseProofs ErrorFacts.
Open Scope Z_scope.

Definition okc (s : core) : Prop := is_i32 (c_col s).
(** results satisfy [Q]; errors are typed and satisfy [N] *)
Definition typed {A} (m : parser A) (Q : A -> Prop) : Prop :=
  forall s, okc s -> match m s with
    | (Ok x, s') => Q x /\ okc s'
    | (Err e, s') => typed_error e /\ okc s'
    | (Panic _, _) => True
    end.
Definition any {A} (x : A) : Prop := True.

Lemma t_bind {A C} (m : parser A) (k : A -> parser C) Q R : typed m Q -> (forall x, Q x -> typed (k x) R) -> typed (bind m k) R.
Proof.
  intros Hm Hk s H. specialize (Hm s H). unfold bind. destruct (m s) as [[a|e|p] t]; [|exact Hm|exact Logic.I].
  destruct Hm as [Qa Ht]. now apply Hk.
Qed.
Lemma t_ret {A} (x : A) (Q : A -> Prop) : Q x -> typed (ret x) Q.
Proof. intros H s Hs. split; auto. Qed.
Lemma t_fail {A} e (Q : A -> Prop) : typed_error e -> typed (fail e) Q.
Proof. intros H s Hs. split; auto. Qed.
Lemma t_panics {A} p (Q : A -> Prop) : typed (panics p) Q.
Proof. intros s Hs. exact Logic.I. Qed.
Lemma t_weaken {A} (m : parser A) (Q R : A -> Prop) : (forall x, Q x -> R x) -> typed m Q -> typed m R.
Proof. intros H T s Hs. specialize (T s Hs). destruct (m s) as [[a|e|p] t]; intuition. Qed.
Lemma t_fmap {A C} (f : A -> C) (m : parser A) (Q : A -> Prop) (R : C -> Prop) : typed m Q -> (forall x, Q x -> R (f x)) -> typed (fmap f m) R.
Proof. intros H F. eapply t_bind; [exact H|]. intros x Hx. apply t_ret; auto. Qed.
Lemma t_section {A} part (m : parser A) Q : typed m Q -> typed (in_section part m) Q.
Proof.
  intros T s Hs. specialize (T s Hs). unfold in_section, map_err. destruct (m s) as [[a|e|p] t]; auto.
  destruct T. cbn [typed_error]. auto.
Qed.

Lemma t_view n : typed (view_data n) any.
Proof.
  intros s Hs. unfold view_data. destruct (split_at _ _) as [[h t]|]; [split; [exact Logic.I|auto]|].
  split; auto. cbn [typed_error]. split; apply as_i32_range.
Qed.
Lemma t_take n : typed (take_data n) (fun l => length l = Z.to_nat n).
Proof.
  intros s Hs. unfold take_data. pose proof (split_at_spec n (c_data s)) as S. destruct (split_at _ _) as [[h t]|].
  - destruct (fits_i32 _) eqn:E; [|exact Logic.I]. split; [apply S|]. unfold okc, is_i32. cbn [c_col]. unfold fits_i32 in E. lia.
  - split; auto. cbn [typed_error]. split; apply as_i32_range.
Qed.
Lemma t_raw_i32 : typed raw_i32 is_i32.
Proof. eapply t_fmap; [apply t_take|]. intros l _. apply as_i32_range. Qed.
Lemma t_raw_f32 : typed raw_f32 any.
Proof. eapply t_fmap; [apply t_take|]. intros l _. exact Logic.I. Qed.

Lemma t_repeat_n {A} (f : parser A) Q : typed f Q -> forall n, typed (repeat_n n f) any.
Proof.
  intros H. induction n as [|n IH]; cbn [repeat_n]; [now apply t_ret|].
  eapply t_bind; [exact H|]. intros x _. eapply t_bind; [exact IH|]. intros xs _. now apply t_ret.
Qed.
Lemma usize_typed x : is_u64 (as_usize x).
Proof. unfold as_usize, is_u64. apply Z.mod_pos_bound. reflexivity. Qed.
Lemma t_repeat_of {A} n (f : parser A) Q : is_u64 n -> typed f Q -> typed (repeat_of n f) any.
Proof. intros Hn H. unfold repeat_of. destruct (_ <? _); [now apply t_fail|eapply t_repeat_n; eauto]. Qed.
Lemma t_list {A} (f : parser A) Q : typed f Q -> typed (Core.list_of f) any.
Proof. intros H. eapply t_bind; [apply t_raw_i32|]. intros n _. eapply t_repeat_of; eauto. apply usize_typed. Qed.

Lemma drop_last_length n l : (length (drop_last n l) <= length l)%nat.
Proof. unfold drop_last. rewrite firstn_length. lia. Qed.

Lemma broken_typed s e : (length s < Z.to_nat (2 ^ 64))%nat -> utf8_broken s e -> typed_error (EUtf8Error e).
Proof.
  destruct e as [at_ n]. intros L (good & bad & -> & _ & Nb & _ & E & H). cbn [fst snd] in *. cbn [typed_error]. split.
  - unfold is_u64. rewrite app_length in L. lia.
  - destruct n as [n|]; [|exact Logic.I]. destruct H as (_ & p & q & -> & <- & U & _). destruct U as [U|U]; [|lia].
    destruct p as [|a [|b [|c [|d p]]]]; cbn [length]; try lia.
    + exfalso. destruct U as [U _]. congruence.
    + exfalso. exact (unfinished_long _ _ _ _ _ U).
Qed.

Lemma t_str : typed parse_str any.
Proof.
  eapply t_bind; [apply t_raw_i32|]. intros n _. eapply t_bind; [apply t_take|]. intros d L. cbv beta in L.
  unfold decode_str. destruct (utf8_validate 0 (drop_last 1 d)) as [e|] eqn:E; [|now apply t_ret]. apply t_fail.
  apply (validate_broken (length (drop_last 1 d))) in E; [|lia]. rewrite Z.sub_0_r in E.
  rewrite <- surjective_pairing in E. eapply broken_typed; [|exact E].
  pose proof (drop_last_length 1 d). pose proof (usize_typed n) as U. unfold is_u64 in U. lia.
Qed.
Lemma t_text : typed parse_text any.
Proof.
  eapply t_bind; [apply t_raw_i32|]. intros n Hn. destruct (negb _); [now apply t_fail|].
  destruct (n <? 0); (eapply t_bind; [apply t_take|]; intros d _; now apply t_ret).
Qed.

Lemma t_any_i32 : typed raw_i32 any.
Proof. eapply t_weaken; [|apply t_raw_i32]. now intros. Qed.

Ltac t_tac := repeat first
  [ apply (t_list _ any) | apply t_str | apply t_text | apply t_any_i32 | apply t_raw_f32
  | apply t_ret; exact Logic.I | apply (t_bind _ _ any any); [|intros ? _] ].

Lemma t_rdict mode : forall fuel, typed (parse_rdict fuel mode) any.
Proof.
  induction fuel as [|fuel IH]; cbn [parse_rdict]; [apply t_panics|].
  eapply t_bind; [apply t_str|]. intros key _. destruct (str_eqb _ _); [now apply t_ret|].
  eapply t_bind; [apply t_str|]. intros kind _.
  eapply t_bind; [apply t_section; eapply t_fmap with (R := any); [apply t_take|now intros]|]. intros _ _.
  eapply t_bind; [apply t_take|]. intros _ _.
  eapply t_bind.
  2: { intros v _. eapply t_bind; [apply IH|]. intros rest _. now apply t_ret. }
  assert (PB : forall d : list byte, length d = Z.to_nat 4 \/ True -> typed (fmap Some (bool_prop d)) any).
  { intros d _. eapply t_fmap with (Q := any); [|now intros]. destruct d; [apply t_panics|now apply t_ret]. }
  assert (TK : forall n (C : Type) (f : list byte -> C), typed (fmap f (take n)) any).
  { intros n C f. eapply t_fmap; [apply t_take|now intros]. }
  destruct (str_eqb kind _); [destruct mode; (eapply t_bind; [apply t_take|intros d _; apply PB; auto])|].
  destruct (str_eqb kind _).
  { destruct mode.
    - eapply t_bind; [apply t_str|]. intros k _. destruct (str_eqb k _).
      + eapply t_bind; [apply t_take|]. intros _ _. now apply t_ret.
      + eapply t_bind; [apply t_str|]. intros v _. now apply t_ret.
    - eapply t_fmap; [apply t_text|now intros]. }
  destruct (str_eqb kind _).
  { eapply t_bind; [apply t_section; eapply t_fmap with (R := is_i32); [apply t_take|intros; apply as_i32_range]|]. intros size _.
    eapply t_bind; [eapply t_repeat_of; [apply usize_typed|apply IH]|]. intros rows _. now apply t_ret. }
  destruct (str_eqb kind _); [apply TK|].
  destruct (str_eqb kind _); [apply TK|].
  destruct (str_eqb kind _); [apply TK|].
  destruct (str_eqb kind _); [eapply t_fmap; [apply t_text|now intros]|].
  destruct (str_eqb kind _); [eapply t_fmap; [apply t_text|now intros]|].
  destruct (str_eqb kind _).
  { eapply t_bind; [apply t_str|]. intros name _. eapply t_bind; [apply IH|]. intros f _. now apply t_ret. }
  now apply t_fail.
Qed.

Lemma t_i32 part : typed (take_i32 part) is_i32.
Proof. apply t_section, t_raw_i32. Qed.
Lemma t_u32 part : typed (take_u32 part) is_u32.
Proof.
  apply t_section. eapply t_fmap; [apply t_take|]. intros l L. cbv beta in L. pose proof (le_Z_range l) as R. unfold is_u32.
  unfold lenZ in R. rewrite L in R. exact R.
Qed.

Lemma t_header : typed parse_header any.
Proof.
  eapply t_bind; [apply t_i32|]. intros major _. eapply t_bind; [apply t_i32|]. intros minor _.
  eapply t_bind with (Q := any).
  { destruct (_ && _); [eapply t_fmap; [apply t_i32|now intros]|now apply t_ret]. }
  intros net _. eapply t_bind; [apply t_section, t_text|]. intros gt _.
  eapply t_bind; [apply t_section with (Q := any)|intros ps _; now apply t_ret].
  intros s Hs. now apply t_rdict.
Qed.

Lemma t_body : typed parse_body any.
Proof.
  unfold parse_body, text_list, parse_keyframe, parse_debuginfo, parse_tickmarks, parse_classindex, parse_classcache.
  eapply t_bind; [apply t_section with (Q := any); t_tac|intros ? _].
  eapply t_bind; [apply t_section with (Q := any); t_tac|intros ? _].
  eapply t_bind; [apply t_i32|intros ? _].
  eapply t_bind; [apply t_section, t_take|intros ? _].
  do 7 (eapply t_bind; [apply t_section with (Q := any); t_tac|intros ? _]).
  now apply t_ret.
Qed.

Lemma crc_typed d : is_u32 (calc_crcZ d).
Proof. unfold is_u32, calc_crcZ. pose proof (calc_crc_bound d). change (2 ^ 32) with (Z.of_N (2 ^ 32)%N). lia. Qed.

Lemma t_crc {A} c data crc section (m : parser A) Q : is_u32 crc -> typed m Q -> typed (crc_section c data crc section m) Q.
Proof.
  intros Hc T s Hs. specialize (T s Hs). pose proof (crc_typed data) as Hd. unfold crc_section.
  destruct (m s) as [[a|e|p] t]; destruct c; try exact T; try exact Logic.I; destruct (negb _); try exact T; (split; [|apply T]);
    cbn [typed_error]; auto.
Qed.

Lemma t_replay B ho c : typed (parse_replay B ho c NetNever) any.
Proof.
  unfold parse_replay.
  eapply t_bind; [apply t_i32|intros ? _]. eapply t_bind; [apply t_u32|intros crc Hc].
  eapply t_bind; [apply t_section, t_view|intros ? _]. eapply t_bind; [apply t_crc; [exact Hc|apply t_header]|intros ? _].
  eapply t_bind; [apply t_i32|intros ? _]. eapply t_bind; [apply t_u32|intros crc' Hc'].
  eapply t_bind; [apply t_section, t_view|intros ? _]. eapply t_bind; [apply t_crc; [exact Hc'|apply t_body]|intros ? _].
  eapply t_bind with (Q := any); [|intros ? _; now apply t_ret].
  intros s Hs. split; [exact Logic.I|exact Hs].
Qed.

Section Files.
Context (B : bitter) (HB : bitter_ok B) (ho : hash_order) (Hho : hash_order_ok ho).

Lemma never_typed c data e : parse_with B ho c NetNever data = Err e -> typed_error e.
Proof.
  unfold parse_with, builder_parse. cbn [pb_crc_check pb_network_parse pb_data with_network_parse with_crc_check builder_new].
  assert (H : okc (core_new data)) by (unfold okc, is_i32; cbn; lia).
  pose proof (t_replay B ho c (core_new data) H) as T.
  destruct (parse_replay B ho c NetNever (core_new data)) as [o s]. cbn [fst]. intros ->. apply T.
Qed.

Lemma files_typed c n data e : lenZ data < 2 ^ 31 -> parse_with B ho c n data = Err e -> typed_error e.
Proof.
  intros L E. destruct (net_policies B HB ho Hho data c L) as [(e0 & _ & He)|(r & _ & Hr & H)].
  - apply (never_typed c data). rewrite He in *. exact E.
  - assert (N : exists x, e = ENetworkError x).
    { destruct H as [(fs & Hf)|(e0 & H1 & H2)].
      - destruct n; [rewrite Hf in E by discriminate|rewrite Hr in E|rewrite Hf in E by discriminate]; discriminate.
      - destruct n; [|congruence|congruence]. rewrite H2 in E. injection E as <-. eauto. }
    destruct N as [x ->]. destruct (parse_err B HB ho Hho c n data x L E) as (_ & h & b & rest & F & X).
    pose proof (file_ready _ _ _ _ F) as R. destruct x as [| |st ob| | | |k]; cbn [typed_error]; try exact Logic.I; try destruct X.
    + destruct H0 as (p & after & E1 & -> & -> & _). pose proof (nr_caches _ _ R) as C. unfold net_cache_ok in C.
      assert (I : In p (flat_map nc_properties (b_net_cache (sec_value b)))) by (rewrite E1; apply in_or_app; right; now left).
      apply in_flat_map in I as (k & Ik & Ip). rewrite Forall_forall in C. specialize (C _ Ik). rewrite Forall_forall in C.
      destruct (C _ Ip). auto.
    + destruct H1 as [F1 _]. eapply (nr_frames _ _ R). unfold num_frames.
      apply find_prop_first in F1. rewrite F1. reflexivity.
Qed.
End Files.
