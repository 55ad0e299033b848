(** * The width of [usize]: header and body *)

From Coq Require Import ZArith List Bool Lia Znumtheory.
From Verif Require Import Base F32 Text NetTypes SegArray Errors Core Header Body BitReader
  NetModels Attributes Data ObjectIndex FrameDecoder Network Crc Parser SpecBasic SpecWidth Width
  CoreLogic RecordProofs.
Import ListNotations.
Open Scope Z_scope.

Section Width.
Context (w : Z) (W : 32 <= w <= 64).

(** ** Arithmetic *)

Lemma pow_w : 2 ^ 32 <= 2 ^ w /\ 2 ^ w * 2 ^ (64 - w) = 2 ^ 64.
Proof.
  split.
  - apply Z.pow_le_mono_r; lia.
  - rewrite <- Z.pow_add_r by lia. f_equal. lia.
Qed.

Lemma usize_narrow x : as_usize_w w x = as_usize x mod 2 ^ w.
Proof.
  unfold as_usize_w, as_usize. destruct pow_w as [P1 P2].
  apply Znumtheory.Zmod_div_mod; [lia|lia|].
  exists (2 ^ (64 - w)). lia.
Qed.

Lemma usize_small x : 0 <= x < 2 ^ 32 -> as_usize_w w x = as_usize x.
Proof.
  intros H. destruct pow_w. unfold as_usize_w, as_usize. rewrite !Z.mod_small; lia.
Qed.

Lemma usize_neg x : - 2 ^ 31 <= x < 0 -> 2 ^ 31 <= as_usize_w w x /\ 2 ^ 31 <= as_usize x.
Proof.
  intros H. destruct pow_w as [P _]. unfold as_usize_w, as_usize. split.
  - replace (x mod 2 ^ w) with (x + 2 ^ w); [lia|]. apply Z.mod_unique with (-1); lia.
  - Z.div_mod_to_equations. lia.
Qed.

(** equal, or both beyond every list *)
Lemma usize_cases x : is_i32 x ->
  (0 <= x /\ as_usize_w w x = x /\ as_usize x = x) \/ (2 ^ 31 <= as_usize_w w x /\ 2 ^ 31 <= as_usize x).
Proof.
  intros [H1 H2]. destruct (Z_lt_ge_dec x 0) as [L|L].
  - right. apply usize_neg. lia.
  - left. split; [lia|]. destruct pow_w. unfold as_usize_w, as_usize. rewrite !Z.mod_small; lia.
Qed.

Lemma as_i32_w x : as_i32 (as_usize_w w x) = as_i32 (as_usize x).
Proof.
  assert (H : forall n, 32 <= n -> (x mod 2 ^ n) mod 2 ^ 32 = x mod 2 ^ 32).
  { intros n Hn. symmetry. apply Znumtheory.Zmod_div_mod; [lia|lia|]. exists (2 ^ (n - 32)). rewrite <- Z.pow_add_r by lia. f_equal. lia. }
  unfold as_i32, to_signed, as_usize_w, as_usize. rewrite (H w), (H 64) by lia. reflexivity.
Qed.

Lemma split_at_large {A} n (l : list A) : lenZ l < n -> split_at n l = None.
Proof.
  revert n. induction l as [|x l IH]; intros n H; cbn [split_at].
  - unfold lenZ in H. cbn in H. destruct (Z.leb_spec n 0); [lia|reflexivity].
  - unfold lenZ in *. cbn [length] in H. destruct (Z.leb_spec n 0); [lia|]. rewrite IH by lia. reflexivity.
Qed.

Lemma getZ_large {A} n (l : list A) : lenZ l <= n -> getZ n l = None.
Proof.
  revert n. induction l as [|x l IH]; intros n H; cbn [getZ]; [reflexivity|].
  unfold lenZ in *. cbn [length] in H. destruct (Z.eqb_spec n 0); [lia|]. apply IH. lia.
Qed.

Lemma setZ_large {A} n (x : A) l : lenZ l <= n -> setZ n x l = None.
Proof.
  revert n. induction l as [|y l IH]; intros n H; cbn [setZ]; [reflexivity|].
  unfold lenZ in *. cbn [length] in H. destruct (Z.eqb_spec n 0); [lia|]. rewrite IH by lia. reflexivity.
Qed.

Lemma getZ_w {A} x (l : list A) : is_i32 x -> lenZ l <= 2 ^ 31 -> getZ (as_usize_w w x) l = getZ (as_usize x) l.
Proof.
  intros H L. destruct (usize_cases x H) as [(_ & E1 & E2)|[L1 L2]]; [congruence|].
  rewrite !getZ_large by lia. reflexivity.
Qed.

Lemma setZ_w {A} x (v : A) l : is_i32 x -> lenZ l <= 2 ^ 31 -> setZ (as_usize_w w x) v l = setZ (as_usize x) v l.
Proof.
  intros H L. destruct (usize_cases x H) as [(_ & E1 & E2)|[L1 L2]]; [congruence|].
  rewrite !setZ_large by lia. reflexivity.
Qed.

(** ** A logic: the second program is the first at width [w] *)

(** what is known of the network errors inside an error *)
Context (N : network_error -> Prop).

Fixpoint efine (e : parse_error) : Prop :=
  match e with
  | EParseError _ _ e => efine e
  | ECorruptReplay _ e => efine e
  | ENetworkError e => N e
  | EListTooLarge size => 25000 < size
  | _ => True
  end.

Definition fits (s : core) : Prop := lenZ (c_data s) < 2 ^ 31.

Definition nar {A} (P : A -> Prop) (m' m : parser A) : Prop := forall s, fits s ->
  m' s = (narrow_result w (fst (m s)), snd (m s)) /\ fits (snd (m s)) /\
  match fst (m s) with Ok a => P a | Err e => efine e | Panic _ => True end.

Lemma nar_weaken {A} (P Q : A -> Prop) m' m : nar P m' m -> (forall a, P a -> Q a) -> nar Q m' m.
Proof.
  intros H PQ s F. destruct (H s F) as (H1 & H2 & H3). split; [exact H1|]. split; [exact H2|].
  destruct (fst (m s)); auto.
Qed.

Lemma nar_bind {A C} (P : A -> Prop) (Q : C -> Prop) m' m (k' k : A -> parser C) :
  nar P m' m -> (forall a, P a -> nar Q (k' a) (k a)) -> nar Q (bind m' k') (bind m k).
Proof.
  intros H K s F. destruct (H s F) as (H1 & H2 & H3). unfold bind. rewrite H1.
  destruct (m s) as [[a|e|p] t]; cbn [fst snd narrow_result] in *.
  - apply K; assumption.
  - auto.
  - auto.
Qed.

Lemma nar_ret {A} (P : A -> Prop) a : P a -> nar P (ret a) (ret a).
Proof. intros H s F. cbn. auto. Qed.

Lemma nar_fmap {A C} (P : A -> Prop) (Q : C -> Prop) (f : A -> C) m' m :
  nar P m' m -> (forall a, P a -> Q (f a)) -> nar Q (fmap f m') (fmap f m).
Proof. intros H K. eapply nar_bind; [exact H|]. intros a Ha. apply nar_ret. auto. Qed.

Lemma nar_fail {A} (P : A -> Prop) e' e : e' = narrow_error w e -> efine e -> nar P (fail e') (fail e).
Proof. intros -> H s F. cbn. auto. Qed.

Lemma nar_panics {A} (P : A -> Prop) p : nar P (panics p) (panics p).
Proof. intros s F. cbn. auto. Qed.

Lemma nar_section {A} (P : A -> Prop) sec m' m : nar P m' m -> nar P (in_section sec m') (in_section sec m).
Proof.
  intros H s F. destruct (H s F) as (H1 & H2 & H3). unfold in_section, map_err. rewrite H1.
  destruct (m s) as [[a|e|p] t]; cbn [fst snd narrow_result narrow_error] in *; auto.
Qed.

(** taking [n] bytes, [n] the same or beyond the end *)
Lemma nar_take_gen n' n :
  n' = n \/ (2 ^ 31 <= n' /\ 2 ^ 31 <= n) -> as_i32 n' = as_i32 n ->
  nar (fun l => lenZ l < 2 ^ 31) (take_data n') (take_data n).
Proof.
  intros H E s F. unfold fits in F. unfold take_data.
  assert (E2 : split_at n' (c_data s) = split_at n (c_data s)).
  { destruct H as [->|[L1 L2]]; [reflexivity|]. rewrite !split_at_large by lia. reflexivity. }
  rewrite E2, E. pose proof (split_at_spec n (c_data s)) as S.
  destruct (split_at n (c_data s)) as [[h t]|].
  - destruct S as [Ed _]. apply (f_equal lenZ) in Ed. rewrite lenZ_app in Ed.
    pose proof (lenZ_nonneg h). pose proof (lenZ_nonneg t).
    destruct (fits_i32 (c_col s + as_i32 n)); cbn [fst snd narrow_result]; unfold fits; cbn [c_data];
      repeat split; auto; lia.
  - cbn. repeat split; auto.
Qed.

Lemma nar_take n : nar (fun l => lenZ l < 2 ^ 31) (take_data n) (take_data n).
Proof. apply nar_take_gen; auto. Qed.

Lemma nar_take_usize n : is_i32 n ->
  nar (fun l => lenZ l < 2 ^ 31) (take_data (as_usize_w w n)) (take_data (as_usize n)).
Proof.
  intros H. apply nar_take_gen; [|apply as_i32_w].
  destruct (usize_cases n H) as [(_ & E1 & E2)|[L1 L2]]; [left; congruence|right; auto].
Qed.

Lemma nar_view_usize n : is_i32 n -> nar (fun _ => True) (view_data (as_usize_w w n)) (view_data (as_usize n)).
Proof.
  intros H s F. unfold fits in F. unfold view_data. rewrite as_i32_w.
  assert (E : split_at (as_usize_w w n) (c_data s) = split_at (as_usize n) (c_data s)).
  { destruct (usize_cases n H) as [(_ & E1 & E2)|[L1 L2]]; [congruence|].
    rewrite !split_at_large by lia. reflexivity. }
  rewrite E. destruct (split_at (as_usize n) (c_data s)) as [[h t]|]; cbn; auto.
Qed.

Lemma nar_raw_i32 : nar is_i32 raw_i32 raw_i32.
Proof. eapply nar_fmap; [apply nar_take|]. intros l _. apply as_i32_range. Qed.

Lemma nar_raw_f32 : nar (fun _ => True) raw_f32 raw_f32.
Proof. eapply nar_fmap; [apply nar_take|]. auto. Qed.

Lemma nar_take_i32 sec : nar is_i32 (take_i32 sec) (take_i32 sec).
Proof. apply nar_section, nar_raw_i32. Qed.

Lemma nar_take_u32 sec : nar (fun _ => True) (take_u32 sec) (take_u32 sec).
Proof. apply nar_section. eapply nar_fmap; [apply nar_take|]. auto. Qed.

Lemma nar_repeat_n {A} (P : A -> Prop) f' f n : nar P f' f ->
  nar (fun l => Forall P l /\ length l = n) (repeat_n n f') (repeat_n n f).
Proof.
  intros H. induction n as [|n IH]; cbn [repeat_n].
  - apply nar_ret. auto.
  - eapply nar_bind; [exact H|]. intros x Hx. eapply nar_bind; [exact IH|]. intros xs [H1 H2].
    apply nar_ret. split; [now constructor|cbn; congruence].
Qed.

Lemma nar_repeat_of {A} (P : A -> Prop) f' f n : is_i32 n -> nar P f' f ->
  nar (fun l => Forall P l /\ lenZ l <= 25000) (repeat_of (as_usize_w w n) f') (repeat_of (as_usize n) f).
Proof.
  intros H Hf. unfold repeat_of. destruct (usize_cases n H) as [(L & E1 & E2)|[L1 L2]].
  - rewrite E1, E2. destruct (Z.ltb_spec 25000 n) as [L3|L3].
    + apply nar_fail; [|exact L3]. cbn [narrow_error]. destruct H. destruct pow_w. rewrite Z.mod_small by lia. reflexivity.
    + eapply nar_weaken; [apply nar_repeat_n, Hf|]. intros l [H1 H2]. split; [exact H1|]. unfold lenZ. lia.
  - destruct (Z.ltb_spec 25000 (as_usize_w w n)); [|lia]. destruct (Z.ltb_spec 25000 (as_usize n)); [|lia].
    apply nar_fail; [|cbn [efine]; lia]. cbn [narrow_error]. now rewrite usize_narrow.
Qed.

Lemma nar_list_of {A} (P : A -> Prop) f' f : nar P f' f ->
  nar (fun l => Forall P l /\ lenZ l <= 25000) (list_of_w w f') (list_of f).
Proof.
  intros H. eapply nar_bind; [apply nar_raw_i32|]. intros n Hn. apply nar_repeat_of; assumption.
Qed.

Lemma nar_str : nar (fun _ => True) (parse_str_w w) parse_str.
Proof.
  eapply nar_bind; [apply nar_raw_i32|]. intros n Hn. eapply nar_bind; [apply nar_take_usize, Hn|].
  intros d _. destruct (decode_str d); [apply nar_fail; [reflexivity|exact Logic.I]|now apply nar_ret].
Qed.

Lemma nar_text : nar (fun _ => True) (parse_text_w w) parse_text.
Proof.
  eapply nar_bind; [apply nar_raw_i32|]. intros n Hn.
  destruct (Z.leb_spec (-10000) n); [|apply nar_fail; [reflexivity|exact Logic.I]].
  destruct (Z.leb_spec n 10000); [|apply nar_fail; [reflexivity|exact Logic.I]]. cbn [andb negb].
  destruct (n <? 0); (eapply nar_bind; [apply nar_take_usize; unfold is_i32 in *; lia|]);
    intros d _; now apply nar_ret.
Qed.

Lemma nar_text_list : nar (fun l => lenZ l <= 25000) (text_list_w w) text_list.
Proof. eapply nar_weaken; [apply nar_list_of, nar_text|]. intros l [_ H]. exact H. Qed.

(** ** The header *)

Definition int_ok (p : header_prop) : Prop := forall x, p = HInt x -> is_i32 x.
Definition props_ok (f : props) : Prop := Forall (fun kv => int_ok (snd kv)) f.
Definition opt_ok (o : option header_prop) : Prop := match o with Some p => int_ok p | None => True end.

Lemma nar_bool d : nar opt_ok (fmap Some (bool_prop d)) (fmap Some (bool_prop d)).
Proof.
  eapply nar_fmap with (P := int_ok); [|auto]. unfold bool_prop. destruct d; [apply nar_panics|].
  apply nar_ret. intros x; discriminate.
Qed.

Ltac leaf := intros; apply nar_ret; cbn; try (intros ?; discriminate); auto.

Lemma nar_rdict fuel : forall mode, nar props_ok (parse_rdict_w w fuel mode) (parse_rdict fuel mode).
Proof.
  induction fuel as [|fuel IH]; intros mode; cbn [parse_rdict_w parse_rdict]; [apply nar_panics|].
  eapply nar_bind; [apply nar_str|]. intros key _. destruct (str_eqb key _); [apply nar_ret; constructor|].
  eapply nar_bind; [apply nar_str|]. intros kind _.
  eapply nar_bind; [apply nar_take_u32|]. intros _ _.
  eapply nar_bind; [apply nar_take|]. intros _ _.
  eapply nar_bind with (P := opt_ok).
  - destruct (str_eqb kind _).
    { destruct mode; (eapply nar_bind; [apply nar_take|]); intros d _; apply nar_bool. }
    destruct (str_eqb kind _).
    { destruct mode.
      - eapply nar_bind; [apply nar_str|]. intros k _. destruct (str_eqb k _).
        + eapply nar_bind; [apply nar_take|]. leaf.
        + eapply nar_bind; [apply nar_str|]. leaf.
      - eapply nar_fmap; [apply nar_text|]. intros a _ x; discriminate. }
    destruct (str_eqb kind _).
    { eapply nar_bind; [apply nar_take_i32|]. intros n Hn.
      eapply nar_bind; [apply (nar_repeat_of _ _ _ n Hn (IH mode))|]. leaf. }
    destruct (str_eqb kind _).
    { eapply nar_fmap; [apply nar_take|]. intros a _ x; discriminate. }
    destruct (str_eqb kind _).
    { eapply nar_fmap; [apply nar_take|]. intros a _ x [= <-]. apply as_i32_range. }
    destruct (str_eqb kind _).
    { eapply nar_fmap; [apply nar_take|]. intros a _ x; discriminate. }
    destruct (str_eqb kind _).
    { eapply nar_fmap; [apply nar_text|]. intros a _ x; discriminate. }
    destruct (str_eqb kind _).
    { eapply nar_fmap; [apply nar_text|]. intros a _ x; discriminate. }
    destruct (str_eqb kind _).
    { eapply nar_bind; [apply nar_str|]. intros name _. eapply nar_bind; [apply IH|]. leaf. }
    apply nar_fail; [reflexivity|exact Logic.I].
  - intros v Hv. eapply nar_bind; [apply IH|]. intros rest Hr. apply nar_ret.
    destruct v; [constructor; assumption|assumption].
Qed.

Definition header_ok (h : header) : Prop := props_ok (h_properties h).

Lemma nar_header : nar header_ok (parse_header_w w) parse_header.
Proof.
  eapply nar_bind; [apply nar_take_i32|]. intros major _.
  eapply nar_bind; [apply nar_take_i32|]. intros minor _.
  eapply nar_bind with (P := fun _ => True).
  { destruct (_ && _); [|now apply nar_ret]. eapply nar_fmap; [apply nar_take_i32|]. auto. }
  intros net _. eapply nar_bind; [apply nar_section, nar_text|]. intros game _.
  eapply nar_bind with (P := props_ok).
  { apply nar_section. intros s F. apply (nar_rdict (S (length (c_data s))) (mode_of major minor net) s F). }
  intros ps Hp. apply nar_ret. exact Hp.
Qed.

(** ** The body *)

Definition cache_prop_ok (x : cache_prop) : Prop := is_i32 (cp_object_ind x) /\ is_i32 (cp_stream_id x).
Definition body_ok (b : body) : Prop :=
  lenZ (b_objects b) <= 25000 /\ lenZ (b_network_data b) < 2 ^ 31 /\
  Forall (fun c => is_i32 (nc_object_ind c) /\ Forall cache_prop_ok (nc_properties c)) (b_net_cache b).

Lemma nar_body : nar body_ok (parse_body_w w) parse_body.
Proof.
  eapply nar_bind; [apply nar_section, nar_text_list|]. intros levels _.
  eapply nar_bind.
  { apply nar_section, nar_list_of with (P := fun _ => True).
    eapply nar_bind; [apply nar_raw_f32|]. intros t _. eapply nar_bind; [apply nar_raw_i32|]. intros f _.
    eapply nar_bind; [apply nar_raw_i32|]. leaf. }
  intros keyframes _. eapply nar_bind; [apply nar_take_i32|]. intros n Hn.
  eapply nar_bind; [apply nar_section, nar_take_usize, Hn|]. intros data Hd.
  eapply nar_bind.
  { apply nar_section, nar_list_of with (P := fun _ => True).
    eapply nar_bind; [apply nar_raw_i32|]. intros t _. eapply nar_bind; [apply nar_text|]. intros f _.
    eapply nar_bind; [apply nar_text|]. leaf. }
  intros infos _. eapply nar_bind.
  { apply nar_section, nar_list_of with (P := fun _ => True).
    eapply nar_bind; [apply nar_text|]. intros t _. eapply nar_bind; [apply nar_raw_i32|]. leaf. }
  intros ticks _. eapply nar_bind; [apply nar_section, nar_text_list|]. intros packages _.
  eapply nar_bind; [apply nar_section, nar_text_list|]. intros objects Ho.
  eapply nar_bind; [apply nar_section, nar_text_list|]. intros names _.
  eapply nar_bind.
  { apply nar_section, nar_list_of with (P := fun _ => True).
    eapply nar_bind; [apply nar_str|]. intros t _. eapply nar_bind; [apply nar_raw_i32|]. leaf. }
  intros indices _. eapply nar_bind.
  { apply nar_section, nar_list_of
      with (P := fun c => is_i32 (nc_object_ind c) /\ Forall cache_prop_ok (nc_properties c)).
    eapply nar_bind; [apply nar_raw_i32|]. intros o Hoi. eapply nar_bind; [apply nar_raw_i32|]. intros p _.
    eapply nar_bind; [apply nar_raw_i32|]. intros c _. eapply nar_bind.
    { apply nar_list_of with (P := cache_prop_ok). eapply nar_bind; [apply nar_raw_i32|]. intros i Hi.
      eapply nar_bind; [apply nar_raw_i32|]. intros st Hs. apply nar_ret. split; assumption. }
    intros ps [Hp _]. apply nar_ret. split; assumption. }
  intros caches [Hc _]. apply nar_ret. split; [exact Ho|]. split; assumption.
Qed.

(** ** Sections with a checksum *)

Lemma nar_crc {A} (P : A -> Prop) check data crc sec f' f : nar P f' f ->
  nar P (crc_section check data crc sec f') (crc_section check data crc sec f).
Proof.
  intros H s F. destruct (H s F) as (H1 & H2 & H3). unfold crc_section. rewrite H1.
  destruct (f s) as [[a|e|p] t]; cbn [fst snd narrow_result] in *; auto;
    destruct check; auto; destruct (negb (calc_crcZ data =? crc)); cbn; auto.
Qed.

End Width.
