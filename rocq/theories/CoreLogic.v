(** * Proof rules for the byte parser

    [bacc K m P]: on at most [K] unread bytes, the computation [m] accepts exactly
    the format [P], never panics, only moves forward, and its errors report the
    position where it stopped. *)

From Coq Require Import ZArith List Bool Lia ZifyBool ZifyNat.
From Verif Require Import Base Text F32 Errors Core Header SpecText TextProofs SpecFile.
Open Scope Z_scope.

(** Reachable states: the bytes read and unread are fewer than 2^31. *)
Definition cok (s : core) : Prop := 0 <= c_col s /\ c_col s + lenZ (c_data s) < 2 ^ 31.

Definition forward (s s' : core) : Prop :=
  exists pre, c_data s = pre ++ c_data s' /\ c_col s' = c_col s + lenZ pre.

(** Every offset in the error is where the parser stopped, the number of bytes
    left is what was left there, and fewer than asked for; no checksum or network
    errors. *)
Fixpoint err_at (s : core) (e : parse_error) : Prop :=
  match e with
  | EParseError _ off e' => off = c_col s /\ err_at s e'
  | EInsufficientData want n => n = lenZ (c_data s) /\ (want < 0 \/ n < want)
  | ECorruptReplay _ _ | ECrcMismatch _ _ | ENetworkError _ => False
  | _ => True
  end.

Definition bacc {A} (K : nat) (m : parser A) (P : form A) : Prop :=
  forall s, cok s -> (length (c_data s) <= K)%nat ->
    let '(o, s') := m s in
    forward s s' /\
    match o with
    | Ok v => forall v' rest', P (c_data s) v' rest' <-> v' = v /\ rest' = c_data s'
    | Err e => (forall v' rest', ~ P (c_data s) v' rest') /\ err_at s' e
    | Panic _ => False
    end.

Lemma lenZ_app {A} (a b : list A) : lenZ (a ++ b) = lenZ a + lenZ b.
Proof. unfold lenZ. rewrite app_length. lia. Qed.
Lemma lenZ_nonneg {A} (a : list A) : 0 <= lenZ a.
Proof. unfold lenZ. lia. Qed.

Lemma forward_refl s : forward s s.
Proof. exists []. split; [reflexivity|]. unfold lenZ; simpl; lia. Qed.
Lemma forward_trans a b c : forward a b -> forward b c -> forward a c.
Proof.
  intros (p & E1 & C1) (q & E2 & C2). exists (p ++ q). rewrite E1, E2, app_assoc, C2, C1, lenZ_app.
  split; [reflexivity|lia].
Qed.
Lemma forward_len s s' : forward s s' ->
  c_col s' + lenZ (c_data s') = c_col s + lenZ (c_data s) /\ c_col s <= c_col s' /\
  (length (c_data s') <= length (c_data s))%nat.
Proof.
  intros (p & E & C). rewrite E, lenZ_app, app_length, C. pose proof (lenZ_nonneg p). lia.
Qed.
Lemma forward_cok s s' : forward s s' -> cok s -> cok s'.
Proof. intros F [A B]. apply forward_len in F. unfold cok. lia. Qed.
#[global] Hint Resolve forward_refl forward_trans forward_cok : core.

Lemma bacc_mono {A} K K' (m : parser A) P : bacc K m P -> (K' <= K)%nat -> bacc K' m P.
Proof. intros H L s C Ls. apply H; auto. lia. Qed.

Lemma bacc_iff {A} K (m : parser A) P Q :
  bacc K m P -> (forall i v o, P i v o <-> Q i v o) -> bacc K m Q.
Proof.
  intros H HQ s C L. specialize (H s C L).
  destruct (m s) as [[v|e|p] s']; destruct H as (F & H); split; auto.
  - intros. rewrite <- HQ. auto.
  - destruct H as [H1 H2]. split; auto. intros. rewrite <- HQ. auto.
Qed.

Lemma bacc_ext {A} K (m m' : parser A) P :
  (forall s, cok s -> (length (c_data s) <= K)%nat -> m s = m' s) -> bacc K m' P -> bacc K m P.
Proof. intros E H s C L. rewrite E by auto. apply H; auto. Qed.

Lemma bacc_ret {A} K (a : A) : bacc K (ret a) (f_ret a).
Proof. intros s C L. cbn. split; auto. intros; reflexivity. Qed.

(** a failure without position *)
Definition plain (e : parse_error) : Prop :=
  match e with
  | EParseError _ _ _ | EInsufficientData _ _ | ECorruptReplay _ _ | ECrcMismatch _ _ | ENetworkError _ => False
  | _ => True
  end.
Lemma bacc_fail {A} K e : plain e -> @bacc A K (fail e) f_none.
Proof. intros H s C L. cbn. split; auto. split; [intros ? ? []|]. destruct e; cbn in *; tauto. Qed.

(** after the first part, at most [K'] bytes are left *)
Lemma bacc_bind_lt {A C} K K' (m : parser A) (k : A -> parser C) P Q :
  bacc K m P ->
  (forall i a o, P i a o -> (length i <= K)%nat -> (length o <= K')%nat) ->
  (forall i a o, P i a o -> (length i <= K)%nat -> bacc K' (k a) (Q a)) ->
  bacc K (bind m k) (f_bind P Q).
Proof.
  intros Hm HK Hk s Cs L. unfold bind. specialize (Hm s Cs L).
  destruct (m s) as [[a|e|p] s1]; destruct Hm as (F1 & Hm); [| |tauto].
  - assert (Pa : P (c_data s) a (c_data s1)) by (apply Hm; auto).
    specialize (Hk _ _ _ Pa L s1 (forward_cok _ _ F1 Cs) (HK _ _ _ Pa L)).
    destruct (k a s1) as [[c|e|p] s2]; destruct Hk as (F2 & Hk); [| |tauto]; split; eauto.
    + intros v' rest'. unfold f_bind. split.
      * intros (a' & mid & H1 & H2). apply Hm in H1 as [-> ->]. now apply Hk.
      * intros H. exists a, (c_data s1). split; [now apply Hm|now apply Hk].
    + destruct Hk as [Hk He]. split; auto.
      intros v' rest' (a' & mid & H1 & H2). apply Hm in H1 as [-> ->]. eapply Hk; eauto.
  - split; auto. destruct Hm as [Hm He]. split; auto.
    intros v' rest' (a' & mid & H1 & H2). eapply Hm; eauto.
Qed.

Definition shrinks {A} (P : form A) : Prop := forall i a o, P i a o -> (length o <= length i)%nat.

Lemma bacc_shrinks {A} K (m : parser A) P i a o : bacc K m P -> Z.of_nat (length i) < 2 ^ 31 ->
  (length i <= K)%nat -> P i a o -> (length o <= length i)%nat.
Proof.
  intros H L LK HP. specialize (H (mkCore i 0)). unfold cok in H. cbn in H. unfold lenZ in H.
  specialize (H ltac:(lia) LK). destruct (m (mkCore i 0)) as [[v|e|p] s1]; destruct H as (F & H).
  - apply H in HP as [-> ->]. apply forward_len in F. cbn in F. tauto.
  - destruct H as [H _]. exfalso. eapply H; eauto.
  - tauto.
Qed.

Lemma bacc_bind_val {A C} K (m : parser A) (k : A -> parser C) P Q :
  bacc K m P -> (forall i a o, P i a o -> bacc K (k a) (Q a)) -> bacc K (bind m k) (f_bind P Q).
Proof.
  intros Hm Hk s Cs L. unfold bind. specialize (Hm s Cs L).
  destruct (m s) as [[a|e|p] s1]; destruct Hm as (F1 & Hm); [| |tauto].
  - assert (Pa : P (c_data s) a (c_data s1)) by (apply Hm; auto).
    pose proof (forward_len _ _ F1) as FL.
    specialize (Hk _ _ _ Pa s1 (forward_cok _ _ F1 Cs) ltac:(lia)).
    destruct (k a s1) as [[c|e|p] s2]; destruct Hk as (F2 & Hk); [| |tauto]; split; eauto.
    + intros v' rest'. unfold f_bind. split.
      * intros (a' & mid & H1 & H2). apply Hm in H1 as [-> ->]. now apply Hk.
      * intros H. exists a, (c_data s1). split; [now apply Hm|now apply Hk].
    + destruct Hk as [Hk He]. split; auto.
      intros v' rest' (a' & mid & H1 & H2). apply Hm in H1 as [-> ->]. eapply Hk; eauto.
  - split; auto. destruct Hm as [Hm He]. split; auto.
    intros v' rest' (a' & mid & H1 & H2). eapply Hm; eauto.
Qed.

Lemma bacc_bind {A C} K (m : parser A) (k : A -> parser C) P Q :
  bacc K m P -> (forall a, bacc K (k a) (Q a)) -> bacc K (bind m k) (f_bind P Q).
Proof. intros H1 H2. apply bacc_bind_val; auto. Qed.

Lemma bacc_fmap {A C} K (f : A -> C) (m : parser A) P :
  bacc K m P -> bacc K (fmap f m) (f_such (fun a v => v = f a) P).
Proof.
  intros H. eapply bacc_iff; [apply bacc_bind; [exact H|intros; apply bacc_ret]|].
  intros i v o. unfold f_bind, f_such, f_ret. split.
  - intros (a & m' & H1 & -> & ->). eauto.
  - intros (a & H1 & ->). eauto 6.
Qed.

Lemma bacc_section {A} K sec (m : parser A) P : bacc K m P -> bacc K (in_section sec m) P.
Proof.
  intros H s C L. specialize (H s C L). unfold in_section, map_err.
  destruct (m s) as [[a|e|p] s']; auto. destruct H as (F & H1 & H2). split; auto. split; auto.
  cbn. auto.
Qed.

(** ** Primitive readers *)

Lemma split_at_spec {A} n (l : list A) :
  match split_at n l with
  | Some (h, t) => l = h ++ t /\ length h = Z.to_nat n
  | None => lenZ l < n
  end.
Proof.
  revert n. induction l as [|x l IH]; intros n; cbn [split_at]; destruct (Z.leb_spec n 0).
  - split; [reflexivity|]. cbn. lia.
  - unfold lenZ. cbn. lia.
  - split; [reflexivity|]. cbn. lia.
  - specialize (IH (n - 1)). destruct (split_at (n - 1) l) as [[h t]|].
    + destruct IH as [-> L]. split; [reflexivity|]. cbn [length]. lia.
    + unfold lenZ in *. cbn [length]. lia.
Qed.

Lemma to_signed_small x : - 2 ^ 31 <= x < 2 ^ 31 -> as_i32 x = x.
Proof.
  intros H. unfold as_i32, to_signed. change (32 - 1) with 31.
  destruct (Z.ltb_spec (x mod 2 ^ 32) (2 ^ 31)) as [L|L]; Z.div_mod_to_equations; lia.
Qed.

Lemma bytes_unique (a b c d : bytes) : length a = length c -> a ++ b = c ++ d -> a = c /\ b = d.
Proof.
  revert c. induction a as [|x a IH]; intros [|y c] L E; try discriminate L.
  - auto.
  - cbn in E. injection E as -> E. apply IH in E as [-> ->]; auto.
Qed.

Lemma bacc_take_data K n : 0 <= n < 2 ^ 31 -> bacc K (take_data n) (f_bytes (Z.to_nat n)).
Proof.
  intros Hn s [C1 C2] L. unfold take_data. pose proof (split_at_spec n (c_data s)) as S.
  destruct (split_at n (c_data s)) as [[h t]|].
  - destruct S as [E Lh].
    assert (lenZ h = n) by (unfold lenZ; lia).
    assert (lenZ (c_data s) = n + lenZ t) by (rewrite E, lenZ_app; lia).
    pose proof (lenZ_nonneg t).
    rewrite to_signed_small by lia.
    replace (fits_i32 (c_col s + n)) with true by (unfold fits_i32; lia).
    split.
    + exists h. cbn. split; [exact E|lia].
    + intros v' rest'. unfold f_bytes. cbn. rewrite E. split.
      * intros [L' E']. apply bytes_unique in E' as [-> ->]; auto. lia.
      * intros [-> ->]. auto.
  - split; auto. split.
    + intros v' rest' [L' E']. apply (f_equal lenZ) in E'. rewrite lenZ_app in E'.
      pose proof (lenZ_nonneg rest'). unfold lenZ in *. lia.
    + cbn. pose proof (lenZ_nonneg (c_data s)). rewrite (to_signed_small (lenZ _)) by lia. split; [reflexivity|].
      right. rewrite to_signed_small; lia.
Qed.

Lemma bacc_take K n : 0 <= n < 2 ^ 31 -> bacc K (take n) (f_bytes (Z.to_nat n)).
Proof. apply bacc_take_data. Qed.

Lemma as_i32_usize n : - 2 ^ 31 <= n < 2 ^ 31 -> as_i32 (as_usize n) = n.
Proof.
  intros H. unfold as_i32, to_signed, as_usize. change (32 - 1) with 31.
  destruct (Z.ltb_spec ((n mod 2 ^ 64) mod 2 ^ 32) (2 ^ 31)); Z.div_mod_to_equations; lia.
Qed.

(** a negative [i32] read as a size: the [usize] is larger than any file *)
Lemma bacc_take_neg K n : - 2 ^ 31 <= n < 0 -> bacc K (take_data (as_usize n)) f_none.
Proof.
  intros Hn s [C1 C2] L. unfold take_data. pose proof (split_at_spec (as_usize n) (c_data s)) as S.
  assert (E : as_usize n = n + 2 ^ 64) by (unfold as_usize; Z.div_mod_to_equations; lia).
  destruct (split_at (as_usize n) (c_data s)) as [[h t]|].
  - exfalso. destruct S as [E' Lh]. apply (f_equal lenZ) in E'. rewrite lenZ_app in E'.
    pose proof (lenZ_nonneg t). assert (lenZ h = as_usize n) by (unfold lenZ; lia). lia.
  - split; auto. split; [intros ? ? []|]. cbn. pose proof (lenZ_nonneg (c_data s)).
    rewrite (to_signed_small (lenZ _)) by lia. split; [reflexivity|]. left. rewrite as_i32_usize; lia.
Qed.
Lemma as_usize_nonneg n : 0 <= n < 2 ^ 64 -> as_usize n = n.
Proof. apply Z.mod_small. Qed.
Lemma bacc_take_i32 K n : - 2 ^ 31 <= n < 2 ^ 31 ->
  bacc K (take_data (as_usize n)) (if n <? 0 then f_none else f_bytes (Z.to_nat n)).
Proof.
  intros H. destruct (Z.ltb_spec n 0).
  - apply bacc_take_neg. lia.
  - rewrite as_usize_nonneg by lia. apply bacc_take_data. lia.
Qed.

(** ** Numbers *)

Lemma le_Z_range l : 0 <= le_Z l < 256 ^ lenZ l.
Proof.
  induction l as [|b l IH]; [unfold lenZ; cbn; lia|].
  replace (lenZ (b :: l)) with (1 + lenZ l) by (unfold lenZ; cbn [length]; lia).
  rewrite Z.pow_add_r by (unfold lenZ; lia). cbn [le_Z]. pose proof (byteZ_range b). lia.
Qed.
Lemma little_endian_le l : forall x, little_endian x l <-> le_Z l = x mod 256 ^ lenZ l.
Proof.
  induction l as [|b l IH]; intros x; cbn [little_endian le_Z].
  - unfold lenZ. cbn. rewrite Z.mod_1_r. tauto.
  - rewrite IH, is_byteZ.
    replace (lenZ (b :: l)) with (1 + lenZ l) by (unfold lenZ; cbn [length]; lia).
    rewrite Z.pow_add_r by (unfold lenZ; lia). change (256 ^ 1) with 256.
    pose proof (byteZ_range b). pose proof (le_Z_range l).
    rewrite Z.rem_mul_r by lia.
    pose proof (Z.mod_pos_bound x 256 ltac:(lia)).
    pose proof (Z.mod_pos_bound (x / 256) (256 ^ lenZ l) ltac:(lia)). lia.
Qed.

Lemma uint_le n l x : length l = n ->
  (0 <= x < 256 ^ Z.of_nat n /\ little_endian x l) <-> x = le_Z l.
Proof.
  intros L. rewrite little_endian_le. pose proof (le_Z_range l). unfold lenZ in *. rewrite L in *. split.
  - intros [H1 H2]. rewrite Z.mod_small in H2; auto.
  - intros ->. rewrite Z.mod_small; auto.
Qed.
Lemma i32_le l x : length l = 4%nat ->
  (- 2 ^ 31 <= x < 2 ^ 31 /\ little_endian x l) <-> x = as_i32 (le_Z l).
Proof.
  intros L. rewrite little_endian_le. pose proof (le_Z_range l) as R. unfold lenZ in *. rewrite L in *.
  change (256 ^ Z.of_nat 4) with (2 ^ 32) in *.
  unfold as_i32, to_signed. change (32 - 1) with 31. rewrite (Z.mod_small (le_Z l)) by exact R. split.
  - intros [H1 H2]. rewrite H2. destruct (Z.ltb_spec (x mod 2 ^ 32) (2 ^ 31)); Z.div_mod_to_equations; lia.
  - intros ->. destruct (Z.ltb_spec (le_Z l) (2 ^ 31)); Z.div_mod_to_equations; lia.
Qed.

Lemma bacc_uint K n : (n < 100)%nat -> bacc K (fmap le_Z (take (Z.of_nat n))) (f_uint n).
Proof.
  intros Hn. eapply bacc_iff; [apply bacc_fmap, bacc_take; lia|]. rewrite Nat2Z.id.
  intros i v o. unfold f_uint, f_such. split; intros (l & H1 & H2); exists l; (split; [exact H1|]);
    destruct H1 as [L _]; now apply (uint_le n l v L).
Qed.
Lemma bacc_u32 K : bacc K (fmap le_Z (take 4)) f_u32.
Proof. apply (bacc_uint K 4). lia. Qed.
Lemma bacc_raw_i32 K : bacc K raw_i32 f_i32.
Proof.
  unfold raw_i32. eapply bacc_iff; [apply bacc_fmap, bacc_take; lia|].
  intros i v o. unfold f_i32, f_such. split; intros (l & H1 & H2); exists l; (split; [exact H1|]);
    destruct H1 as [L _]; now apply (i32_le l v L).
Qed.
Lemma bacc_raw_f32 K : bacc K raw_f32 f_f32.
Proof. apply (bacc_uint K 4). lia. Qed.
Lemma bacc_i32 K sec : bacc K (take_i32 sec) f_i32.
Proof. apply bacc_section, bacc_raw_i32. Qed.
Lemma bacc_take_u32 K sec : bacc K (take_u32 sec) f_u32.
Proof. apply bacc_section, bacc_u32. Qed.

Lemma f_i32_range i n o : f_i32 i n o -> - 2 ^ 31 <= n < 2 ^ 31.
Proof. intros (l & _ & H & _). exact H. Qed.
Lemma f_i32_len i n o : f_i32 i n o -> length i = (4 + length o)%nat.
Proof. intros (l & [L ->] & _). rewrite app_length. lia. Qed.

(** ** Lists *)

Lemma bacc_repeat {A} K n (f : parser A) P : bacc K f P -> bacc K (repeat_n n f) (f_times n P).
Proof.
  intros H. induction n as [|n IH]; cbn [repeat_n f_times].
  - apply bacc_ret.
  - apply bacc_bind; auto. intros a. apply bacc_bind; auto. intros xs. apply bacc_ret.
Qed.
Lemma bacc_repeat_of {A} K n (f : parser A) P : - 2 ^ 31 <= n < 2 ^ 31 -> bacc K f P ->
  bacc K (repeat_of (as_usize n) f) (f_counted P n).
Proof.
  intros R H. unfold repeat_of, f_counted. destruct (Z.ltb_spec n 0).
  - assert (E : as_usize n = n + 2 ^ 64) by (unfold as_usize; Z.div_mod_to_equations; lia).
    rewrite E. replace (25000 <? n + 2 ^ 64) with true by lia. cbn [orb]. apply bacc_fail. exact I.
  - rewrite as_usize_nonneg by lia. cbn [orb]. destruct (25000 <? n); [apply bacc_fail; exact I|].
    apply bacc_repeat, H.
Qed.
Lemma bacc_list {A} K (f : parser A) P : bacc K f P -> bacc K (list_of f) (f_list P).
Proof.
  intros H. apply bacc_bind_val; [apply bacc_raw_i32|]. intros i n o Hn.
  apply bacc_repeat_of; auto. eapply f_i32_range; eauto.
Qed.

(** ** Texts *)

Lemma drop_last_1 l : drop_last 1 l = removelast l.
Proof. unfold drop_last. rewrite removelast_firstn_len. f_equal. lia. Qed.
Lemma drop_last_2 l : drop_last 2 l = removelast (removelast l).
Proof. unfold drop_last. rewrite !removelast_firstn_len, firstn_firstn, firstn_length. f_equal. lia. Qed.

Lemma bacc_str K : bacc K parse_str f_str.
Proof.
  apply bacc_bind_val; [apply bacc_raw_i32|]. intros i n o Hn. apply f_i32_range in Hn.
  eapply bacc_iff with (P := f_bind (if n <? 0 then f_none else f_bytes (Z.to_nat n))
     (fun l => f_such (fun l s => s = removelast l /\ valid_utf8 s) (f_ret l))).
  - apply bacc_bind; [apply bacc_take_i32, Hn|]. intros l s C L.
    unfold decode_str. rewrite drop_last_1.
    destruct (utf8_validate 0 (removelast l)) as [e|] eqn:V; cbn.
    + split; auto. split; auto. intros v' rest' (l' & [-> ->] & -> & H).
      apply (proj2 (validate_spec (removelast l) 0)) in H. congruence.
    + split; auto. intros v' rest'. apply validate_spec in V. unfold f_such, f_ret. split.
      * intros (l' & [-> ->] & -> & H). auto.
      * intros [-> ->]. exists l. auto.
  - intros i' v o'. destruct (n <? 0); unfold f_bind, f_such, f_ret, f_none.
    + split; [intros (a & m & [] & _)|intros []].
    + split.
      * intros (a & m & H1 & l & [-> ->] & H2). eauto.
      * intros (a & H1 & H2). eauto 8.
Qed.

Lemma bacc_text K : bacc K parse_text f_text.
Proof.
  apply bacc_bind_val; [apply bacc_raw_i32|]. intros i n o Hn. apply f_i32_range in Hn.
  replace (negb ((-10000 <=? n) && (n <=? 10000))) with ((n <? -10000) || (10000 <? n)) by lia.
  destruct ((n <? -10000) || (10000 <? n)) eqn:E; [apply bacc_fail; exact I|].
  destruct (Z.ltb_spec n 0).
  - eapply bacc_iff; [apply bacc_bind; [apply bacc_take_i32; lia|intros; apply bacc_ret]|].
    replace (n * -2 <? 0) with false by lia. replace (n * -2) with (2 * - n) by lia.
    intros i' v o'. unfold f_bind, f_such, f_ret, decode_utf16.
    assert (Ev : forall l : list byte, length l = Z.to_nat (2 * - n) ->
        Nat.Even (length (removelast (removelast l)))).
    { intros l Hl. rewrite <- drop_last_2. unfold drop_last. rewrite firstn_length.
      exists (Z.to_nat (- n) - 1)%nat. lia. }
    split.
    + intros (l & m & H1 & -> & ->). exists l. rewrite drop_last_2. split; auto.
      apply decode_utf16_spec; [apply Ev, H1|reflexivity].
    + intros (l & H1 & H2). exists l, o'. rewrite drop_last_2. split; [auto|].
      apply decode_utf16_spec in H2; [auto|apply Ev, H1].
  - eapply bacc_iff; [apply bacc_bind; [apply bacc_take_i32; lia|intros; apply bacc_ret]|].
    replace (n <? 0) with false by lia.
    intros i' v o'. unfold f_bind, f_such, f_ret, decode_windows1252. split.
    + intros (l & m & H1 & -> & ->). exists l. rewrite drop_last_1. split; auto.
      now apply decode_cp1252_spec.
    + intros (l & H1 & H2). exists l, o'. rewrite drop_last_1. split; auto.
      apply decode_cp1252_spec in H2. auto.
Qed.
