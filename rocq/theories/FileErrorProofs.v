(** * The parser reports exactly the specified errors *)

From Coq Require Import ZArith List Bool Lia ZifyBool ZifyNat.
From Verif Require Import Base Text F32 Crc NetTypes Errors Core Header Body BitReader ObjectIndex
  FrameDecoder Network Parser SpecText TextProofs SpecCrc CrcProofs SpecFile SpecReplay BasicProofs
  CoreLogic FormatProofs FileProofs SpecFileErrors Utf8Errors.
Open Scope Z_scope.

(** [xa K m X]: on at most [K] unread bytes, [m] fails exactly as [X] says. *)
Definition xa {A} (K : nat) (m : parser A) (X : faulty) : Prop :=
  forall s, cok s -> (length (c_data s) <= K)%nat ->
    match m s with
    | (Ok _, _) => forall t o, ~ X (c_data s) t o
    | (Err e, s') => exists t, e = report (c_col s' + lenZ (c_data s')) t (c_data s') /\
        forall t' o', X (c_data s) t' o' <-> t' = t /\ o' = c_data s'
    | (Panic _, _) => True
    end.

Lemma xa_iff {A} K (m : parser A) X Y : xa K m X -> (forall i t o, X i t o <-> Y i t o) -> xa K m Y.
Proof.
  intros H E s C L. specialize (H s C L). destruct (m s) as [[a|e|p] s']; auto.
  - intros t o. rewrite <- E. apply H.
  - destruct H as (t & H1 & H2). exists t. split; [exact H1|]. intros. rewrite <- E. apply H2.
Qed.

Lemma xa_ret {A} K (a : A) : xa K (ret a) x_none.
Proof. intros s C L. cbn. unfold x_none. tauto. Qed.

Lemma xa_fail {A} K c e : (forall o, report_cause c o = e) -> @xa A K (fail e) (x_now c).
Proof.
  intros E s C L. cbn. exists ([], c). unfold report. cbn [fst snd fold_right]. rewrite E. split; [reflexivity|].
  intros. reflexivity.
Qed.

Lemma xa_bind_lt {A C} K K' (m : parser A) (k : A -> parser C) P X Y :
  bacc K m P -> xa K m X ->
  (forall i a o, P i a o -> (length i <= K)%nat -> (length o <= K')%nat) ->
  (forall i a o, P i a o -> (length i <= K)%nat -> xa K' (k a) (Y a)) -> xa K (bind m k) (x_then P X Y).
Proof.
  intros Hm Xm HK Hk s Cs L. unfold bind. specialize (Hm s Cs L). specialize (Xm s Cs L).
  destruct (m s) as [[a|e|p] s1]; destruct Hm as (F1 & Hm); [| |tauto].
  - assert (Pa : P (c_data s) a (c_data s1)) by (apply Hm; auto).
    specialize (Hk _ _ _ Pa L s1 (forward_cok _ _ F1 Cs) (HK _ _ _ Pa L)).
    assert (E : forall t o, x_then P X Y (c_data s) t o <-> Y a (c_data s1) t o).
    { intros t o. unfold x_then. split.
      - intros [H|(a' & m' & H1 & H2)]; [destruct (Xm _ _ H)|]. apply Hm in H1 as [-> ->]. exact H2.
      - intros H. right. eauto. }
    destruct (k a s1) as [[c|e|p] s2]; auto.
    + intros t o. rewrite E. apply Hk.
    + destruct Hk as (t & H1 & H2). exists t. split; [exact H1|]. intros. rewrite E. apply H2.
  - destruct Xm as (t & H1 & H2). exists t. split; [exact H1|]. intros t' o'. unfold x_then. rewrite <- H2. split.
    + intros [H|(a' & m' & H3 & _)]; [exact H|]. destruct Hm as [Hm _]. destruct (Hm _ _ H3).
    + tauto.
Qed.
Lemma xa_bind_val {A C} K (m : parser A) (k : A -> parser C) P X Y :
  bacc K m P -> xa K m X -> (forall i a o, P i a o -> xa K (k a) (Y a)) -> xa K (bind m k) (x_then P X Y).
Proof.
  intros Hm Xm Hk s Cs L. pose proof (Hm s Cs L) as Hs. specialize (Xm s Cs L). unfold bind.
  destruct (m s) as [[a|e|p] s1]; destruct Hs as (F1 & Hs); [| |tauto].
  - assert (Pa : P (c_data s) a (c_data s1)) by (apply Hs; auto). pose proof (forward_len _ _ F1) as FL.
    specialize (Hk _ _ _ Pa s1 (forward_cok _ _ F1 Cs) ltac:(lia)).
    assert (E : forall t o, x_then P X Y (c_data s) t o <-> Y a (c_data s1) t o).
    { intros t o. unfold x_then. split.
      - intros [H|(a' & m' & H1 & H2)]; [destruct (Xm _ _ H)|]. apply Hs in H1 as [-> ->]. exact H2.
      - intros H. right. eauto. }
    destruct (k a s1) as [[c|e|p] s2]; auto.
    + intros t o. rewrite E. apply Hk.
    + destruct Hk as (t & H1 & H2). exists t. split; [exact H1|]. intros. rewrite E. apply H2.
  - destruct Xm as (t & H1 & H2). exists t. split; [exact H1|]. intros t' o'. unfold x_then. rewrite <- H2. split.
    + intros [H|(a' & m' & H3 & _)]; [exact H|]. destruct Hs as [Hs _]. destruct (Hs _ _ H3).
    + tauto.
Qed.
Lemma xa_bind {A C} K (m : parser A) (k : A -> parser C) P X Y :
  bacc K m P -> xa K m X -> (forall a, xa K (k a) (Y a)) -> xa K (bind m k) (x_then P X Y).
Proof. intros H1 H2 H3. apply xa_bind_val; auto. Qed.
Lemma xa_last {A C} K (m : parser A) (g : A -> C) X : xa K m X -> xa K (let* a := m in ret (g a)) X.
Proof. intros H s C0 L. specialize (H s C0 L). unfold bind. destruct (m s) as [[a|e|p] s1]; auto. Qed.
Lemma xa_fmap {A C} K (g : A -> C) (m : parser A) X : xa K m X -> xa K (fmap g m) X.
Proof. apply xa_last. Qed.

Lemma xa_section {A} K part (m : parser A) X : xa K m X -> xa K (in_section part m) (x_in part X).
Proof.
  intros H s C L. specialize (H s C L). unfold in_section, map_err. destruct (m s) as [[a|e|p] s']; auto.
  - intros t o (ps & c & H1 & _). exact (H _ _ H1).
  - destruct H as ([ps c] & H1 & H2). exists (part :: ps, c). split.
    + rewrite H1. unfold report. cbn [fst snd fold_right]. f_equal. unfold lenZ. lia.
    + intros t' o'. unfold x_in. split.
      * intros (ps' & c' & H3 & ->). apply H2 in H3 as [[= -> ->] ->]. auto.
      * intros [-> ->]. exists ps, c. split; [now apply H2|reflexivity].
Qed.

(** ** Primitive readers *)

Lemma cut_report want (s : core) : report (c_col s + lenZ (c_data s)) ([], Cut want) (c_data s) =
  EInsufficientData want (lenZ (c_data s)).
Proof. reflexivity. Qed.
Lemma cut_now n i : n < 0 \/ lenZ i < n -> forall t' o', x_cut n i t' o' <-> t' = ([], Cut n) /\ o' = i.
Proof. intros H t' o'. unfold x_cut, x_now, lenZ in *. tauto. Qed.
Lemma cut_not n i : 0 <= n <= lenZ i -> forall t o, ~ x_cut n i t o.
Proof. intros H t o [K _]. unfold lenZ in *. lia. Qed.

Lemma split_some {A} n (l h t : list A) : 0 <= n -> split_at n l = Some (h, t) -> n <= lenZ l.
Proof.
  intros P E. pose proof (split_at_spec n l) as S. rewrite E in S. destruct S as [-> L]. rewrite lenZ_app.
  pose proof (lenZ_nonneg t). unfold lenZ in *. lia.
Qed.
Lemma usize_cases n : - 2 ^ 31 <= n < 2 ^ 31 -> 0 <= as_usize n /\ (n < 0 \/ as_usize n = n) /\ (n < 0 -> 2 ^ 32 <= as_usize n).
Proof. intros H. unfold as_usize. destruct (Z.ltb_spec n 0); Z.div_mod_to_equations; lia. Qed.

Lemma xa_take_i32 K n : - 2 ^ 31 <= n < 2 ^ 31 -> xa K (take_data (as_usize n)) (x_cut n).
Proof.
  intros R s [C1 C2] L. unfold take_data. pose proof (usize_cases n R) as (U1 & U2 & U3).
  destruct (split_at (as_usize n) (c_data s)) as [[h t]|] eqn:E.
  - apply split_some in E; [|exact U1]. pose proof (lenZ_nonneg (c_data s)).
    destruct (fits_i32 _); auto. apply cut_not. lia.
  - pose proof (split_at_spec (as_usize n) (c_data s)) as S. rewrite E in S. pose proof (lenZ_nonneg (c_data s)).
    exists ([], Cut n). rewrite cut_report, as_i32_usize, to_signed_small by lia. split; [reflexivity|]. apply cut_now. lia.
Qed.
Lemma xa_take K n : 0 <= n < 2 ^ 31 -> xa K (take_data n) (x_cut n).
Proof. intros H. pose proof (xa_take_i32 K n ltac:(lia)) as X. rewrite as_usize_nonneg in X by lia. exact X. Qed.
Lemma xa_view K n : - 2 ^ 31 <= n < 2 ^ 31 -> xa K (view_data (as_usize n)) (x_cut n).
Proof.
  intros R s [C1 C2] L. unfold view_data. pose proof (usize_cases n R) as (U1 & U2 & U3).
  destruct (split_at (as_usize n) (c_data s)) as [[h t]|] eqn:E.
  - apply split_some in E; [|exact U1]. pose proof (lenZ_nonneg (c_data s)). apply cut_not. lia.
  - pose proof (split_at_spec (as_usize n) (c_data s)) as S. rewrite E in S. pose proof (lenZ_nonneg (c_data s)).
    exists ([], Cut n). rewrite cut_report, as_i32_usize, to_signed_small by lia. split; [reflexivity|]. apply cut_now. lia.
Qed.
Lemma xa_raw_i32 K : xa K raw_i32 x_i32.
Proof. apply xa_fmap, xa_take. lia. Qed.
Lemma xa_raw_f32 K : xa K raw_f32 (x_cut 4).
Proof. apply xa_fmap, xa_take. lia. Qed.
Lemma xa_i32 K part : xa K (take_i32 part) (x_in part x_i32).
Proof. apply xa_section, xa_raw_i32. Qed.
Lemma xa_u32 K part : xa K (take_u32 part) (x_in part (x_cut 4)).
Proof. apply xa_section, xa_fmap, xa_take. lia. Qed.

(** ** Lists *)

Lemma times_S {A} n (P : form A) X i t o :
  x_times (S n) P X i t o <-> x_then P X (fun _ => x_times n P X) i t o.
Proof.
  unfold x_then, x_times. split.
  - intros ([|k] & l & m & L & H1 & H2).
    + left. destruct H1 as [_ ->]. exact H2.
    + right. destruct H1 as (a & m1 & H1 & l' & m2 & H3 & _ & ->). exists a, m1. split; [exact H1|].
      exists k, l', m2. split; [lia|auto].
  - intros [H|(a & m & H & k & l & m' & L & H1 & H2)].
    + exists 0%nat, [], i. split; [lia|]. split; [split; reflexivity|exact H].
    + exists (S k), (a :: l), m'. split; [lia|]. split; [|exact H2].
      exists a, m. split; [exact H|]. exists l, m'. split; [exact H1|split; reflexivity].
Qed.
Lemma xa_repeat {A} K n (f : parser A) P X : bacc K f P -> xa K f X -> xa K (repeat_n n f) (x_times n P X).
Proof.
  intros HP HX. induction n as [|n IH]; cbn [repeat_n].
  - eapply xa_iff; [apply xa_ret|]. intros i t o. unfold x_none, x_times. split; [tauto|].
    intros (k & l & m & K0 & _). lia.
  - eapply xa_iff; [|intros; symmetry; apply times_S]. apply xa_bind; [exact HP|exact HX|]. intros a.
    apply xa_last, IH.
Qed.
Lemma xa_repeat_of {A} K n (f : parser A) P X : - 2 ^ 31 <= n < 2 ^ 31 -> bacc K f P -> xa K f X ->
  xa K (repeat_of (as_usize n) f) (x_counted P X n).
Proof.
  intros R HP HX. unfold repeat_of, x_counted. destruct (Z.ltb_spec n 0).
  - assert (E : as_usize n = n + 2 ^ 64) by (unfold as_usize; Z.div_mod_to_equations; lia).
    rewrite E. replace (25000 <? n + 2 ^ 64) with true by lia. cbn [orb]. apply xa_fail. intros o.
    cbn [report_cause]. now replace (n <? 0) with true by lia.
  - rewrite as_usize_nonneg by lia. cbn [orb]. destruct (25000 <? n).
    + apply xa_fail. intros o. cbn [report_cause]. now replace (n <? 0) with false by lia.
    + now apply xa_repeat.
Qed.
Lemma xa_list {A} K (f : parser A) P X : bacc K f P -> xa K f X -> xa K (list_of f) (x_list P X).
Proof.
  intros HP HX. apply xa_bind_val; [apply bacc_raw_i32|apply xa_raw_i32|]. intros i n o Hn.
  apply xa_repeat_of; auto. eapply f_i32_range; eauto.
Qed.

(** ** Texts *)

Lemma xa_str K : xa K parse_str x_str.
Proof.
  apply xa_bind_val; [apply bacc_raw_i32|apply xa_raw_i32|]. intros i n o Hn. apply f_i32_range in Hn.
  apply xa_bind; [apply bacc_take_i32, Hn|apply xa_take_i32, Hn|]. intros l s C L.
  unfold decode_str. rewrite drop_last_1. destruct (utf8_validate 0 (removelast l)) as [e|] eqn:V; cbn.
  - exists ([], BadUtf8 e). split; [reflexivity|]. intros t' o'. unfold x_now. split.
    + intros (e' & H & -> & ->). apply broken_spec in H. rewrite V in H. now injection H as <-.
    + intros [-> ->]. exists e. split; [now apply broken_spec|auto].
  - intros t o0 (e & H & _). apply broken_spec in H. congruence.
Qed.
Lemma xa_text K : xa K parse_text x_text.
Proof.
  apply xa_bind_val; [apply bacc_raw_i32|apply xa_raw_i32|]. intros i n o Hn. apply f_i32_range in Hn.
  replace (negb ((-10000 <=? n) && (n <=? 10000))) with ((n <? -10000) || (10000 <? n)) by lia.
  destruct ((n <? -10000) || (10000 <? n)) eqn:E; [apply xa_fail; reflexivity|].
  destruct (Z.ltb_spec n 0).
  - apply xa_last. replace (2 * - n) with (n * -2) by lia. apply xa_take_i32. lia.
  - apply xa_last, xa_take_i32. lia.
Qed.

(** ** Properties *)

Definition gx_value (q : bool) (P : form props) (X : faulty) (kind : str) : faulty :=
  if str_eqb kind (lit "BoolProperty") then x_cut (if q then 4 else 1)
  else if str_eqb kind (lit "ByteProperty") then
    if q then x_text
    else x_then f_str x_str (fun k => if str_eqb k (lit "None") then x_cut 1 else x_str)
  else if str_eqb kind (lit "ArrayProperty") then
    x_then f_i32 (x_in "array property size" x_i32) (x_counted P X)
  else if str_eqb kind (lit "FloatProperty") then x_cut 4
  else if str_eqb kind (lit "IntProperty") then x_cut 4
  else if str_eqb kind (lit "QWordProperty") then x_cut 8
  else if str_eqb kind (lit "NameProperty") then x_text
  else if str_eqb kind (lit "StrProperty") then x_text
  else if str_eqb kind (lit "StructProperty") then x_then f_str x_str (fun _ => X)
  else x_now (UnknownKind kind).

Definition gx_props (q : bool) (P : form props) (X : faulty) : faulty :=
  x_then f_str x_str (fun key =>
    if str_eqb key (lit "None") then x_none
    else x_then f_str x_str (fun kind =>
      x_then f_u32 (x_in "property size" (x_cut 4)) (fun _ =>
      x_then (f_bytes 4) (x_cut 4) (fun _ =>
      x_then (g_value q P kind) (gx_value q P X kind) (fun _ => X))))).

Lemma gx_value_spec q kind i t o : gx_value q (f_props q) (x_props q) kind i t o <-> x_value q kind i t o.
Proof.
  unfold gx_value. split.
  - destruct (str_eqbP kind (lit "BoolProperty")) as [->|N1]; [apply xv_bool|].
    destruct (str_eqbP kind (lit "ByteProperty")) as [->|N2].
    { destruct q eqn:Q; [intros H; now apply xv_enum_quirk|].
      intros [H|(k & m & H1 & H2)]; [now apply xv_enum|]. destruct (str_eqbP k (lit "None")) as [->|Nk].
      - eapply xv_enum_none; eauto.
      - eapply xv_enum_value; eauto. }
    destruct (str_eqbP kind (lit "ArrayProperty")) as [->|N3].
    { intros [H|(n & m & H1 & H2)]; [now apply xv_rows|]. unfold x_counted in H2.
      destruct ((n <? 0) || (25000 <? n)) eqn:E.
      - eapply xv_rows_long; eauto. lia.
      - destruct H2 as (k & l & m' & L & H2 & H3). apply rows_times in H2. eapply xv_row; eauto; lia. }
    destruct (str_eqbP kind (lit "FloatProperty")) as [->|N4]; [apply xv_float|].
    destruct (str_eqbP kind (lit "IntProperty")) as [->|N5]; [apply xv_int|].
    destruct (str_eqbP kind (lit "QWordProperty")) as [->|N6]; [apply xv_qword|].
    destruct (str_eqbP kind (lit "NameProperty")) as [->|N7]; [apply xv_name|].
    destruct (str_eqbP kind (lit "StrProperty")) as [->|N8]; [apply xv_str|].
    destruct (str_eqbP kind (lit "StructProperty")) as [->|N9].
    { intros [H|(name & m & H1 & H2)]; [now apply xv_struct|]. eapply xv_fields; eauto. }
    intros H. apply xv_unknown; [|exact H]. unfold kinds. cbn [map In].
    intros [K|[K|[K|[K|[K|[K|[K|[K|[K|[]]]]]]]]]]; congruence.
  - intros H. destruct H as [i t o H|i t o Q H|i m t o Q H1 H2|i kind m t o Q H1 N H2|i t o Q H|i t o H
      |i n m t o H1 N H2|i n m k rows m' t o H1 N1 N2 H2 H3|i t o H|i t o H|i t o H|i t o H|i t o H|i t o H
      |i name m t o H1 H2|kind i t o N H]; cbn [str_eqb lit list_byte_of_string]; rewrite ?str_eqb_refl;
      try (subst q); try exact H.
    + left. exact H.
    + right. exists (lit "None"), m. split; [exact H1|]. rewrite str_eqb_refl. exact H2.
    + right. exists kind, m. split; [exact H1|]. rewrite neqb by exact N. exact H2.
    + left. exact H.
    + right. exists n, m. split; [exact H1|]. unfold x_counted. replace ((n <? 0) || (25000 <? n)) with true by lia. exact H2.
    + right. exists n, m. split; [exact H1|]. unfold x_counted. replace ((n <? 0) || (25000 <? n)) with false by lia.
      exists k, rows, m'. split; [lia|]. split; [now apply rows_times|exact H3].
    + left. exact H.
    + right. exists name, m. auto.
    + unfold kinds in N. cbn [map In] in N.
      repeat match goal with |- context [str_eqb kind ?x] => rewrite (neqb kind x) by (intros ->; tauto) end. exact H.
Qed.

Lemma u32_bytes i o : (exists x, f_u32 i x o) <-> exists l, f_bytes 4 i l o.
Proof.
  split.
  - intros (x & l & H & _). eauto.
  - intros (l & H). exists (le_Z l). apply uint_such. eauto.
Qed.
Lemma bytes_8_split i o : (exists x m y, f_u32 i x m /\ f_bytes 4 m y o) <-> exists l, f_bytes 8 i l o.
Proof.
  split.
  - intros (x & m & y & H1 & H2). assert (K : exists x, f_u32 i x m) by eauto. apply u32_bytes in K as (l & L & ->).
    destruct H2 as [L2 ->]. exists (l ++ y). split; [rewrite app_length; lia|now rewrite app_assoc].
  - intros (l & L & ->).
    assert (K : exists x, f_u32 (l ++ o) x (skipn 4 l ++ o)).
    { apply u32_bytes. exists (firstn 4 l). split; [rewrite firstn_length; lia|now rewrite app_assoc, firstn_skipn]. }
    destruct K as (x & K). exists x, (skipn 4 l ++ o), (skipn 4 l). split; [exact K|].
    split; [rewrite skipn_length; lia|reflexivity].
Qed.

Lemma x_props_unfold q i t o : x_props q i t o <-> gx_props q (f_props q) (x_props q) i t o.
Proof.
  assert (EN : forall i kind m, opens i kind m -> exists key m1 m2 x m3 y, f_str i key m1 /\ str_eqb key (lit "None") = false /\
    f_str m1 kind m2 /\ f_u32 m2 x m3 /\ f_bytes 4 m3 y m).
  { intros i' kind m (key & m1 & m2 & l & H1 & N & H2 & H3).
    destruct (proj2 (bytes_8_split m2 m) (ex_intro _ l H3)) as (x & m3 & y & H4 & H5).
    exists key, m1, m2, x, m3, y. rewrite neqb by exact N. auto. }
  unfold gx_props. split.
  - intros H. destruct H as [i t o H|i key m t o H1 N H2|i key m1 kind m2 t o H1 N H2 H3
      |i key m1 kind m2 size m3 t o H1 N H2 H3 H4|i kind m t o H1 H2|i kind m v m' t o H1 H2 H3
      |i m m1 b m2 t o Q H1 H2 H3 H4].
    + left. exact H.
    + right. exists key, m. split; [exact H1|]. rewrite neqb by exact N. left. exact H2.
    + right. exists key, m1. split; [exact H1|]. rewrite neqb by exact N. right. exists kind, m2. split; [exact H2|]. left. exact H3.
    + right. exists key, m1. split; [exact H1|]. rewrite neqb by exact N. right. exists kind, m2. split; [exact H2|].
      right. destruct (proj2 (u32_bytes m2 m3) (ex_intro _ size H3)) as (x & K). exists x, m3. split; [exact K|]. left. exact H4.
    + apply EN in H1 as (key & m1 & m2 & x & m3 & y & A1 & N & A2 & A3 & A4).
      right. exists key, m1. split; [exact A1|]. rewrite N. right. exists kind, m2. split; [exact A2|].
      right. exists x, m3. split; [exact A3|]. right. exists y, m. split; [exact A4|]. left. now apply gx_value_spec.
    + apply EN in H1 as (key & m1 & m2 & x & m3 & y & A1 & N & A2 & A3 & A4).
      right. exists key, m1. split; [exact A1|]. rewrite N. right. exists kind, m2. split; [exact A2|].
      right. exists x, m3. split; [exact A3|]. right. exists y, m. split; [exact A4|].
      right. exists (Some v), m'. split; [now apply g_value_some|exact H3].
    + apply EN in H1 as (key & m3 & m4 & x & m5 & y & A1 & N & A2 & A3 & A4).
      right. exists key, m3. split; [exact A1|]. rewrite N. right. exists (lit "ByteProperty"), m4. split; [exact A2|].
      right. exists x, m5. split; [exact A3|]. right. exists y, m. split; [exact A4|].
      right. exists None, m2. split; [apply g_value_none; eauto 8|exact H4].
  - intros [H|(key & m1 & H1 & H)]; [now apply xp_key|]. destruct (str_eqbP key (lit "None")) as [->|Nk]; [destruct H|].
    destruct H as [H|(kind & m2 & H2 & H)]; [eapply xp_kind; eauto|].
    destruct H as [H|(x & m3 & H3 & H)]; [eapply xp_size; eauto|].
    destruct (proj1 (u32_bytes m2 m3) (ex_intro _ x H3)) as (sz & H3').
    destruct H as [H|(y & m4 & H4 & H)]; [eapply xp_ignored; eauto|].
    assert (E : opens i kind m4).
    { destruct (proj1 (bytes_8_split m2 m4) ltac:(eauto)) as (l & K). exists key, m1, m2, l. auto. }
    destruct H as [H|([p|] & m5 & H5 & H)].
    + eapply xp_value; [exact E|]. now apply gx_value_spec.
    + apply g_value_some in H5. eapply xp_later; eauto.
    + apply g_value_none in H5 as (Hq & -> & m & b & H5 & H6). eapply xp_after_dropped; eauto.
Qed.

(** the part of [parse_rdict] that reads a value *)
Lemma xa_rdict mode : forall fuel K, (K < fuel)%nat ->
  xa K (parse_rdict fuel mode) (x_props (quirky mode)).
Proof.
  induction fuel as [|fuel IH]; intros K HK; [lia|].
  eapply xa_iff; [|intros; symmetry; apply x_props_unfold]. unfold gx_props. cbn [parse_rdict].
  eapply xa_bind_lt with (K' := (K - 4)%nat); [apply bacc_str|apply xa_str| |].
  { intros i a o H L. apply f_str_len in H. lia. }
  intros i key o Hk Li. apply f_str_len in Hk.
  assert (HR : xa (K - 4) (parse_rdict fuel mode) (x_props (quirky mode))) by (apply IH; lia).
  assert (HP : bacc (K - 4) (parse_rdict fuel mode) (f_props (quirky mode))) by (apply bacc_rdict; lia).
  clear IH i o Hk Li. set (J := (K - 4)%nat) in *.
  destruct (str_eqb key (lit "None")); [apply xa_ret|].
  apply xa_bind; [apply bacc_str|apply xa_str|]. intros kind.
  apply xa_bind; [apply bacc_take_u32|apply xa_u32|]. intros _.
  apply xa_bind; [apply (bacc_take_data J 4); lia|apply xa_take; lia|]. intros _.
  apply xa_bind; [| |intros v; apply xa_last, HR].
  { unfold g_value.
  destruct (str_eqb kind (lit "BoolProperty")).
  { destruct mode; [apply (bacc_bool J false)|apply (bacc_bool J true)]. }
  destruct (str_eqb kind (lit "ByteProperty")).
  { destruct mode; cbn [quirky].
    - apply bacc_bind; [apply bacc_str|]. intros k. destruct (str_eqb k (lit "None")).
      + apply bacc_bind; [apply (bacc_take_data J 1); lia|]. intros. apply bacc_ret.
      + apply bacc_bind; [apply bacc_str|]. intros. apply bacc_ret.
    - apply bacc_fmap, bacc_text. }
  destruct (str_eqb kind (lit "ArrayProperty")).
  { apply bacc_bind_val; [apply bacc_i32|]. intros i n o Hn. apply f_i32_range in Hn.
    apply bacc_bind; [apply bacc_repeat_of; auto|]. intros. apply bacc_ret. }
  destruct (str_eqb kind (lit "FloatProperty")).
  { apply (bacc_fmap_such J le_Z (fun x => Some (HFloat x)) _ (f_bytes 4)); [apply (bacc_take J 4); lia|apply uint_such]. }
  destruct (str_eqb kind (lit "IntProperty")).
  { apply (bacc_fmap_such J (fun l => as_i32 (le_Z l)) (fun x => Some (HInt x)) _ (f_bytes 4));
      [apply (bacc_take J 4); lia|apply i32_such]. }
  destruct (str_eqb kind (lit "QWordProperty")).
  { apply (bacc_fmap_such J le_Z (fun x => Some (HQWord x)) _ (f_bytes 8)); [apply (bacc_take J 8); lia|apply uint_such]. }
  destruct (str_eqb kind (lit "NameProperty")); [apply bacc_fmap, bacc_text|].
  destruct (str_eqb kind (lit "StrProperty")); [apply bacc_fmap, bacc_text|].
  destruct (str_eqb kind (lit "StructProperty")).
  { apply bacc_bind; [apply bacc_str|]. intros name. apply bacc_bind; [exact HP|]. intros. apply bacc_ret. }
  apply bacc_fail. exact I. }
  unfold gx_value.
  destruct (str_eqb kind (lit "BoolProperty")).
  { assert (BP : forall n, (n = 1 \/ n = 4) -> xa J (let* d := take_data n in fmap Some (bool_prop d)) (x_cut n)).
    { intros n Hn s C L. pose proof (xa_take J n ltac:(lia) s C L) as X.
      pose proof (bacc_take_data J n ltac:(lia) s C L) as B. unfold bind.
      destruct (take_data n s) as [[d|e|p] s1]; auto. destruct d as [|b d]; [|exact X].
      exfalso. destruct B as [_ B]. destruct (proj2 (B _ _) (conj eq_refl eq_refl)) as [L0 _]. cbn in L0. lia. }
    destruct mode; apply BP; auto. }
  destruct (str_eqb kind (lit "ByteProperty")).
  { destruct mode; cbn [quirky].
    - apply xa_bind; [apply bacc_str|apply xa_str|]. intros k. destruct (str_eqb k (lit "None")).
      + apply (xa_last J (take_data 1) (fun _ => None)), xa_take. lia.
      + apply xa_last, xa_str.
    - apply xa_fmap, xa_text. }
  destruct (str_eqb kind (lit "ArrayProperty")).
  { apply xa_bind_val; [apply bacc_i32|apply xa_i32|]. intros i n o Hn. apply f_i32_range in Hn.
    apply xa_last, xa_repeat_of; auto. }
  destruct (str_eqb kind (lit "FloatProperty")); [apply xa_fmap, xa_take; lia|].
  destruct (str_eqb kind (lit "IntProperty")); [apply xa_fmap, xa_take; lia|].
  destruct (str_eqb kind (lit "QWordProperty")); [apply xa_fmap, xa_take; lia|].
  destruct (str_eqb kind (lit "NameProperty")); [apply xa_fmap, xa_text|].
  destruct (str_eqb kind (lit "StrProperty")); [apply xa_fmap, xa_text|].
  destruct (str_eqb kind (lit "StructProperty")).
  { apply xa_bind; [apply bacc_str|apply xa_str|]. intros name. apply xa_last, HR. }
  apply xa_fail. reflexivity.
Qed.

Lemma xa_header K : xa K parse_header x_header.
Proof.
  unfold parse_header, x_header.
  apply xa_bind; [apply bacc_i32|apply xa_i32|]. intros major.
  apply xa_bind; [apply bacc_i32|apply xa_i32|]. intros minor.
  apply xa_bind_val.
  { destruct ((865 <? major) && (17 <? minor)); [|apply bacc_ret]. apply bacc_fmap, bacc_i32. }
  { destruct ((865 <? major) && (17 <? minor)); [|apply xa_ret]. apply xa_fmap, xa_i32. }
  intros i net o Hnet.
  assert (Hm : quirky (mode_of major minor net) = (major =? 0) && (minor =? 0)).
  { unfold mode_of. destruct ((865 <? major) && (17 <? minor)) eqn:E.
    - destruct Hnet as (n & _ & ->). cbn. lia.
    - destruct Hnet as [-> _]. destruct ((major =? 0) && (minor =? 0)); reflexivity. }
  clear i o Hnet. apply xa_bind; [apply bacc_section, bacc_text|apply xa_section, xa_text|]. intros game.
  apply xa_last, xa_section. rewrite <- Hm. intros s C L.
  apply (xa_rdict _ _ (length (c_data s))); auto.
Qed.

Lemma xa_body K : xa K parse_body x_body.
Proof.
  unfold parse_body, x_body.
  assert (TL : bacc K text_list (f_list f_text)) by apply bacc_list, bacc_text.
  assert (TX : xa K text_list (x_list f_text x_text)) by apply (xa_list K _ _ _ (bacc_text K)), xa_text.
  apply xa_bind; [apply bacc_section, TL|apply xa_section, TX|]. intros levels.
  assert (BK : bacc K (let* t := raw_f32 in let* f := raw_i32 in let* p := raw_i32 in ret (mkKeyFrame t f p)) f_keyframe).
  { apply bacc_bind; [apply bacc_raw_f32|]. intros t.
    apply bacc_bind; [apply bacc_raw_i32|]. intros f. apply bacc_bind; [apply bacc_raw_i32|]. intros p. apply bacc_ret. }
  apply xa_bind; [apply bacc_section, bacc_list, BK|apply xa_section, (xa_list _ _ _ _ BK)|].
  { apply xa_bind; [apply bacc_raw_f32|apply xa_raw_f32|]. intros t.
    apply xa_bind; [apply bacc_raw_i32|apply xa_raw_i32|]. intros f. apply xa_last, xa_raw_i32. }
  intros keyframes.
  eapply xa_iff with (X := x_then f_i32 (x_in "network size" x_i32) (fun n =>
     x_then (if n <? 0 then f_none else f_bytes (Z.to_nat n)) (x_in "network data" (x_cut n)) (fun _ => _))).
  2: { intros i t o. unfold x_network, x_then, f_network. split.
       - intros [H|(n & m & H1 & [H|(l & m' & H2 & H3)])]; [eauto|left; right; eauto|].
         right. exists l, m'. split; [exists n, m; auto|]. exact H3.
       - intros [[H|(n & m & H1 & H)]|(l & m' & (n & m & H1 & H2) & H3)]; [eauto|right; eauto 6|].
         right. exists n, m. split; [exact H1|]. right. exists l, m'. auto. }
  apply xa_bind_val; [apply bacc_i32|apply xa_i32|]. intros i n o Hn. apply f_i32_range in Hn. clear i o.
  apply xa_bind; [apply bacc_section, bacc_take_i32, Hn|apply xa_section, xa_take_i32, Hn|]. intros network.
  assert (BD : bacc K (let* f := raw_i32 in let* u := parse_text in let* t := parse_text in ret (mkDebug f u t)) f_debug).
  { apply bacc_bind; [apply bacc_raw_i32|]. intros t.
    apply bacc_bind; [apply bacc_text|]. intros f. apply bacc_bind; [apply bacc_text|]. intros p. apply bacc_ret. }
  apply xa_bind; [apply bacc_section, bacc_list, BD|apply xa_section, (xa_list _ _ _ _ BD)|].
  { apply xa_bind; [apply bacc_raw_i32|apply xa_raw_i32|]. intros t.
    apply xa_bind; [apply bacc_text|apply xa_text|]. intros f. apply xa_last, xa_text. }
  intros debug.
  assert (BT : bacc K (let* d := parse_text in let* f := raw_i32 in ret (mkTick d f)) f_tickmark).
  { apply bacc_bind; [apply bacc_text|]. intros t. apply bacc_bind; [apply bacc_raw_i32|]. intros f. apply bacc_ret. }
  apply xa_bind; [apply bacc_section, bacc_list, BT|apply xa_section, (xa_list _ _ _ _ BT)|].
  { apply xa_bind; [apply bacc_text|apply xa_text|]. intros t. apply xa_last, xa_raw_i32. }
  intros ticks.
  apply xa_bind; [apply bacc_section, TL|apply xa_section, TX|]. intros packages.
  apply xa_bind; [apply bacc_section, TL|apply xa_section, TX|]. intros objects.
  apply xa_bind; [apply bacc_section, TL|apply xa_section, TX|]. intros names.
  assert (BC : bacc K (let* c := parse_str in let* i := raw_i32 in ret (mkClassIndex c i)) f_class_index).
  { apply bacc_bind; [apply bacc_str|]. intros t. apply bacc_bind; [apply bacc_raw_i32|]. intros f. apply bacc_ret. }
  apply xa_bind; [apply bacc_section, bacc_list, BC|apply xa_section, (xa_list _ _ _ _ BC)|].
  { apply xa_bind; [apply bacc_str|apply xa_str|]. intros t. apply xa_last, xa_raw_i32. }
  intros classes. apply xa_last, xa_section.
  assert (BP : bacc K (let* o := raw_i32 in let* s := raw_i32 in ret (mkCacheProp o s)) f_cache_prop).
  { apply bacc_bind; [apply bacc_raw_i32|]. intros x. apply bacc_bind; [apply bacc_raw_i32|]. intros y. apply bacc_ret. }
  apply xa_list.
  { apply bacc_bind; [apply bacc_raw_i32|]. intros a. apply bacc_bind; [apply bacc_raw_i32|]. intros p.
    apply bacc_bind; [apply bacc_raw_i32|]. intros c. apply bacc_bind; [|intros; apply bacc_ret]. apply bacc_list, BP. }
  apply xa_bind; [apply bacc_raw_i32|apply xa_raw_i32|]. intros a.
  apply xa_bind; [apply bacc_raw_i32|apply xa_raw_i32|]. intros p.
  apply xa_bind; [apply bacc_raw_i32|apply xa_raw_i32|]. intros c.
  apply xa_last, (xa_list _ _ _ _ BP).
  apply xa_bind; [apply bacc_raw_i32|apply xa_raw_i32|]. intros x. apply xa_last, xa_raw_i32.
Qed.

(** ** Sections *)

Definition pre (n1 n2 n3 : string) : parser (Z * Z * bytes) :=
  let* size := take_i32 n1 in
  let* crc := take_u32 n2 in
  let* covered := in_section n3 (view_data (as_usize size)) in
  ret (size, crc, covered).
Definition f_pre : form (Z * Z * bytes) := fun i v o => declared i (fst (fst v)) (snd (fst v)) (snd v) o.

Lemma bacc_pre K n1 n2 n3 : bacc K (pre n1 n2 n3) f_pre.
Proof.
  unfold pre. eapply bacc_iff with (P := f_bind f_i32 (fun size => f_bind f_u32 (fun crc => f_bind (f_view size) (fun cov => f_ret (size, crc, cov))))).
  - apply bacc_bind_val; [apply bacc_i32|]. intros i size o Hn. apply f_i32_range in Hn.
    apply bacc_bind; [apply bacc_take_u32|]. intros crc.
    apply bacc_bind; [apply bacc_section, bacc_view, Hn|]. intros cov. apply bacc_ret.
  - intros i v o. unfold f_pre, declared, f_bind, f_view, f_ret. split.
    + intros (size & m1 & H1 & crc & m2 & H2 & cov & m3 & (V1 & V2 & V3 & ->) & -> & ->). cbn [fst snd]. exists m1. auto.
    + destruct v as [[size crc] cov]. cbn [fst snd]. intros (m1 & H1 & H2 & V1 & V2 & V3).
      exists size, m1. split; [exact H1|]. exists crc, o. split; [exact H2|]. exists cov, o. auto 8.
Qed.
Lemma xa_pre K n1 n2 n3 : xa K (pre n1 n2 n3) (x_declared n1 n2 n3).
Proof.
  unfold pre, x_declared. apply xa_bind_val; [apply bacc_i32|apply xa_i32|]. intros i size o Hn. apply f_i32_range in Hn.
  apply xa_bind; [apply bacc_take_u32|apply xa_u32|]. intros crc. apply xa_last, xa_section, xa_view, Hn.
Qed.
Lemma sect_pre {A} check n1 n2 n3 n4 (f : parser A) s :
  sect check n1 n2 n3 n4 f s =
  (let* v := pre n1 n2 n3 in
   let* x := crc_section check (snd v) (snd (fst v)) n4 f in
   ret (mkSection (fst (fst v)) (snd (fst v)) (snd v) x)) s.
Proof.
  unfold sect, pre, bind, ret. destruct (take_i32 n1 s) as [[size|e|p] s1]; auto.
  destruct (take_u32 n2 s1) as [[crc|e|p] s2]; auto.
  destruct (in_section n3 (view_data (as_usize size)) s2) as [[cov|e|p] s3]; auto.
Qed.

Lemma contents_err c T n X crc cov m t o : (forall t' o', X m t' o' <-> t' = t /\ o' = o) ->
  forall e, x_contents c T n X crc cov m e <-> @verdict unit c crc cov n (Err (report T t o)) = Err e.
Proof.
  intros U e. unfold x_contents, verdict, crc_matches.
  assert (X0 : X m t o) by (apply U; auto). destruct (Z.eqb_spec crc (Z.of_N (crc32_unreal cov))) as [E|E].
  - split.
    + intros [H|[(t' & o' & H & _ & ->)|H]]; [tauto| |destruct H as (? & ? & _ & _ & H & _); tauto].
      apply U in H as [-> ->]. reflexivity.
    + intros [= <-]. right. left. eauto 6.
  - assert (N : forall P : Prop, crc = Z.of_N (crc32_unreal cov) -> P) by tauto.
    split.
    + intros [(-> & _ & ->)|[(t' & o' & H & K & ->)|(t' & o' & H & -> & _ & ->)]].
      * reflexivity.
      * apply U in H as [-> ->]. destruct K as [->|K]; [reflexivity|tauto].
      * apply U in H as [-> ->]. reflexivity.
    + destruct c; intros [= <-]; [left|right; left|right; right]; eauto 8.
Qed.
Lemma contents_ok c T n X crc cov m : (forall t o, ~ X m t o) ->
  forall e, x_contents c T n X crc cov m e <-> mismatch c crc cov = true /\ e = ECrcMismatch crc (Z.of_N (crc32_unreal cov)).
Proof.
  intros U e. unfold x_contents, mismatch, crc_matches. destruct (Z.eqb_spec crc (Z.of_N (crc32_unreal cov))) as [E|E].
  - split; [|destruct c; intros [[=] _]].
    intros [(_ & H & _)|[(t & o & H & _)|(t & o & H & _)]]; [tauto|destruct (U _ _ H)..].
  - split.
    + intros [(-> & _ & ->)|[(t & o & H & _)|(t & o & H & _)]]; [auto|destruct (U _ _ H)..].
    + destruct c; intros [[=] ->]. auto.
Qed.
Lemma passes_iff c crc cov : passes c crc cov <-> mismatch c crc cov = false.
Proof.
  unfold passes, mismatch, crc_matches. destruct c; [|split; [auto|discriminate]..].
  destruct (Z.eqb_spec crc (Z.of_N (crc32_unreal cov))); cbn; split; intros H; auto; try discriminate.
  specialize (H eq_refl). tauto.
Qed.

(** what becomes of a section *)
Inductive part {A} (P : form A) (X : faulty) (n1 n2 n3 n4 : string) (f : parser A) (T : Z) (s : core) : Prop :=
| part1 t s' : (forall check, sect check n1 n2 n3 n4 f s = (Err (report T t (c_data s')), s')) ->
    (forall t' o', x_declared n1 n2 n3 (c_data s) t' o' <-> t' = t /\ o' = c_data s') ->
    (forall size crc cov m, ~ declared (c_data s) size crc cov m) -> part P X n1 n2 n3 n4 f T s
| part2 size crc cov m t s' :
    (forall check, sect check n1 n2 n3 n4 f s = (verdict check crc cov n4 (Err (report T t (c_data s'))), s')) ->
    (forall t' o', ~ x_declared n1 n2 n3 (c_data s) t' o') ->
    declared (c_data s) size crc cov m ->
    (forall size' crc' cov' m', declared (c_data s) size' crc' cov' m' -> size' = size /\ crc' = crc /\ cov' = cov /\ m' = m) ->
    (forall t' o', X m t' o' <-> t' = t /\ o' = c_data s') ->
    (forall x o, ~ P m x o) -> part P X n1 n2 n3 n4 f T s
| part3 size crc cov m x s' :
    (forall check, sect check n1 n2 n3 n4 f s = (verdict check crc cov n4 (Ok (mkSection size crc cov x)), s')) ->
    (forall t' o', ~ x_declared n1 n2 n3 (c_data s) t' o') ->
    declared (c_data s) size crc cov m ->
    (forall size' crc' cov' m', declared (c_data s) size' crc' cov' m' -> size' = size /\ crc' = crc /\ cov' = cov /\ m' = m) ->
    (forall t' o', ~ X m t' o') ->
    (forall x' o', P m x' o' <-> x' = x /\ o' = c_data s') -> forward s s' -> part P X n1 n2 n3 n4 f T s.

Lemma part_of {A} (P : form A) X n1 n2 n3 n4 f T s : (forall K, bacc K f P) -> (forall K, xa K f X) ->
  cok s -> c_col s + lenZ (c_data s) = T -> part P X n1 n2 n3 n4 f T s.
Proof.
  intros HP HX C ET.
  pose proof (bacc_pre (length (c_data s)) n1 n2 n3 s C (le_n _)) as B1.
  pose proof (xa_pre (length (c_data s)) n1 n2 n3 s C (le_n _)) as X1.
  destruct (pre n1 n2 n3 s) as [[[[size crc] cov]|e|p] s1] eqn:E1; destruct B1 as (F1 & B1); [| |tauto].
  2: { destruct X1 as (t & -> & X1). destruct B1 as [B1 _]. pose proof (forward_len _ _ F1) as (FL & _). rewrite FL, ET in *.
       eapply part1; [|exact X1|].
       - intros check. rewrite sect_pre. unfold bind. now rewrite E1.
       - intros size crc cov m D. exact (B1 (size, crc, cov) m D). }
  assert (C1 : cok s1) by eauto.
  assert (D : declared (c_data s) size crc cov (c_data s1)) by (apply (proj2 (B1 (size, crc, cov) (c_data s1)) (conj eq_refl eq_refl))).
  assert (U : forall size' crc' cov' m', declared (c_data s) size' crc' cov' m' -> size' = size /\ crc' = crc /\ cov' = cov /\ m' = c_data s1).
  { intros size' crc' cov' m' D'. apply (B1 (size', crc', cov') m') in D' as [[= -> -> ->] ->]. auto. }
  specialize (HP (length (c_data s1)) s1 C1 (le_n _)). specialize (HX (length (c_data s1)) s1 C1 (le_n _)).
  assert (ES : forall check, sect check n1 n2 n3 n4 f s =
     (let* x := crc_section check cov crc n4 f in ret (mkSection size crc cov x)) s1).
  { intros check. rewrite sect_pre. unfold bind at 1. now rewrite E1. }
  destruct (f s1) as [[x|e|p] s2] eqn:Ef; destruct HP as (F2 & HP); [| |tauto].
  - eapply part3; [|exact X1|exact D|exact U|exact HX|exact HP|eauto].
    intros check. rewrite ES. unfold bind. rewrite (crc_section_verdict _ _ _ _ _ _ _ _ Ef) by discriminate. unfold verdict.
    destruct (crc =? _); [reflexivity|]. destruct check; reflexivity.
  - destruct HX as (t & -> & HX). destruct HP as [HP _].
    pose proof (forward_len _ _ F1) as (FL1 & _). pose proof (forward_len _ _ F2) as (FL2 & _).
    rewrite FL2, FL1, ET in *.
    eapply part2; [|exact X1|exact D|exact U|exact HX|exact HP].
    intros check. rewrite ES. unfold bind. rewrite (crc_section_verdict _ _ _ _ _ _ _ _ Ef) by discriminate. unfold verdict.
    destruct (crc =? _); [reflexivity|]. destruct check; reflexivity.
Qed.

(** ** Files *)

Lemma verdict_err {A} check crc cov n e : exists e', @verdict A check crc cov n (Err e) = Err e' /\
  @verdict unit check crc cov n (Err e) = Err e'.
Proof. unfold verdict. destruct (crc =? _); [eauto|]. destruct check; eauto. Qed.

Lemma eq_sym_iff {A} (a b : A) : a = b <-> b = a.
Proof. split; congruence. Qed.
Lemma contents_inj {A} (a b : parse_error) : @Err parse_error A a = Err b <-> a = b.
Proof. split; [intros [= ->]|intros ->]; reflexivity. Qed.

Section Files.
Context (B : bitter) (ho : hash_order).
Notation parse := (parse_with B ho).

Definition file_of (data : bytes) (c : crc_check) : Prop := exists h b, file_is c data h b.
Lemma file_of_iff data c : file_of data c <-> exists h b rest, f_file data (h, b) rest /\
  passes c (sec_crc h) (sec_bytes h) /\ passes c (sec_crc b) (sec_bytes b).
Proof.
  split.
  - intros (h & b & (rest & F) & P). eauto 6.
  - intros (h & b & rest & F & P). exists h, b. split; eauto.
Qed.

(** Either the file is faulty, with one error whatever the network option, or it is not. *)
Lemma file_cases c data : lenZ data < 2 ^ 31 ->
  (exists e, (forall e', file_fails c data e' <-> e' = e) /\ (forall n, parse c n data = Err e) /\ ~ file_of data c) \/
  ((forall e, ~ file_fails c data e) /\ file_of data c).
Proof.
  intros L. assert (C : cok (core_new data)) by (unfold cok, core_new; cbn; lia).
  assert (T : c_col (core_new data) + lenZ (c_data (core_new data)) = Z.of_nat (length data)) by (cbn; unfold lenZ; lia).
  assert (EP : forall n, parse c n data = fst ((let* h := header_sect c in let* b := body_sect c in
     let* fs := parse_network B ho n (sec_value h) (sec_value b) in ret (replay_of h b fs)) (core_new data)))
    by (intros n; now rewrite <- parse_replay_sections).
  destruct (part_of f_header x_header "header size" "header crc" "header data" "header" parse_header _ _ bacc_header xa_header C T)
    as [t s1 E X N|size crc cov m t s1 E X D U XM NP|size crc cov m h s1 E X D U XM PH F]; cbn [c_data core_new] in *.
  - left. exists (report (Z.of_nat (length data)) t (c_data s1)). split; [|split].
    + intros e'. split.
      * intros H. destruct H as [t' o' H|size crc cov m e H _|size crc cov m h i t' o' H _ _ _|size crc cov m h i sz' crc' cov' m' e H _ _ _ _];
          try (destruct (N _ _ _ _ H)). apply X in H as [-> ->]. reflexivity.
      * intros ->. apply xf_header_declared, X. auto.
    + intros n. rewrite EP. unfold bind, header_sect. now rewrite E.
    + rewrite file_of_iff. intros (hs & bs & rest & (h0 & m0 & (sz & cr & cv & m1 & x & D & _) & _) & _). exact (N _ _ _ _ D).
  - destruct (@verdict_err (section header) c crc cov "header" (report (Z.of_nat (length data)) t (c_data s1))) as (e0 & V1 & V2).
    left. exists e0. split; [|split].
    + intros e'. rewrite (eq_sym_iff e' e0), <- (@contents_inj unit e0 e'), <- V2, <- (contents_err c _ "header" x_header crc cov m t (c_data s1) XM).
      split.
      * intros H. destruct H as [t' o' H|size' crc' cov' m' e H K|size' crc' cov' m' h i t' o' H K _ _|size' crc' cov' m' h i sz2 crc2 cov2 m2 e H K _ _ _].
        -- destruct (X _ _ H).
        -- apply U in H as (-> & -> & -> & ->). exact K.
        -- apply U in H as (-> & -> & -> & ->). destruct (NP _ _ K).
        -- apply U in H as (-> & -> & -> & ->). destruct (NP _ _ K).
      * intros H. eapply xf_header; [exact D|exact H].
    + intros n. rewrite EP. unfold bind, header_sect. now rewrite E, V1.
    + rewrite file_of_iff. intros (hs & bs & rest & (h0 & m0 & (sz & cr & cv & m1 & x & D' & K & _) & _) & _). apply U in D' as (-> & -> & -> & ->).
      exact (NP _ _ K).
  - pose proof (eq_trans (proj1 (forward_len _ _ F)) T) as FL.
    assert (C1 : cok s1) by eauto.
    assert (PH0 : f_header m h (c_data s1)) by (apply PH; auto).
    destruct (mismatch c crc cov) eqn:M.
    { left. exists (ECrcMismatch crc (Z.of_N (crc32_unreal cov))). split; [|split].
      - intros e'. split.
        + intros H. destruct H as [t' o' H|size' crc' cov' m' e H K|size' crc' cov' m' h' i t' o' H _ K _|size' crc' cov' m' h' i sz2 crc2 cov2 m2 e H _ K _ _].
          * destruct (X _ _ H).
          * apply U in H as (-> & -> & -> & ->). apply contents_ok in K; [tauto|exact XM].
          * apply U in H as (-> & -> & -> & ->). apply passes_iff in K. congruence.
          * apply U in H as (-> & -> & -> & ->). apply passes_iff in K. congruence.
        + intros ->. eapply xf_header; [exact D|]. apply contents_ok; auto.
      - intros n. rewrite EP. unfold bind, header_sect. now rewrite E, verdict_ok, M.
      - rewrite file_of_iff. intros (hs & bs & rest & (h0 & m0 & (sz & cr & cv & m1 & x & D' & K & ->) & _ & _ & _ & [= -> ->] & _) & K1 & _).
        apply U in D' as (-> & -> & -> & ->). cbn in K1. apply passes_iff in K1. congruence. }
    assert (EP2 : forall n, parse c n data = fst ((let* b := body_sect c in
     let* fs := parse_network B ho n h (sec_value b) in ret (replay_of (mkSection size crc cov h) b fs)) s1)).
    { intros n. rewrite EP. unfold bind at 1, header_sect. now rewrite E, verdict_ok, M. }
    assert (FF : forall e', file_fails c data e' <->
      (exists t o, x_declared "content size" "content crc" "content data" (c_data s1) t o /\ e' = report (Z.of_nat (length data)) t o) \/
      (exists size' crc' cov' m', declared (c_data s1) size' crc' cov' m' /\
         x_contents c (Z.of_nat (length data)) "body" x_body crc' cov' m' e')).
    { intros e'. split.
      - intros H. destruct H as [t' o' H|size' crc' cov' m' e H K|size' crc' cov' m' h' i t' o' H K1 _ K2|size' crc' cov' m' h' i sz2 crc2 cov2 m2 e H K1 _ K2 K3].
        + destruct (X _ _ H).
        + apply U in H as (-> & -> & -> & ->). apply contents_ok in K; [|exact XM]. destruct K as [K _]. congruence.
        + apply U in H as (-> & -> & -> & ->). apply PH in K1 as [-> ->]. left. eauto.
        + apply U in H as (-> & -> & -> & ->). apply PH in K1 as [-> ->]. right. eauto 8.
      - apply passes_iff in M. intros [(t & o & H & ->)|(sz & cr & cv & m' & H1 & H2)].
        + eapply xf_body_declared; eauto.
        + eapply xf_body; eauto. }
    assert (FO : file_of data c <-> exists size' crc' cov' m' b o', declared (c_data s1) size' crc' cov' m' /\ f_body m' b o' /\ passes c crc' cov').
    { rewrite file_of_iff. split.
      - intros (hs & bs & rest & (h0 & m0 & (sz & cr & cv & m1 & x & D' & K & ->) & b0 & m2 & (sz' & cr' & cv' & m3 & y & D2 & K2 & ->) & [= -> ->] & _) & K1 & K3).
        apply U in D' as (-> & -> & -> & ->). apply PH in K as [-> ->]. eauto 12.
      - intros (sz' & cr' & cv' & m' & b & o' & D2 & K2 & K3). exists (mkSection size crc cov h), (mkSection sz' cr' cv' b), o'.
        split; [|split; [now apply passes_iff|exact K3]]. exists (mkSection size crc cov h), (c_data s1).
        split; [exists size, crc, cov, m, h; auto|]. exists (mkSection sz' cr' cv' b), o'.
        split; [exists sz', cr', cv', m', b; auto|split; reflexivity]. }
    destruct (part_of f_body x_body "content size" "content crc" "content data" "body" parse_body _ _ bacc_body xa_body C1 FL)
      as [t s2 E' X' N'|size' crc' cov' m' t s2 E' X' D' U' XM' NP'|size' crc' cov' m' b s2 E' X' D' U' XM' PB' F'].
    + left. exists (report (Z.of_nat (length data)) t (c_data s2)). split; [|split].
      * intros e'. rewrite FF. split.
        -- intros [(t' & o' & H & ->)|(? & ? & ? & ? & H & _)]; [|destruct (N' _ _ _ _ H)]. apply X' in H as [-> ->]. reflexivity.
        -- intros ->. left. exists t, (c_data s2). split; [now apply X'|reflexivity].
      * intros n. rewrite EP2. unfold bind, body_sect. now rewrite E'.
      * rewrite FO. intros (? & ? & ? & ? & ? & ? & H & _). exact (N' _ _ _ _ H).
    + destruct (@verdict_err (section body) c crc' cov' "body" (report (Z.of_nat (length data)) t (c_data s2))) as (e0 & V1 & V2).
      left. exists e0. split; [|split].
      * intros e'. rewrite FF, (eq_sym_iff e' e0), <- (@contents_inj unit e0 e'), <- V2, <- (contents_err c _ "body" x_body crc' cov' m' t (c_data s2) XM').
        split.
        -- intros [(t' & o' & H & _)|(? & ? & ? & ? & H & K)]; [destruct (X' _ _ H)|]. apply U' in H as (-> & -> & -> & ->). exact K.
        -- intros H. right. eauto 8.
      * intros n. rewrite EP2. unfold bind, body_sect. now rewrite E', V1.
      * rewrite FO. intros (? & ? & ? & ? & ? & ? & H & K & _). apply U' in H as (-> & -> & -> & ->). exact (NP' _ _ K).
    + assert (PB0 : f_body m' b (c_data s2)) by (apply PB'; auto).
      destruct (mismatch c crc' cov') eqn:M'.
      * left. exists (ECrcMismatch crc' (Z.of_N (crc32_unreal cov'))). split; [|split].
        -- intros e'. rewrite FF. split.
           ++ intros [(t' & o' & H & _)|(? & ? & ? & ? & H & K)]; [destruct (X' _ _ H)|].
              apply U' in H as (-> & -> & -> & ->). apply contents_ok in K; [tauto|exact XM'].
           ++ intros ->. right. exists size', crc', cov', m'. split; [exact D'|]. apply contents_ok; auto.
        -- intros n. rewrite EP2. unfold bind, body_sect. now rewrite E', verdict_ok, M'.
        -- rewrite FO. intros (? & ? & ? & ? & ? & ? & H & _ & K). apply U' in H as (-> & -> & -> & ->).
           apply passes_iff in K. congruence.
      * right. split.
        -- intros e'. rewrite FF. intros [(t' & o' & H & _)|(? & ? & ? & ? & H & K)]; [destruct (X' _ _ H)|].
           apply U' in H as (-> & -> & -> & ->). apply contents_ok in K; [|exact XM']. destruct K as [K _]. congruence.
        -- apply FO. exists size', crc', cov', m', b, (c_data s2). split; [exact D'|]. split; [exact PB0|]. now apply passes_iff.
Qed.

Lemma error_exact c n data e : lenZ data < 2 ^ 31 -> file_fails c data e -> parse c n data = Err e.
Proof.
  intros L H. destruct (file_cases c data L) as [(e' & H1 & H2 & _)|[H1 _]]; [|destruct (H1 _ H)].
  apply H1 in H as ->. apply H2.
Qed.
Lemma error_unique c data e e' : lenZ data < 2 ^ 31 -> file_fails c data e -> file_fails c data e' -> e = e'.
Proof.
  intros L H H'. destruct (file_cases c data L) as [(e0 & H1 & _)|[H1 _]]; [|destruct (H1 _ H)].
  apply H1 in H, H'. congruence.
Qed.
End Files.

Lemma faulty_or_file c data : lenZ data < 2 ^ 31 ->
  ((exists e, file_fails c data e) /\ ~ exists h b, file_is c data h b) \/
  ((forall e, ~ file_fails c data e) /\ exists h b, file_is c data h b).
Proof.
  intros L. destruct (file_cases BitReader.std_bitter (fun _ m => m) c data L) as [(e & H1 & _ & H3)|H]; [left|right; exact H].
  split; [|exact H3]. exists e. now apply H1.
Qed.
