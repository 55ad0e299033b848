(** * The header and body parsers accept exactly their grammars *)

From Coq Require Import ZArith List Bool Lia ZifyBool ZifyNat.
From Verif Require Import Base Text F32 Errors Core Header Body SpecText TextProofs SpecFile
  BasicProofs CoreLogic.
Open Scope Z_scope.

Lemma str_eqbP a b : reflect (a = b) (str_eqb a b).
Proof. apply iff_reflect. symmetry. apply str_eqb_spec. Qed.

Lemma neqb a b : a <> b -> str_eqb a b = false.
Proof. apply str_eqb_neq. Qed.

(** ** Properties *)

Definition quirky (mode : parser_mode) : bool := match mode with Quirks => true | Standard => false end.

(** The inductive grammar as an equation in the shape of the parser. *)
Definition g_value (q : bool) (P : form props) (kind : str) : form (option header_prop) :=
  if str_eqb kind (lit "BoolProperty") then
    f_bind (f_bytes (if q then 4 else 1)) (fun d =>
      match d with b :: _ => f_ret (Some (HBool (byteZ b =? 1))) | [] => f_none end)
  else if str_eqb kind (lit "ByteProperty") then
    if q then f_such (fun k v => v = Some (HByte k None)) f_text
    else f_bind f_str (fun k =>
      if str_eqb k (lit "None") then f_bind (f_bytes 1) (fun _ => f_ret None)
      else f_bind f_str (fun value => f_ret (Some (HByte k (Some value)))))
  else if str_eqb kind (lit "ArrayProperty") then
    f_bind f_i32 (fun n => f_bind (f_counted P n) (fun rows => f_ret (Some (HArray rows))))
  else if str_eqb kind (lit "FloatProperty") then f_such (fun x v => v = Some (HFloat x)) f_f32
  else if str_eqb kind (lit "IntProperty") then f_such (fun x v => v = Some (HInt x)) f_i32
  else if str_eqb kind (lit "QWordProperty") then f_such (fun x v => v = Some (HQWord x)) (f_uint 8)
  else if str_eqb kind (lit "NameProperty") then f_such (fun x v => v = Some (HName x)) f_text
  else if str_eqb kind (lit "StrProperty") then f_such (fun x v => v = Some (HStr x)) f_text
  else if str_eqb kind (lit "StructProperty") then
    f_bind f_str (fun name => f_bind P (fun fields => f_ret (Some (HStruct name fields))))
  else f_none.

Definition g_props (q : bool) (P : form props) : form props :=
  f_bind f_str (fun key =>
    if str_eqb key (lit "None") then f_ret []
    else f_bind f_str (fun kind => f_bind (f_bytes 8) (fun _ =>
      f_bind (g_value q P kind) (fun v => f_bind P (fun rest =>
        f_ret (match v with Some p => (key, p) :: rest | None => rest end)))))).

Lemma rows_times q n : forall i rows o, f_rows q n i rows o <-> f_times n (f_props q) i rows o.
Proof.
  induction n as [|n IH]; intros i rows o; cbn [f_times].
  - split.
    + intros H. inversion H; subst. split; reflexivity.
    + intros [-> ->]. constructor.
  - split.
    + intros H. inversion H; subst. exists r, m. split; auto. exists rows0, o. split; [now apply IH|].
      split; reflexivity.
    + intros (r & m & H1 & rows' & o' & H2 & -> & ->). econstructor; eauto. now apply IH.
Qed.

Lemma g_value_some q kind i v o : g_value q (f_props q) kind i (Some v) o <-> f_value q kind i v o.
Proof.
  unfold g_value. split.
  - destruct (str_eqbP kind (lit "BoolProperty")) as [->|_].
    { intros (d & m & H1 & H2). destruct d as [|b l]; [destruct H2|]. destruct H2 as [[= ->] ->].
      eapply fv_bool; eauto. }
    destruct (str_eqbP kind (lit "ByteProperty")) as [->|_].
    { destruct q eqn:Q.
      - intros (k & H & [= ->]). apply fv_byte_quirk; auto.
      - intros (k & m & H1 & H2). destruct (str_eqbP k (lit "None")) as [->|Nk].
        + destruct H2 as (l & m' & _ & [=] & _).
        + destruct H2 as (value & m' & H2 & [= ->] & ->). eapply fv_byte; eauto. }
    destruct (str_eqbP kind (lit "ArrayProperty")) as [->|_].
    { intros (n & m & H1 & rows & m' & H2 & [= ->] & ->). unfold f_counted in H2.
      destruct ((n <? 0) || (25000 <? n)) eqn:E; [destruct H2|].
      eapply fv_array; eauto; [lia|]. now apply rows_times. }
    destruct (str_eqbP kind (lit "FloatProperty")) as [->|_].
    { intros (x & H & [= ->]). constructor; auto. }
    destruct (str_eqbP kind (lit "IntProperty")) as [->|_].
    { intros (x & H & [= ->]). constructor; auto. }
    destruct (str_eqbP kind (lit "QWordProperty")) as [->|_].
    { intros (x & H & [= ->]). constructor; auto. }
    destruct (str_eqbP kind (lit "NameProperty")) as [->|_].
    { intros (x & H & [= ->]). constructor; auto. }
    destruct (str_eqbP kind (lit "StrProperty")) as [->|_].
    { intros (x & H & [= ->]). constructor; auto. }
    destruct (str_eqbP kind (lit "StructProperty")) as [->|_].
    { intros (name & m & H1 & fields & m' & H2 & [= ->] & ->). econstructor; eauto. }
    intros [].
  - intros H. destruct H; cbn [str_eqb lit list_byte_of_string]; rewrite ?str_eqb_refl.
    + exists (b :: l), o. split; auto. split; reflexivity.
    + subst q. exists kind, m. split; auto. rewrite neqb by auto. exists value, o. split; auto. split; reflexivity.
    + subst q. exists kind. auto.
    + exists n, m. split; auto. exists rows, o. split; [|split; reflexivity].
      unfold f_counted. replace ((n <? 0) || (25000 <? n)) with false by lia. now apply rows_times.
    + exists x. auto.
    + exists x. auto.
    + exists x. auto.
    + exists s. auto.
    + exists s. auto.
    + exists name, m. split; auto. exists fields, o. split; auto. split; reflexivity.
Qed.

Lemma g_value_none q P kind i o : g_value q P kind i None o <->
  q = false /\ kind = lit "ByteProperty" /\ exists m b, f_str i (lit "None") m /\ f_bytes 1 m b o.
Proof.
  unfold g_value. split.
  - destruct (str_eqbP kind (lit "BoolProperty")) as [->|_].
    { intros (d & m & H1 & H2). destruct d; [destruct H2|destruct H2 as [[=] _]]. }
    destruct (str_eqbP kind (lit "ByteProperty")) as [->|_].
    { destruct q eqn:Q.
      - intros (k & H & [=]).
      - intros (k & m & H1 & H2). destruct (str_eqbP k (lit "None")) as [->|Nk].
        + destruct H2 as (l & m' & H2 & _ & ->). eauto 8.
        + destruct H2 as (value & m' & H2 & [=] & _). }
    destruct (str_eqbP kind (lit "ArrayProperty")) as [->|_].
    { intros (n & m & H1 & rows & m' & H2 & [=] & _). }
    destruct (str_eqb kind (lit "FloatProperty")); [intros (x & H & [=])|].
    destruct (str_eqb kind (lit "IntProperty")); [intros (x & H & [=])|].
    destruct (str_eqb kind (lit "QWordProperty")); [intros (x & H & [=])|].
    destruct (str_eqb kind (lit "NameProperty")); [intros (x & H & [=])|].
    destruct (str_eqb kind (lit "StrProperty")); [intros (x & H & [=])|].
    destruct (str_eqb kind (lit "StructProperty")); [|intros []].
    intros (name & m & H1 & fields & m' & H2 & [=] & _).
  - intros (-> & -> & m & b & H1 & H2). cbn [str_eqb lit list_byte_of_string].
    exists (lit "None"), m. split; auto. rewrite str_eqb_refl. exists b, o. split; auto. split; reflexivity.
Qed.

Lemma props_unfold q i v o : f_props q i v o <-> g_props q (f_props q) i v o.
Proof.
  unfold g_props. split.
  - intros H. destruct H.
    + exists (lit "None"), o. split; auto. rewrite str_eqb_refl. split; reflexivity.
    + exists key, m1. split; auto. rewrite neqb by auto. exists kind, m2. split; auto.
      exists ignored, m3. split; auto. exists (Some v), m4. split; [now apply g_value_some|].
      exists rest, o. split; auto. split; reflexivity.
    + exists key, m1. split; auto. rewrite neqb by auto. exists (lit "ByteProperty"), m2. split; auto.
      exists ignored, m3. split; auto. exists None, m5. split; [apply g_value_none; eauto 8|].
      exists rest, o. split; auto. split; reflexivity.
  - intros (key & m1 & H1 & H). destruct (str_eqbP key (lit "None")) as [->|Nk].
    + destruct H as [-> ->]. apply fp_end, H1.
    + destruct H as (kind & m2 & H2 & ign & m3 & H3 & [p|] & m4 & H4 & rest & m5 & H5 & -> & ->).
      * eapply fp_entry; eauto. now apply g_value_some.
      * apply g_value_none in H4 as (Hq & -> & m & b & H4 & H6). eapply fp_dropped; eauto.
Qed.

Lemma f_str_len i s o : f_str i s o -> (4 + length o <= length i)%nat.
Proof.
  intros (n & m & H1 & H2). apply f_i32_len in H1. destruct (n <? 0); [destruct H2|].
  destruct H2 as (l & [_ ->] & _). rewrite app_length in H1. lia.
Qed.

Lemma bytes_8 {A} (Q : form A) i v o :
  f_bind f_u32 (fun _ => f_bind (f_bytes 4) (fun _ => Q)) i v o <-> f_bind (f_bytes 8) (fun _ => Q) i v o.
Proof.
  split.
  - intros (x & m & (l & [L ->] & R) & y & m' & [L' ->] & H). exists (l ++ y), m'. split; auto.
    split; [rewrite app_length; lia|]. now rewrite app_assoc.
  - intros (l & m & [L ->] & H). exists (le_Z (firstn 4 l)), (skipn 4 l ++ m). split.
    + exists (firstn 4 l). split.
      * split; [rewrite firstn_length; lia|]. now rewrite app_assoc, firstn_skipn.
      * apply (uint_le 4); [rewrite firstn_length; lia|reflexivity].
    + exists (skipn 4 l), m. split; auto. split; auto. rewrite skipn_length. lia.
Qed.

Lemma f_bind_iff {A C} (P P' : form A) (Q Q' : A -> form C) :
  (forall i a o, P i a o <-> P' i a o) -> (forall a i v o, Q a i v o <-> Q' a i v o) ->
  forall i v o, f_bind P Q i v o <-> f_bind P' Q' i v o.
Proof.
  intros HP HQ i v o. split; intros (a & m & H1 & H2); exists a, m; (split; [apply HP|apply HQ]); auto.
Qed.

Lemma bacc_opt {A} K (f : A -> header_prop) (m : parser A) P :
  bacc K m P -> bacc K (fmap (fun x => Some (f x)) m) (f_such (fun x v => v = Some (f x)) P).
Proof. apply bacc_fmap. Qed.

Lemma bacc_fmap_such {A C} K (f : A -> C) (g : C -> option header_prop) (m : parser A) P Q :
  bacc K m P -> (forall i v o, (exists a, P i a o /\ v = f a) <-> Q i v o) ->
  bacc K (fmap (fun a => g (f a)) m) (f_such (fun x v => v = g x) Q).
Proof.
  intros H HQ. eapply bacc_iff; [apply bacc_fmap, H|]. intros i v o. unfold f_such. split.
  - intros (a & H1 & ->). exists (f a). split; auto. apply HQ. eauto.
  - intros (c & H1 & ->). apply HQ in H1 as (a & H1 & ->). eauto.
Qed.

Lemma uint_such n i v o : (exists a, f_bytes n i a o /\ v = le_Z a) <-> f_uint n i v o.
Proof.
  unfold f_uint, f_such. split; intros (l & H1 & H2); exists l; (split; [exact H1|]);
    destruct H1 as [L _]; now apply (uint_le n l v L).
Qed.
Lemma i32_such i v o : (exists a, f_bytes 4 i a o /\ v = as_i32 (le_Z a)) <-> f_i32 i v o.
Proof.
  unfold f_i32, f_such. split; intros (l & H1 & H2); exists l; (split; [exact H1|]);
    destruct H1 as [L _]; now apply (i32_le l v L).
Qed.

Lemma bacc_bool K q : bacc K (let* d := take_data (if q : bool then 4 else 1) in fmap Some (bool_prop d))
  (f_bind (f_bytes (if q then 4 else 1)) (fun d =>
      match d with b :: _ => f_ret (Some (HBool (byteZ b =? 1))) | [] => f_none end)).
Proof.
  apply bacc_bind_val.
  - eapply bacc_iff; [apply bacc_take_data; destruct q; lia|]. destruct q; reflexivity.
  - intros i d o [L _]. destruct d as [|b d]; [destruct q; discriminate L|]. cbn [bool_prop].
    exact (bacc_ret K (Some (HBool (byteZ b =? 1)))).
Qed.

Lemma bacc_rdict mode : forall fuel K, (K < fuel)%nat ->
  bacc K (parse_rdict fuel mode) (f_props (quirky mode)).
Proof.
  induction fuel as [|fuel IH]; intros K HK; [lia|].
  eapply bacc_iff; [|intros; symmetry; apply props_unfold]. unfold g_props.
  cbn [parse_rdict].
  eapply bacc_bind_lt with (K' := (K - 4)%nat); [apply bacc_str| |].
  { intros i a o H L. apply f_str_len in H. lia. }
  intros i key o Hk Li. apply f_str_len in Hk.
  assert (HR : bacc (K - 4) (parse_rdict fuel mode) (f_props (quirky mode))) by (apply IH; lia).
  clear IH i o Hk Li. set (J := (K - 4)%nat) in *.
  destruct (str_eqb key (lit "None")); [apply bacc_ret|].
  apply bacc_bind; [apply bacc_str|]. intros kind.
  eapply bacc_iff; [|intros; apply bytes_8].
  apply bacc_bind; [apply bacc_take_u32|]. intros _.
  apply bacc_bind; [apply (bacc_take_data J 4); lia|]. intros _.
  apply bacc_bind.
  2: { intros v. apply bacc_bind; [exact HR|]. intros rest. apply bacc_ret. }
  unfold g_value.
  destruct (str_eqb kind (lit "BoolProperty")).
  { destruct mode; [apply (bacc_bool J false)|apply (bacc_bool J true)]. }
  destruct (str_eqb kind (lit "ByteProperty")).
  { destruct mode; cbn [quirky].
    - apply bacc_bind; [apply bacc_str|]. intros k. destruct (str_eqb k (lit "None")).
      + apply bacc_bind; [apply (bacc_take_data J 1); lia|]. intros. apply bacc_ret.
      + apply bacc_bind; [apply bacc_str|]. intros. apply bacc_ret.
    - apply bacc_fmap, bacc_text. }
  destruct (str_eqb kind (lit "ArrayProperty")).
  { apply bacc_bind_val; [apply bacc_i32|]. intros i n o Hn. apply f_i32_range in Hn.
    apply bacc_bind; [apply bacc_repeat_of; auto|]. intros. apply bacc_ret. }
  destruct (str_eqb kind (lit "FloatProperty")).
  { apply (bacc_fmap_such J le_Z (fun x => Some (HFloat x)) _ (f_bytes 4)); [apply (bacc_take J 4); lia|apply uint_such]. }
  destruct (str_eqb kind (lit "IntProperty")).
  { apply (bacc_fmap_such J (fun l => as_i32 (le_Z l)) (fun x => Some (HInt x)) _ (f_bytes 4));
      [apply (bacc_take J 4); lia|apply i32_such]. }
  destruct (str_eqb kind (lit "QWordProperty")).
  { apply (bacc_fmap_such J le_Z (fun x => Some (HQWord x)) _ (f_bytes 8)); [apply (bacc_take J 8); lia|apply uint_such]. }
  destruct (str_eqb kind (lit "NameProperty")); [apply bacc_fmap, bacc_text|].
  destruct (str_eqb kind (lit "StrProperty")); [apply bacc_fmap, bacc_text|].
  destruct (str_eqb kind (lit "StructProperty")).
  { apply bacc_bind; [apply bacc_str|]. intros name. apply bacc_bind; [exact HR|]. intros. apply bacc_ret. }
  apply bacc_fail. exact I.
Qed.

Lemma bacc_header K : bacc K parse_header f_header.
Proof.
  unfold parse_header, f_header.
  apply bacc_bind; [apply bacc_i32|]. intros major. apply bacc_bind; [apply bacc_i32|]. intros minor.
  apply bacc_bind_val.
  { destruct ((865 <? major) && (17 <? minor)); [|apply bacc_ret]. apply bacc_fmap, bacc_i32. }
  intros i net o Hnet.
  assert (Hm : quirky (mode_of major minor net) = (major =? 0) && (minor =? 0)).
  { unfold mode_of. destruct ((865 <? major) && (17 <? minor)) eqn:E.
    - destruct Hnet as (n & _ & ->). cbn. lia.
    - destruct Hnet as [-> _]. destruct ((major =? 0) && (minor =? 0)); reflexivity. }
  clear i o Hnet. apply bacc_bind; [apply bacc_section, bacc_text|]. intros game.
  apply bacc_bind; [|intros; apply bacc_ret].
  apply bacc_section. rewrite <- Hm. intros s C L.
  apply (bacc_rdict _ _ (length (c_data s))); auto.
Qed.

(** ** The body *)

Lemma bacc_body K : bacc K parse_body f_body.
Proof.
  unfold parse_body, f_body.
  assert (TL : bacc K text_list (f_list f_text)) by apply bacc_list, bacc_text.
  apply bacc_bind; [apply bacc_section, TL|]. intros levels.
  apply bacc_bind.
  { apply bacc_section, bacc_list. apply bacc_bind; [apply bacc_raw_f32|]. intros t.
    apply bacc_bind; [apply bacc_raw_i32|]. intros f. apply bacc_bind; [apply bacc_raw_i32|]. intros p. apply bacc_ret. }
  intros keyframes.
  eapply bacc_iff with (P := f_bind f_i32 (fun n => f_bind (if n <? 0 then f_none else f_bytes (Z.to_nat n)) _)).
  2: { intros i v o. unfold f_network. split.
       - intros (n & m & H1 & l & m' & H2 & H3). exists l, m'. split; [exists n, m; auto|exact H3].
       - intros (l & m' & (n & m & H1 & H2) & H3). exists n, m. split; auto. exists l, m'. split; auto. }
  apply bacc_bind_val; [apply bacc_i32|]. intros i n o Hn. apply f_i32_range in Hn. clear i o.
  apply bacc_bind; [apply bacc_section, bacc_take_i32, Hn|]. intros network.
  apply bacc_bind.
  { apply bacc_section, bacc_list. apply bacc_bind; [apply bacc_raw_i32|]. intros t.
    apply bacc_bind; [apply bacc_text|]. intros f. apply bacc_bind; [apply bacc_text|]. intros p. apply bacc_ret. }
  intros debug. apply bacc_bind.
  { apply bacc_section, bacc_list. apply bacc_bind; [apply bacc_text|]. intros t.
    apply bacc_bind; [apply bacc_raw_i32|]. intros f. apply bacc_ret. }
  intros ticks. apply bacc_bind; [apply bacc_section, TL|]. intros packages.
  apply bacc_bind; [apply bacc_section, TL|]. intros objects.
  apply bacc_bind; [apply bacc_section, TL|]. intros names.
  apply bacc_bind.
  { apply bacc_section, bacc_list. apply bacc_bind; [apply bacc_str|]. intros t.
    apply bacc_bind; [apply bacc_raw_i32|]. intros f. apply bacc_ret. }
  intros classes. apply bacc_bind; [|intros; apply bacc_ret].
  apply bacc_section, bacc_list. apply bacc_bind; [apply bacc_raw_i32|]. intros a.
  apply bacc_bind; [apply bacc_raw_i32|]. intros p. apply bacc_bind; [apply bacc_raw_i32|]. intros c.
  apply bacc_bind; [|intros; apply bacc_ret]. apply bacc_list.
  apply bacc_bind; [apply bacc_raw_i32|]. intros x. apply bacc_bind; [apply bacc_raw_i32|]. intros y. apply bacc_ret.
Qed.
