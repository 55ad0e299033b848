(** * Proofs: [{:?}] writes the notation of values *)

From Coq Require Import ZArith List Bool Lia.
From Verif Require Import Base F32 Text Json Debug SpecBasic SpecText SpecFacts SpecJson SpecDecimal SpecJsonText SpecFloatDisplay SpecNan SpecDebug
  JsonText FloatDisplay TextProofs JsonLogic MagnitudeProofs FloatTextProofs NumberTextProofs JsonTextProofs FloatDisplayProofs DebugLogic DebugProofs.
Open Scope Z_scope.

(** ** Numbers *)

Lemma number_whole n c e t : number n c e true t -> e = 0.
Proof.
  intros H. inversion H as [neg ds d fs f x t1 A N D F X E1 E2 E3 E4]. subst. destruct fs; [|discriminate]. destruct x; [discriminate|]. reflexivity.
Qed.

Lemma point_number d k : 0 < d -> d mod 10 <> 0 -> exists c e, 0 <= c /\ same_decimal c e d k /\
  forall neg : bool, number neg c e false ((if neg then lit "-" else []) ++ point_decimal d k).
Proof.
  intros Hd Md. unfold point_decimal. destruct (Z.leb_spec 0 k) as [K|K].
  - destruct (int_text_shape d) as (ds & A & N & V & E). destruct (Z.ltb_spec d 0); [lia|]. rewrite Z.abs_eq in V by lia.
    unfold plain_decimal. cbv zeta. rewrite E. destruct (Z.leb_spec 0 k); [|lia].
    exists (d * 10 ^ k * 10), (-1). split; [pose proof (pow10_pos k); lia|].
    split. { unfold same_decimal. rewrite Z.max_r, Z.max_l by lia. replace (k - -1) with (k + 1) by lia. rewrite Z.pow_add_r by lia. lia. }
    intros neg. assert (Z0 : are_digits [0]) by (constructor; [lia|constructor]).
    pose proof (number_intro neg (ds ++ repeat 0 (Z.to_nat k)) (map digit ds ++ repeat x30 (Z.to_nat k)) [0] (lit ".0") None []) as Q.
    cbn [exponent whole] in Q. change (0 - lenZ [0]) with (-1) in Q.
    replace (digits_number ((ds ++ repeat 0 (Z.to_nat k)) ++ [0])) with (d * 10 ^ k * 10) in Q.
    2: { rewrite !digits_app, digits_zeros, V. unfold lenZ. rewrite repeat_length, Z2Nat.id by lia. cbn. lia. }
    rewrite app_nil_r in Q. apply Q.
    + apply digits_of_app. split; auto. apply zeros_digits.
    + clear - N V Hd. destruct ds as [|x [|y ds]]; [destruct N| |exact N]. cbn [app]. destruct (Z.to_nat k); cbn [repeat]; [exact I|].
      cbn [digits_number length] in V. change (10 ^ Z.of_nat 0) with 1 in V. cbn [no_leading_zero]. lia.
    + rewrite <- map_zeros, <- map_app. apply ascii_map. apply digits_of_app. split; auto. apply zeros_digits.
    + apply (ascii_point [0]); [discriminate|exact Z0].
    + constructor.
  - destruct (plain_number d k Hd Md) as (c & e & Hc & Sc & Tc & Nc). exists c, e. split; [exact Hc|]. split; [exact Sc|].
    intros neg. rewrite app_nil_r. destruct (Nc neg) as ([[] W] & _); [exfalso|exact W].
    apply number_whole in W. subst e. unfold same_decimal in Sc.
    assert (P : 10 ^ (- k) = 10 * 10 ^ (- k - 1)) by (rewrite <- Z.pow_succ_r by lia; f_equal; lia).
    replace (Z.max (0 - k) 0) with (- k) in Sc by lia. replace (Z.max (k - 0) 0) with 0 in Sc by lia. rewrite P in Sc. change (10 ^ 0) with 1 in Sc.
    apply Md. replace d with ((c * 10 ^ (- k - 1)) * 10) by lia. now apply Z.mod_mul.
Qed.

Lemma exponent_ok e : exponent_text (Some e) (lit "e" ++ int_text e).
Proof.
  destruct (int_text_shape e) as (ds & A & N & V & ->). assert (Hn : ds <> []) by (intros ->; exact N).
  destruct (Z.ltb_spec e 0).
  - replace (Some e) with (Some (-1 * digits_number ds)) by (f_equal; lia).
    apply (et_some "e"%byte ["-"%byte] (-1) ds); auto; [now left|right; right; now left|now apply ascii_map].
  - replace (Some e) with (Some (1 * digits_number ds)) by (f_equal; lia).
    apply (et_some "e"%byte [] 1 ds); auto; [now left|now left|now apply ascii_map].
Qed.
Lemma exp_number d k (neg : bool) : 0 < d -> number neg d k false ((if neg then lit "-" else []) ++ exp_decimal d k).
Proof.
  intros Hd. unfold exp_decimal. destruct (int_text_shape d) as (ds & A & N & V & ->). destruct (Z.ltb_spec d 0); [lia|]. rewrite Z.abs_eq in V by lia.
  destruct ds as [|x ds]; [destruct N|]. cbn [map]. inversion A as [|? ? Ax As]; subst.
  assert (X1 : are_digits [x]) by (constructor; auto).
  assert (L : lenZ (map digit ds) = lenZ ds) by (unfold lenZ; now rewrite map_length). rewrite L.
  pose proof (number_intro neg [x] (map digit [x]) ds (match ds with [] => [] | _ => lit "." ++ map digit ds end) (Some (k + lenZ ds))
    (lit "e" ++ int_text (k + lenZ ds)) X1 I (ascii_map _ X1)) as Q.
  cbn [exponent app] in Q. replace (k + lenZ ds - lenZ ds) with k in Q by lia.
  assert (W : whole ds (Some (k + lenZ ds)) = false) by (now destruct ds). rewrite W in Q.
  assert (G : number neg (digits_number (x :: ds)) k false
    ((if neg then ["-"%byte] else []) ++ map digit [x] ++ (match ds with [] => [] | _ => lit "." ++ map digit ds end) ++ lit "e" ++ int_text (k + lenZ ds))).
  { apply Q; [|apply exponent_ok]. destruct ds; [constructor|apply ascii_point; [discriminate|exact As]]. }
  destruct ds; exact G.
Qed.

Lemma debug_shortest x : is_u32 x -> finite x -> exists neg c e d k a,
  number neg c e false (debug_f32 x) /\ same_decimal c e d k /\ shortest_decimal a d k /\ 0 <= c /\
  x = (if neg : bool then 2 ^ 31 + a else a).
Proof.
  intros R F. pose proof (finite_split x R F) as S. destruct (finite_sign x R F) as [Ha _].
  unfold debug_f32. cbv zeta. rewrite float_form_finite by auto. set (a := x mod 2 ^ 31) in *. clearbody a.
  destruct (Z.eqb_spec a 0) as [E|E].
  - exists (negb (x <? 2 ^ 31)), 0, (-1), 0, 0, a. split.
    + assert (Z0 : are_digits [0]) by (constructor; [lia|constructor]).
      apply (number_intro _ [0] (lit "0") [0] (lit ".0") None [] Z0); [exact I| |apply (ascii_point [0]); [discriminate|auto]|constructor].
      constructor; [reflexivity|constructor].
    + split; [reflexivity|]. split; [rewrite E; exact shortest_zero|auto with zarith].
  - destruct (f32_decimal_shortest true a ltac:(lia)) as (d & k & Ed & Sd & _ & Pd & Md). rewrite Ed.
    destruct ((a <? 0x38d1b717) || (0x5a0e1bca <=? a)).
    + exists (negb (x <? 2 ^ 31)), d, k, d, k, a. split; [now apply exp_number|]. split; [reflexivity|]. split; [exact Sd|]. split; [lia|exact S].
    + destruct (point_number d k Pd Md) as (c & e & Hc & Sc & Nc).
      exists (negb (x <? 2 ^ 31)), c, e, d, k, a. auto 6.
Qed.
Lemma debug_float x : is_u32 x -> float_literal x (debug_f32 x).
Proof.
  intros R. destruct (f32_scaled x) eqn:E.
  - left. assert (F : finite x) by (unfold finite; congruence). split; [exact F|].
    destruct (debug_shortest x R F) as (neg & c & e & d & k & a & N & S & Sd & Hc & Ex).
    exists neg, c, e, a. split; auto. split; auto. destruct Sd as (Nd & Rd & _). apply (nearest_same d k); auto; try lia. now apply same_sym.
  - right. assert (F : ~ finite x) by (unfold finite; congruence). split; [exact F|]. unfold debug_f32. cbv zeta. now apply special_form.
Qed.
Lemma debug_nan x : debug_f32 (one_nan x) = debug_f32 x.
Proof.
  unfold one_nan. destruct (Z.ltb_spec 0x7f800000 (x mod 2 ^ 31)) as [L|L]; [|reflexivity].
  unfold debug_f32, float_form. cbv zeta. destruct (Z.ltb_spec (255 * 2 ^ 23) (x mod 2 ^ 31)); [reflexivity|lia].
Qed.

(** ** Texts *)

Lemma hex_digit_value d : 0 <= d < 16 -> hex_value (hex_digit d) d.
Proof.
  intros Hd. unfold hex_value, hex_digit.
  assert (E : Z.of_N (Byte.to_N (byte_of_Z (if d <? 10 then 48 + d else 87 + d))) = if d <? 10 then 48 + d else 87 + d).
  { apply byteZ_of_Z. destruct (Z.ltb_spec d 10); lia. }
  rewrite E. destruct (Z.ltb_spec d 10); lia.
Qed.
Lemma hex_sum_app a b : hex_sum (a ++ b) = hex_sum a * 16 ^ lenZ b + hex_sum b.
Proof.
  unfold lenZ. induction a as [|d a IH]; cbn [app hex_sum]; [lia|]. rewrite IH, app_length, Nat2Z.inj_add, Z.pow_add_r by lia. ring.
Qed.
Lemma hex_digits_ok f : forall x ds acc, 0 <= x < 16 ^ Z.of_nat f -> (0 < f)%nat -> hex_number ds acc ->
  exists es, es <> [] /\ hex_number es (hex_digits f x acc) /\ hex_sum es = x * 16 ^ lenZ ds + hex_sum ds.
Proof.
  induction f as [|f IH]; intros x ds acc H Hf A; [lia|]. cbn [hex_digits].
  destruct (Z.ltb_spec x 16) as [L|L].
  - exists (x :: ds). split; [discriminate|]. split; [constructor; [apply hex_digit_value; lia|exact A]|reflexivity].
  - assert (Nf : f <> O) by (intros ->; change (16 ^ Z.of_nat 1) with 16 in H; lia).
    rewrite Nat2Z.inj_succ, Z.pow_succ_r in H by lia.
    pose proof (Z.mod_pos_bound x 16 eq_refl). pose proof (Z.div_mod x 16 ltac:(discriminate)) as D.
    destruct (IH (x / 16) (x mod 16 :: ds) (hex_digit (x mod 16) :: acc)) as (es & Ne & Hn & Hs).
    + split; [apply Z.div_pos; lia|apply Z.div_lt_upper_bound; lia].
    + lia.
    + constructor; [now apply hex_digit_value|exact A].
    + exists es. split; [exact Ne|]. split; [exact Hn|]. rewrite Hs. cbn [hex_sum]. unfold lenZ. cbn [length]. rewrite Nat2Z.inj_succ, Z.pow_succ_r by lia.
      rewrite D at 3. ring.
Qed.

Section Shown.
Context (shown : Z -> bool).

Lemma debug_char_ok c bs : utf8_one c bs -> char_literal c (debug_char shown c bs).
Proof.
  intros U. assert (S : scalar c) by (apply utf8_one_char in U; tauto). unfold debug_char.
  destruct (Z.eqb_spec c 0) as [->|N0]; [apply cl_short; cbn [In]; tauto|].
  destruct (Z.eqb_spec c 9) as [->|N1]; [apply cl_short; cbn [In]; tauto|].
  destruct (Z.eqb_spec c 10) as [->|N2]; [apply cl_short; cbn [In]; tauto|].
  destruct (Z.eqb_spec c 13) as [->|N3]; [apply cl_short; cbn [In]; tauto|].
  destruct (Z.eqb_spec c 34) as [->|N4]; [apply cl_short; cbn [In]; tauto|].
  destruct (Z.eqb_spec c 92) as [->|N5]; [apply cl_short; cbn [In]; tauto|].
  destruct (if c <? 128 then (32 <=? c) && (c <? 127) else shown c) eqn:E.
  - apply cl_plain; [|exact U]. unfold plain_char. revert E. destruct (Z.ltb_spec c 128); [rewrite andb_true_iff, Z.leb_le, Z.ltb_lt|]; lia.
  - destruct S as [S1 S2]. destruct (hex_digits_ok 6 c [] []) as (es & Ne & Hn & Hs); [change (16 ^ Z.of_nat 6) with 16777216; lia|lia|constructor|].
    change (lenZ (@nil Z)) with 0 in Hs. cbn [hex_sum] in Hs. assert (Es : c = hex_sum es) by lia. rewrite Es at 1. apply cl_unicode; auto. rewrite <- Es. split; auto.
Qed.

Lemma debug_chars_ok cs s : utf8 cs s -> chars_literal cs (debug_chars shown s).
Proof.
  induction 1 as [|c cs s t U H IH]; [constructor|]. pose proof (debug_char_ok c s U) as G. revert G.
  destruct U as [a x Ha Hx|a b x y Ha Hb Hx Hy Hl|a b d x y z Ha Hb Hd Hx Hy Hz Hl Hs|a b d f x y z w Ha Hb Hd Hf Hx Hy Hz Hw Hl];
    cbn [app debug_chars]; repeat match goal with H : SpecText.is ?b ?x |- _ => change (byteZ b = x) in H end; rewrite ?Ha, ?Hb, ?Hd, ?Hf; cbv zeta.
  - destruct (Z.ltb_spec x 128); [|lia]. intros G. now constructor.
  - destruct (Z.ltb_spec (192 + x) 128); [lia|]. destruct (Z.ltb_spec (192 + x) 224); [|lia].
    replace ((192 + x) mod 32) with x by (apply (Z.mod_unique_pos _ _ 6); lia). replace ((128 + y) mod 64) with y by (apply (Z.mod_unique_pos _ _ 2); lia).
    intros G. now constructor.
  - destruct (Z.ltb_spec (224 + x) 128); [lia|]. destruct (Z.ltb_spec (224 + x) 224); [lia|]. destruct (Z.ltb_spec (224 + x) 240); [|lia].
    replace ((224 + x) mod 16) with x by (apply (Z.mod_unique_pos _ _ 14); lia). replace ((128 + y) mod 64) with y by (apply (Z.mod_unique_pos _ _ 2); lia).
    replace ((128 + z) mod 64) with z by (apply (Z.mod_unique_pos _ _ 2); lia).
    replace (64 * (64 * x + y) + z) with (4096 * x + 64 * y + z) by lia. intros G. now constructor.
  - destruct (Z.ltb_spec (240 + x) 128); [lia|]. destruct (Z.ltb_spec (240 + x) 224); [lia|]. destruct (Z.ltb_spec (240 + x) 240); [lia|].
    replace ((240 + x) mod 8) with x by (apply (Z.mod_unique_pos _ _ 30); lia). replace ((128 + y) mod 64) with y by (apply (Z.mod_unique_pos _ _ 2); lia).
    replace ((128 + z) mod 64) with z by (apply (Z.mod_unique_pos _ _ 2); lia). replace ((128 + w) mod 64) with w by (apply (Z.mod_unique_pos _ _ 2); lia).
    replace (64 * (64 * (64 * x + y) + z) + w) with (262144 * x + 4096 * y + 64 * z + w) by lia. intros G. now constructor.
Qed.
Lemma debug_str_ok s : valid_utf8 s -> str_literal s (debug_str shown s).
Proof. intros (cs & U). exists cs, (debug_chars shown s). split; [exact U|]. split; [now apply debug_chars_ok|reflexivity]. Qed.

(** ** Values *)

Lemma in_name_ok b : in_name b = true -> name_byte b.
Proof.
  unfold in_name, name_byte, capital. change SpecDebug.code with byteZ. cbv zeta. rewrite !orb_true_iff, !andb_true_iff, Z.eqb_eq, !Z.leb_le. lia.
Qed.
Lemma names_ok n : forallb in_name n = true -> Forall name_byte n.
Proof. rewrite forallb_forall, Forall_forall. intros H b Hb. now apply in_name_ok, H. Qed.
Lemma is_field_ok n : is_field n = true -> field_name n.
Proof. intros H. destruct n as [|b n]; [discriminate|]. split; [discriminate|]. now apply names_ok. Qed.
Lemma is_type_ok n : is_type n = true -> type_name n.
Proof.
  intros H. unfold is_type in H. destruct n as [|b n]; [discriminate|]. rewrite !andb_true_iff, negb_true_iff, !Z.leb_le in H. destruct H as ((H1 & H2) & H3).
  split; [now apply names_ok|]. split; [intros E; rewrite E in H3; discriminate H3|]. exists b, n. split; [reflexivity|]. unfold capital. exact H1.
Qed.

Lemma commas_cons a l : commas (a :: l) = match l with [] => a | _ => a ++ lit ", " ++ commas l end.
Proof. now destruct l. Qed.
Lemma literals_ok l : Forall (fun d => literal d (debug_text shown d)) l -> literals l (commas (map (debug_text shown) l)).
Proof.
  induction 1 as [|d l H Hl IH]; [constructor|]. cbn [map]. rewrite commas_cons. destruct l as [|e l]; [now constructor|].
  cbn [map] in *. apply ls_more; [exact H|exact IH|discriminate].
Qed.
Lemma fields_ok l : forallb (fun kv => is_field (fst kv)) l = true -> Forall (fun d => literal d (debug_text shown d)) (map snd l) ->
  fields l (commas (map (fun kv => match kv with (k, v) => k ++ lit ": " ++ debug_text shown v end) l)).
Proof.
  induction l as [|[k d] l IH]; intros N H; [constructor|]. cbn [map snd fst forallb] in *. apply andb_true_iff in N as [N Ns]. inversion H; subst.
  apply is_field_ok in N. rewrite commas_cons. destruct l as [|e l]; [now constructor|]. cbn [map] in *. apply fs_more; auto. discriminate.
Qed.

Theorem debug_literal d : ok_dbg d -> literal d (debug_text shown d).
Proof.
  induction d using dbg_tree; intros O; inversion O; subst; cbn [debug_text].
  - constructor. apply int_text_decimal.
  - destruct b; constructor.
  - constructor; [assumption|now apply debug_float].
  - constructor. now apply debug_str_ok.
  - constructor. now apply is_type_ok.
  - apply li_tuple; auto using is_type_ok. apply literals_ok. rewrite Forall_forall in *. auto.
  - apply (li_pair a b). apply (literals_ok [a; b]). rewrite !Forall_cons_iff in *. intuition.
  - apply li_struct; auto using is_type_ok. apply fields_ok; auto. rewrite Forall_forall in *. intros d Hd. apply in_map_iff in Hd as (kv & <- & Hk).
    apply H; auto. match goal with K : forall x, In x (map snd l) -> _ |- _ => apply K end. now apply in_map.
  - apply li_list. apply literals_ok. rewrite Forall_forall in *. auto.
Qed.

Theorem debug_norm d : debug_text shown (norm d) = debug_text shown d.
Proof.
  induction d using dbg_tree; cbn [debug_text norm]; auto.
  - apply debug_nan.
  - rewrite map_map. do 3 f_equal. f_equal. apply map_ext_in. now rewrite Forall_forall in H.
  - rewrite map_map. do 3 f_equal. f_equal. apply map_ext_in. rewrite Forall_forall in H. intros [k v] Hk. specialize (H _ Hk). cbn [snd] in H. now rewrite H.
  - rewrite map_map. do 2 f_equal. f_equal. apply map_ext_in. now rewrite Forall_forall in H.
Qed.

(** two values have the same text just if they are the same up to the bits of NaN *)
Theorem debug_same d d' : ok_dbg d -> ok_dbg d' -> debug_text shown d = debug_text shown d' <-> norm d = norm d'.
Proof.
  intros O O'. split; intros E.
  - apply (literal_fun d d' (debug_text shown d)); [now apply debug_literal|]. rewrite E. now apply debug_literal.
  - now rewrite <- (debug_norm d), <- (debug_norm d'), E.
Qed.
End Shown.

(** ** Lines *)

Lemma visible_app a b : visible a -> visible b -> visible (a ++ b).
Proof. intros. now apply Forall_app. Qed.
Lemma word_visible w : Forall word w -> visible w.
Proof.
  apply Forall_impl. intros b. unfold word, name_byte, capital, numeric, is_digit, SpecDebug.code. cbn [In]. lia.
Qed.
Lemma utf8_visible c t : plain_char c -> utf8_one c t -> visible t.
Proof.
  intros (P1 & _ & _ & P2) U. assert (H : Forall (fun b => byteZ b = c \/ 128 <= byteZ b) t).
  { destruct U as [a x Ha Hx|a b x y Ha Hb Hx Hy Hl|a b d x y z Ha Hb Hd Hx Hy Hz Hl Hs|a b d f x y z w Ha Hb Hd Hf Hx Hy Hz Hw Hl];
      repeat match goal with H : SpecText.is ?b ?x |- _ => change (byteZ b = x) in H end; repeat (apply Forall_cons; [lia|]); apply Forall_nil. }
  revert H. apply Forall_impl. intros b. change SpecDebug.code with byteZ. lia.
Qed.
Lemma hex_visible ds h : hex_number ds h -> visible h.
Proof. induction 1 as [|d b ds h H _ IH]; constructor; auto. unfold SpecDebug.code. unfold hex_value in H. cbv zeta in H. lia. Qed.
Lemma char_visible c t : char_literal c t -> visible t.
Proof.
  intros [c' t' P U|b c' H|ds h N H S].
  - eapply utf8_visible; eauto.
  - constructor; [cbv; split; discriminate|]. constructor; [|constructor]. cbn [In] in H.
    repeat (destruct H as [H|H]; [injection H as H1 H2; subst b; cbv; split; discriminate|]). destruct H.
  - apply visible_app; [repeat (apply Forall_cons; [cbv; split; discriminate|]); apply Forall_nil|].
    apply visible_app; [eapply hex_visible; eauto|repeat (apply Forall_cons; [cbv; split; discriminate|]); apply Forall_nil].
Qed.
Ltac bytes := cbn [lit]; repeat (apply Forall_cons; [cbv; split; discriminate|]); apply Forall_nil.
Lemma chars_visible cs t : chars_literal cs t -> visible t.
Proof. induction 1 as [|c cs t u H _ IH]; [constructor|]. apply visible_app; [eapply char_visible; eauto|exact IH]. Qed.
Lemma atom_visible d t : literal d t -> atom d -> visible t.
Proof. intros H A. apply word_visible. now apply (atom_word d). Qed.
Theorem literal_visible : (forall d t, literal d t -> visible t) /\ (forall l t, literals l t -> visible t) /\ (forall l t, fields l t -> visible t).
Proof.
  apply literal_mutual.
  - intros x t D. apply (atom_visible (DInt x)); [now constructor|exact I].
  - bytes.
  - bytes.
  - intros x t R F. apply (atom_visible (DF32 x)); [now constructor|exact I].
  - intros s t (cs & u & _ & C & ->). constructor; [cbv; split; discriminate|]. apply visible_app; [eapply chars_visible; eauto|bytes].
  - intros n T. apply (atom_visible (DName n)); [now constructor|exact I].
  - intros n l t T _ L _. apply visible_app; [apply word_visible, (type_word n T)|]. apply visible_app; [bytes|]. apply visible_app; [exact L|bytes].
  - intros a b t _ L. apply visible_app; [bytes|]. apply visible_app; [exact L|bytes].
  - intros n l t T _ L _. apply visible_app; [apply word_visible, (type_word n T)|]. apply visible_app; [bytes|]. apply visible_app; [exact L|bytes].
  - intros l t _ L. apply visible_app; [bytes|]. apply visible_app; [exact L|bytes].
  - constructor.
  - auto.
  - intros d t l u _ H _ K _. apply visible_app; [exact H|]. apply visible_app; [bytes|exact K].
  - constructor.
  - intros k d t (_ & N) _ H. apply visible_app; [apply word_visible, name_word, N|]. apply visible_app; [bytes|exact H].
  - intros k d t l u (_ & N) _ H _ K _. apply visible_app; [|apply visible_app; [bytes|exact K]].
    apply visible_app; [apply word_visible, name_word, N|]. apply visible_app; [bytes|exact H].
Qed.
