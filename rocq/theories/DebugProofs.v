(** * Proofs: the notation of values is unambiguous *)

From Coq Require Import ZArith List Bool Lia.
From Verif Require Import Base F32 Text Json Debug SpecBasic SpecText SpecFacts SpecJson SpecDecimal SpecJsonText SpecFloatDisplay SpecNan SpecDebug
  JsonText TextProofs JsonLogic MagnitudeProofs FloatTextProofs NumberTextProofs JsonTextProofs DebugLogic.
Open Scope Z_scope.

(** ** Characters *)

Lemma code_byteZ b : SpecDebug.code b = byteZ b.
Proof. reflexivity. Qed.
Lemma hex_digit_not b d : hex_value b d -> b <> x7d /\ b <> x22.
Proof. intros H. split; intros ->; revert H; unfold hex_value; cbn; lia. Qed.
Lemma hex_fun_list ds : forall h es, hex_number ds h -> hex_number es h -> ds = es.
Proof.
  induction ds as [|d ds IH]; intros h es H K; inversion H; subst; inversion K; subst; [reflexivity|].
  f_equal; [eapply hex_fun; eauto|eapply IH; eauto].
Qed.
Lemma hex_number_digits ds h : hex_number ds h -> Forall (fun b => exists d, hex_value b d) h.
Proof. induction 1; constructor; eauto. Qed.

Lemma utf8_head c t r : utf8_one c t -> exists b z, t ++ r = b :: z /\ (byteZ b = c \/ 128 <= byteZ b /\ 128 <= c).
Proof.
  intros H. destruct H as [a x Ha Hx|a b x y Ha Hb Hx Hy Hl|a b d x y z Ha Hb Hd Hx Hy Hz Hl|a b d f x y z w Ha Hb Hd Hf Hx Hy Hz Hw Hl];
    cbn [app]; (eexists _, _; split; [reflexivity|]); apply TextProofs.is_byteZ in Ha; [left; exact Ha|right|right|right]; rewrite Ha; cbv beta in *; lia.
Qed.
Lemma plain_head c t r : plain_char c -> utf8_one c t -> exists b z, t ++ r = b :: z /\ b <> x5c /\ b <> x22.
Proof.
  intros (P1 & P2 & P3 & P4) U. destruct (utf8_head c t r U) as (b & z & E & H). exists b, z. split; [exact E|].
  split; intros ->; cbn in H; lia.
Qed.
Lemma short_not_u b c : In (b, c) [(x30, 0); (x74, 9); (x6e, 10); (x72, 13); (x22, 34); (x27, 39); (x5c, 92)] -> b <> x75.
Proof. cbn [In]. intros H. repeat (destruct H as [H|H]; [injection H as H1 H2; subst b; discriminate|]). destruct H. Qed.
Lemma short_same b c c' : In (b, c) [(x30, 0); (x74, 9); (x6e, 10); (x72, 13); (x22, 34); (x27, 39); (x5c, 92)] ->
  In (b, c') [(x30, 0); (x74, 9); (x6e, 10); (x72, 13); (x22, 34); (x27, 39); (x5c, 92)] -> c = c'.
Proof.
  cbn [In]. intros H K. repeat (destruct H as [H|H]; [injection H as H1 H2; subst b c; repeat (destruct K as [K|K]; [injection K as K1; congruence|]); destruct K|]). destruct H.
Qed.

Lemma literal_char_fun c t c' t' r r' : char_literal c t -> char_literal c' t' -> t ++ r = t' ++ r' -> c = c' /\ t = t' /\ r = r'.
Proof.
  intros H K E. destruct H as [c t P U|b c Hb|ds h Hn Hh Hs]; destruct K as [c' t' P' U'|b' c' Hb'|ds' h' Hn' Hh' Hs'].
  - destruct (utf8_one_prefix c c' t t' r r' U U' E) as (-> & -> & ->). auto.
  - destruct (plain_head c t r P U) as (b & z & Eb & N & _). rewrite Eb in E. cbn [app] in E. congruence.
  - destruct (plain_head c t r P U) as (b & z & Eb & N & _). rewrite Eb in E. cbn [app] in E. congruence.
  - destruct (plain_head c' t' r' P' U') as (b' & z & Eb & N & _). rewrite Eb in E. cbn [app] in E. congruence.
  - cbn [app] in E. injection E as <- <-. split; [eapply short_same; eauto|auto].
  - cbn [app] in E. injection E as E _. apply short_not_u in Hb. congruence.
  - destruct (plain_head c' t' r' P' U') as (b' & z & Eb & N & _). rewrite Eb in E. cbn [app] in E. congruence.
  - cbn [app] in E. injection E as E _. apply short_not_u in Hb'. congruence.
  - cbn [app] in E. injection E as E. rewrite <- !app_assoc in E. cbn [app] in E.
    destruct (span (fun b => exists d, hex_value b d) h h' (x7d :: r) (x7d :: r')) as [-> E2]; eauto using hex_number_digits.
    + intros (d & Hd). now apply hex_digit_not in Hd.
    + intros (d & Hd). now apply hex_digit_not in Hd.
    + injection E2 as ->. assert (ds = ds') as -> by (eapply hex_fun_list; eauto). auto.
Qed.
Lemma literal_char_start c t r : char_literal c t -> exists b z, t ++ r = b :: z /\ b <> x22.
Proof.
  intros [c' t' P U|b c' Hb|ds h Hn Hh Hs].
  - destruct (plain_head c' t' r P U) as (b & z & E & _ & N). eauto.
  - cbn [app]. eexists _, _. split; [reflexivity|discriminate].
  - cbn [app]. eexists _, _. split; [reflexivity|discriminate].
Qed.
Lemma chars_literal_fun cs u : chars_literal cs u -> forall cs' u' r r', chars_literal cs' u' -> u ++ x22 :: r = u' ++ x22 :: r' ->
  cs = cs' /\ u = u' /\ r = r'.
Proof.
  induction 1 as [|c cs t u H Hs IH]; intros cs' u' r r' K E; destruct K as [|c' cs' t' u' K Ks].
  - injection E as ->. auto.
  - rewrite <- app_assoc in E. destruct (literal_char_start c' t' (u' ++ x22 :: r') K) as (b & z & Eb & N). rewrite Eb in E. cbn [app] in E. congruence.
  - rewrite <- app_assoc in E. destruct (literal_char_start c t (u ++ x22 :: r) H) as (b & z & Eb & N). rewrite Eb in E. cbn [app] in E. congruence.
  - rewrite <- !app_assoc in E. destruct (literal_char_fun _ _ _ _ _ _ H K E) as (-> & -> & E').
    destruct (IH _ _ _ _ Ks E') as (-> & -> & ->). auto.
Qed.
Lemma str_literal_fun s t s' t' r r' : str_literal s t -> str_literal s' t' -> t ++ r = t' ++ r' -> s = s' /\ t = t' /\ r = r'.
Proof.
  intros (cs & u & U & C & ->) (cs' & u' & U' & C' & ->) E. cbn [app] in E. injection E as E. rewrite <- !app_assoc in E. cbn [app] in E.
  destruct (chars_literal_fun _ _ C _ _ _ _ C' E) as (-> & -> & ->). split; [eapply utf8_fun; eauto|auto].
Qed.

(** ** Words: what has no brackets, quotation marks, commas, colons or spaces *)

Definition word (b : byte) : Prop := name_byte b \/ numeric b.
Lemma name_word n : Forall name_byte n -> Forall word n.
Proof. apply Forall_impl. now left. Qed.
Lemma numeric_word n : Forall numeric n -> Forall word n.
Proof. apply Forall_impl. now right. Qed.

Lemma decimal_number x t : decimal x t -> number (x <? 0) (Z.abs x) 0 true t.
Proof.
  intros (ds & u & A & N & D & V & ->). pose proof (number_intro (x <? 0) ds u [] [] None [] A N D ft_none et_none) as Q.
  rewrite !app_nil_r, V in Q. change (exponent None - lenZ (@nil Z)) with 0 in Q. cbn [whole] in Q.
  destruct (x <? 0); exact Q.
Qed.
Lemma number_head n c e w t : number n c e w t -> exists b r, t = b :: r /\ (is_digit b \/ b = "-"%byte).
Proof.
  intros [neg ds d fs f x t1 A N D F X]. destruct (leading_digit _ _ A N D) as (b & r & -> & Hb).
  destruct neg; cbn [app]; eexists _, _; (split; [reflexivity|]); auto.
Qed.
Lemma special_letters x t : special_text x t -> t = lit "inf" \/ t = lit "-inf" \/ t = lit "NaN".
Proof. intros [(_ & ->)|[(_ & ->)|(_ & _ & ->)]]; auto. Qed.
Lemma not_numeric_n b : b = "n"%byte \/ b = "N"%byte -> ~ numeric b.
Proof. unfold numeric, is_digit. intros [-> | ->]; cbn; lia. Qed.
Lemma special_not_number x t n c e w : special_text x t -> ~ number n c e w t.
Proof.
  intros S N. apply number_numeric in N as [N _]. apply special_letters in S.
  assert (H : In "n"%byte t \/ In "N"%byte t) by (destruct S as [->|[->| ->]]; cbn; tauto).
  rewrite Forall_forall in N. destruct H as [H|H]; apply N in H; revert H; apply not_numeric_n; auto.
Qed.
Lemma special_nan x y t : is_u32 x -> is_u32 y -> special_text x t -> special_text y t -> ~ finite x -> ~ finite y -> one_nan x = one_nan y.
Proof.
  assert (K : forall x, is_u32 x -> ~ finite x -> x <> 0x7f800000 -> x <> 0xff800000 -> one_nan x = 0x7fc00000).
  { clear. intros x R F N1 N2. unfold one_nan. destruct (Z.ltb_spec 0x7f800000 (x mod 2 ^ 31)) as [L|L]; [reflexivity|]. exfalso. apply F.
    unfold is_u32 in R. unfold finite, f32_scaled. cbv zeta.
    assert (E : (x / 2 ^ 23) mod 2 ^ 8 <> 255).
    { intros E. Z.div_mod_to_equations; lia. }
    destruct (Z.eqb_spec ((x / 2 ^ 23) mod 2 ^ 8) 255); [contradiction|]. destruct ((x / 2 ^ 23) mod 2 ^ 8 =? 0); discriminate. }
  intros Rx Ry [(-> & ->)|[(-> & ->)|(Nx & Nx' & ->)]] [(-> & E)|[(-> & E)|(Ny & Ny' & E)]] Fx Fy; try discriminate E; try reflexivity.
  now rewrite !K.
Qed.

Definition letters (t : str) : Prop := t = lit "true" \/ t = lit "false".
Lemma letters_not_number t n c e w : letters t -> ~ number n c e w t.
Proof.
  intros L N. apply number_head in N as (b & r & -> & H). unfold is_digit in H.
  destruct L as [E|E]; injection E as -> _; destruct H as [H|H]; (discriminate H || (cbn in H; lia)).
Qed.
Lemma capital_not_number n c e w t : type_name t -> ~ number n c e w t.
Proof.
  intros (_ & _ & b & r & -> & H) N. apply number_head in N as (b' & r' & E & K). injection E as <- _. unfold is_digit, capital, SpecDebug.code in *.
  destruct K as [K| ->]; [lia|cbn in H; lia].
Qed.
Lemma capital_not_letters t : type_name t -> ~ letters t.
Proof. intros (_ & _ & b & r & -> & H) [E|E]; injection E as -> _; unfold capital, SpecDebug.code in H; cbn in H; lia. Qed.
Lemma capital_not_special x t : type_name t -> ~ special_text x t.
Proof.
  intros (_ & N & b & r & E & H) S. apply special_letters in S as [->|[->| ->]]; [| |congruence];
    injection E as <- _; unfold capital, SpecDebug.code in H; cbn in H; lia.
Qed.
Lemma letters_not_special x t : letters t -> ~ special_text x t.
Proof. intros [->| ->] S; apply special_letters in S as [E|[E|E]]; discriminate E. Qed.

(** ** Kinds of values *)

Definition atom (d : dbg) : Prop := match d with DInt _ | DBool _ | DF32 _ | DName _ => True | _ => False end.

Lemma float_number x t : finite x -> float_text x t -> exists n c e, number n c e false t.
Proof. intros _ (n & c & e & a & N & _). eauto. Qed.

Ltac letters_word := cbn; repeat first [apply Forall_nil | apply Forall_cons; [unfold word, name_byte, capital, numeric, is_digit; cbn; lia|]].
Lemma atom_word d t : literal d t -> atom d -> t <> [] /\ Forall word t.
Proof.
  intros H A. destruct H as [x t D| | |x t R F|s t S|n T| | | |]; try contradiction A.
  - apply decimal_number, number_numeric in D as [D (b & r & -> & _)]. split; [discriminate|now apply numeric_word].
  - split; [discriminate|]. cbn [lit]; letters_word.
  - split; [discriminate|]. cbn [lit]; letters_word.
  - destruct F as [[F1 F2]|[F1 F2]].
    + destruct (float_number _ _ F1 F2) as (n & c & e & N). apply number_numeric in N as [D (b & r & -> & _)].
      split; [discriminate|now apply numeric_word].
    + apply special_letters in F2 as [->|[->| ->]]; (split; [discriminate|]); letters_word.
  - destruct T as (T & _ & b & r & -> & _). split; [discriminate|now apply name_word].
Qed.

Ltac absurd_atoms :=
  match goal with
  | S : special_text _ ?t, N : number _ _ _ _ ?t |- _ => exfalso; exact (special_not_number _ _ _ _ _ _ S N)
  | L : letters ?t, N : number _ _ _ _ ?t |- _ => exfalso; exact (letters_not_number _ _ _ _ _ L N)
  | T : type_name ?t, N : number _ _ _ _ ?t |- _ => exfalso; exact (capital_not_number _ _ _ _ _ T N)
  | T : type_name ?t, L : letters ?t |- _ => exfalso; exact (capital_not_letters _ T L)
  | T : type_name ?t, S : special_text _ ?t |- _ => exfalso; exact (capital_not_special _ _ T S)
  | L : letters ?t, S : special_text _ ?t |- _ => exfalso; exact (letters_not_special _ _ L S)
  end.

Lemma atoms_fun d t d' : literal d t -> atom d -> literal d' t -> atom d' -> norm d = norm d'.
Proof.
  intros H A K A'.
  assert (Q : forall d, literal d t -> atom d ->
    (exists x n c, d = DInt x /\ decimal x t /\ number n c 0 true t) \/ (exists b, d = DBool b /\ letters t /\ t = if b : bool then lit "true" else lit "false") \/
    (exists x n c e, d = DF32 x /\ finite x /\ float_text x t /\ number n c e false t) \/
    (exists x, d = DF32 x /\ is_u32 x /\ ~ finite x /\ special_text x t) \/ (d = DName t /\ type_name t)).
  { clear. intros d H A. destruct H as [x t D| | |x t R F|s t S|n T| | | |]; try contradiction A.
    - left. exists x. eexists _, _. split; [reflexivity|]. split; [exact D|]. exact (decimal_number _ _ D).
    - right; left. exists true. split; [reflexivity|]. split; [now left|reflexivity].
    - right; left. exists false. split; [reflexivity|]. split; [now right|reflexivity].
    - destruct F as [[F1 F2]|[F1 F2]].
      + right; right; left. destruct (float_number _ _ F1 F2) as (n & c & e & N). exists x, n, c, e. auto.
      + do 3 right; left. exists x. auto.
    - do 4 right. auto. }
  destruct (Q d H A) as [(x & n & c & -> & D & N)|[(b & -> & L & E)|[(x & n & c & e & -> & Fx & Tx & N)|[(x & -> & R & Fx & S)|(-> & T)]]]];
    destruct (Q d' K A') as [(x' & n' & c' & -> & D' & N')|[(b' & -> & L' & E')|[(x' & n' & c' & e' & -> & Fx' & Tx' & N')|[(x' & -> & R' & Fx' & S')|(-> & T')]]]];
    try absurd_atoms; cbn [norm].
  - apply decimal_number in D, D'. pose proof (number_fun _ _ _ _ _ _ _ _ _ _ D D' eq_refl) as Q'. injection Q' as Es Ea.
    f_equal. revert Es. destruct (Z.ltb_spec x 0), (Z.ltb_spec x' 0); intros Es; try discriminate Es; lia.
  - pose proof (number_fun _ _ _ _ _ _ _ _ _ _ N N' eq_refl) as Q'. discriminate Q'.
  - subst t. destruct b, b'; try reflexivity; discriminate E'.
  - pose proof (number_fun _ _ _ _ _ _ _ _ _ _ N N' eq_refl) as Q'. discriminate Q'.
  - f_equal. f_equal. eapply float_fun; eauto.
  - f_equal. eapply special_nan; eauto.
  - reflexivity.
Qed.

(** what can follow a value *)
Definition closing (u : str) : Prop :=
  match u with
  | [] => True
  | b :: r => b = ","%byte \/ b = ")"%byte \/ b = "]"%byte \/ b = " "%byte /\ exists z, r = "}"%byte :: z
  end.
Lemma not_word b : In b [","%byte; ")"%byte; "]"%byte; " "%byte; "("%byte; ":"%byte; x22; "["%byte] -> ~ word b.
Proof.
  unfold word, name_byte, capital, numeric, is_digit, SpecDebug.code. cbn [In].
  intros H K. repeat (destruct H as [<-|H]; [cbn in K; lia|]). destruct H.
Qed.
Lemma closing_stops u : closing u -> stops word u.
Proof.
  destruct u as [|b r]; [auto|]. intros H. cbn [stops]. apply not_word. cbn [In].
  destruct H as [->|[->|[->|(-> & _)]]]; tauto.
Qed.
Lemma type_word n : type_name n -> n <> [] /\ Forall word n.
Proof. intros (T & _ & b & r & -> & _). split; [discriminate|now apply name_word]. Qed.

(** a value, by its first characters *)
Inductive shape : dbg -> str -> str -> Prop :=
| sh_atom d t u : atom d -> literal d t -> t <> [] -> Forall word t -> closing u -> shape d t u
| sh_tuple n l t u : type_name n -> literals l t -> l <> [] -> n <> [] -> Forall word n -> shape (DTuple n l) (n ++ lit "(" ++ t ++ lit ")") u
| sh_pair a b t u : literals [a; b] t -> shape (DTuple [] [a; b]) (lit "(" ++ t ++ lit ")") u
| sh_struct n l t u : type_name n -> fields l t -> l <> [] -> n <> [] -> Forall word n -> shape (DStruct n l) (n ++ lit " { " ++ t ++ lit " }") u
| sh_str s t u : str_literal s (x22 :: t) -> shape (DStr s) (x22 :: t) u
| sh_list l t u : literals l t -> shape (DList l) (lit "[" ++ t ++ lit "]") u.
Lemma shapes d t u : literal d t -> closing u -> shape d t u.
Proof.
  intros H C. assert (A : atom d -> shape d t u).
  { intros A. destruct (atom_word d t H A). now constructor. }
  destruct H as [x t D| | |x t R F|s t S|n T|n l t T L N|a b t L|n l t T L N|l t L]; try (apply A; exact I).
  - destruct S as (cs & v & U & S & ->). apply sh_str. exists cs, v. auto.
  - destruct (type_word n T). now apply sh_tuple.
  - now apply sh_pair.
  - destruct (type_word n T). now apply sh_struct.
  - now apply sh_list.
Qed.

Lemma word_head w r b z : w <> [] -> Forall word w -> w ++ r = b :: z -> word b.
Proof. destruct w as [|a w]; [congruence|]. intros _ F E. inversion F; subst. cbn [app] in E. injection E as <- _. assumption. Qed.
Lemma literal_start d t : literal d t -> exists b z, t = b :: z /\ (word b \/ b = x22 \/ b = "["%byte \/ b = "("%byte).
Proof.
  intros H. destruct (shapes d t [] H I) as [d t u A K N W C|n l t u T L N E W|x y t u L|n l t u T L N E W|s t u S|l t u L].
  - destruct t as [|b t]; [congruence|]. inversion W; subst. eexists _, _. split; [reflexivity|]. auto.
  - destruct n as [|b n]; [congruence|]. inversion W; subst. cbn [app]. eexists _, _. split; [reflexivity|]. auto.
  - cbn [lit app]. eexists _, _. split; [reflexivity|]. auto.
  - destruct n as [|b n]; [congruence|]. inversion W; subst. cbn [app]. eexists _, _. split; [reflexivity|]. auto.
  - eexists _, _. split; [reflexivity|]. auto.
  - cbn [lit app]. eexists _, _. split; [reflexivity|]. auto.
Qed.
Lemma literal_not_closing d t r b z : literal d t -> t ++ r = b :: z -> b <> ")"%byte /\ b <> "]"%byte.
Proof.
  intros H E. apply literal_start in H as (a & y & -> & H). cbn [app] in E. injection E as -> _.
  split; intros ->; destruct H as [H|[H|[H|H]]]; try discriminate H; revert H; apply not_word; cbn [In]; tauto.
Qed.

(** ** Uniqueness *)

Scheme literal_ind3 := Minimality for literal Sort Prop
  with literals_ind3 := Minimality for literals Sort Prop
  with fields_ind3 := Minimality for fields Sort Prop.
Combined Scheme literal_mutual from literal_ind3, literals_ind3, fields_ind3.

Definition Pd (d : dbg) (t : str) : Prop := forall d' t' u u', literal d' t' -> closing u -> closing u' -> t ++ u = t' ++ u' ->
  norm d = norm d' /\ t = t' /\ u = u'.
Definition ends (u : str) : Prop := exists r, u = ")"%byte :: r \/ u = "]"%byte :: r.
Definition Pl (l : list dbg) (t : str) : Prop := forall l' t' u u', literals l' t' -> ends u -> ends u' -> t ++ u = t' ++ u' ->
  map norm l = map norm l' /\ t = t' /\ u = u'.
Definition norm_field (kv : str * dbg) : str * dbg := match kv with (k, v) => (k, norm v) end.
Definition Pf (l : list (str * dbg)) (t : str) : Prop := forall l' t' u u', fields l' t' -> l <> [] -> l' <> [] ->
  t ++ lit " }" ++ u = t' ++ lit " }" ++ u' -> map norm_field l = map norm_field l' /\ t = t' /\ u = u'.

Lemma ends_closing u : ends u -> closing u.
Proof. intros (r & [->| ->]); cbn; auto. Qed.
Lemma comma_closing u : closing (lit ", " ++ u).
Proof. cbn. auto. Qed.
Lemma brace_closing u : closing (lit " }" ++ u).
Proof. cbn. eauto 7. Qed.

(** one of the words of two shapes *)
Ltac split_words E :=
  match type of E with ?a ++ ?x = ?b ++ ?y =>
    let Ew := fresh "Ew" in let Er := fresh "Er" in
    destruct (span word a b x y) as [Ew Er];
    [assumption|assumption|first [now apply closing_stops | (cbn [lit app stops]; apply not_word; cbn [In]; tauto)]
    |first [now apply closing_stops | (cbn [lit app stops]; apply not_word; cbn [In]; tauto)]|exact E|]
  end.

Lemma atom_case d t : literal d t -> atom d -> Pd d t.
Proof.
  intros H A d' t' u u' K C C' E. destruct (atom_word d t H A) as [N W].
  destruct (shapes d' t' u' K C') as [d' t' u' A' K' N' W' _|n l t' u' T L Nl N' W'|x y t' u' L|n l t' u' T L Nl N' W'|s t' u' S|l t' u' L].
  - split_words E. subst t' u'. split; [eapply atoms_fun; eauto|auto].
  - rewrite <- !app_assoc in E. split_words E. subst u. exfalso. cbn in C. destruct C as [C|[C|[C|(C & _)]]]; discriminate C.
  - exfalso. cbn [lit app] in E. apply (word_head t u _ _ N W) in E. revert E. apply not_word. cbn [In]. tauto.
  - rewrite <- !app_assoc in E. split_words E. subst u. exfalso. cbn in C. destruct C as [C|[C|[C|(_ & z & C)]]]; discriminate C.
  - exfalso. cbn [app] in E. apply (word_head t u _ _ N W) in E. revert E. apply not_word. cbn [In]. tauto.
  - exfalso. cbn [lit app] in E. apply (word_head t u _ _ N W) in E. revert E. apply not_word. cbn [In]. tauto.
Qed.

Theorem literal_unique : (forall d t, literal d t -> Pd d t) /\ (forall l t, literals l t -> literals l t /\ Pl l t) /\ (forall l t, fields l t -> fields l t /\ Pf l t).
Proof.
  apply literal_mutual.
  - intros x t D. apply atom_case; [now constructor|exact I].
  - apply atom_case; [constructor|exact I].
  - apply atom_case; [constructor|exact I].
  - intros x t R F. apply atom_case; [now constructor|exact I].
  - (* texts *)
    intros s t S d' t' u u' K C C' E. destruct (shapes d' t' u' K C') as [d' t' u' A' K' N' W' _|n l t' u' T L Nl N' W'|x y t' u' L|n l t' u' T L Nl N' W'|s' t' u' S'|l t' u' L].
    + exfalso. destruct S as (cs & v & _ & _ & ->). symmetry in E. cbn [app] in E. apply (word_head _ _ _ _ N' W') in E. revert E. apply not_word. cbn [In]. tauto.
    + exfalso. destruct S as (cs & v & _ & _ & ->). symmetry in E. rewrite <- app_assoc in E. cbn [app] in E. apply (word_head _ _ _ _ N' W') in E. revert E. apply not_word. cbn [In]. tauto.
    + exfalso. destruct S as (cs & v & _ & _ & ->). discriminate E.
    + exfalso. destruct S as (cs & v & _ & _ & ->). symmetry in E. rewrite <- app_assoc in E. cbn [app] in E. apply (word_head _ _ _ _ N' W') in E. revert E. apply not_word. cbn [In]. tauto.
    + destruct (str_literal_fun _ _ _ _ _ _ S S' E) as (-> & <- & ->). auto.
    + exfalso. destruct S as (cs & v & _ & _ & ->). discriminate E.
  - intros n T. apply atom_case; [now constructor|exact I].
  - (* a name with values *)
    intros n l t T _ [L IH] N d' t' u u' K C C' E. destruct (type_word n T) as [Nn Wn].
    destruct (shapes d' t' u' K C') as [d' t' u' A' K' N' W' _|n' l' t' u' T' L' Nl N' W'|x' y' t' u' L'|n' l' t' u' T' L' Nl N' W'|s' t' u' S'|l' t' u' L'];
      rewrite <- !app_assoc in E.
    + split_words E. subst u'. exfalso. cbn in C'. destruct C' as [Q|[Q|[Q|(Q & _)]]]; discriminate Q.
    + split_words E. subst n'. cbn [lit app] in Er. injection Er as Er.
      destruct (IH l' t' (")"%byte :: u) (")"%byte :: u')) as (M & -> & Q); [assumption|eexists; left; reflexivity|eexists; left; reflexivity|exact Er|].
      injection Q as ->. cbn [norm]. now rewrite M.
    + exfalso. apply (word_head _ _ _ _ Nn Wn) in E. revert E. apply not_word. cbn [In]. tauto.
    + split_words E. discriminate Er.
    + exfalso. apply (word_head _ _ _ _ Nn Wn) in E. revert E. apply not_word. cbn [In]. tauto.
    + exfalso. apply (word_head _ _ _ _ Nn Wn) in E. revert E. apply not_word. cbn [In]. tauto.
  - (* pairs *)
    intros x y t _ [L IH] d' t' u u' K C C' E.
    destruct (shapes d' t' u' K C') as [d' t' u' A' K' N' W' _|n' l' t' u' T' L' Nl N' W'|x' y' t' u' L'|n' l' t' u' T' L' Nl N' W'|s' t' u' S'|l' t' u' L'];
      rewrite <- !app_assoc in E.
    + exfalso. symmetry in E. apply (word_head _ _ _ _ N' W') in E. revert E. apply not_word. cbn [In]. tauto.
    + exfalso. symmetry in E. apply (word_head _ _ _ _ N' W') in E. revert E. apply not_word. cbn [In]. tauto.
    + cbn [lit app] in E. injection E as E.
      destruct (IH [x'; y'] t' (")"%byte :: u) (")"%byte :: u')) as (M & -> & Q); [assumption|eexists; left; reflexivity|eexists; left; reflexivity|exact E|].
      injection Q as ->. cbn [norm]. now rewrite M.
    + exfalso. symmetry in E. apply (word_head _ _ _ _ N' W') in E. revert E. apply not_word. cbn [In]. tauto.
    + discriminate E.
    + discriminate E.
  - (* a name with fields *)
    intros n l t T _ [L IH] N d' t' u u' K C C' E. destruct (type_word n T) as [Nn Wn].
    destruct (shapes d' t' u' K C') as [d' t' u' A' K' N' W' _|n' l' t' u' T' L' Nl N' W'|x' y' t' u' L'|n' l' t' u' T' L' Nl N' W'|s' t' u' S'|l' t' u' L'];
      rewrite <- !app_assoc in E.
    + split_words E. subst u'. exfalso. cbn in C'. destruct C' as [Q|[Q|[Q|(_ & z & Q)]]]; discriminate Q.
    + split_words E. discriminate Er.
    + exfalso. apply (word_head _ _ _ _ Nn Wn) in E. revert E. apply not_word. cbn [In]. tauto.
    + split_words E. subst n'. cbn [lit app] in Er. injection Er as Er.
      destruct (IH l' t' u u') as (M & -> & ->); [assumption|assumption|assumption|exact Er|].
      cbn [norm]. unfold norm_field in M. now rewrite M.
    + exfalso. apply (word_head _ _ _ _ Nn Wn) in E. revert E. apply not_word. cbn [In]. tauto.
    + exfalso. apply (word_head _ _ _ _ Nn Wn) in E. revert E. apply not_word. cbn [In]. tauto.
  - (* lists *)
    intros l t _ [L IH] d' t' u u' K C C' E.
    destruct (shapes d' t' u' K C') as [d' t' u' A' K' N' W' _|n' l' t' u' T' L' Nl N' W'|x' y' t' u' L'|n' l' t' u' T' L' Nl N' W'|s' t' u' S'|l' t' u' L'];
      rewrite <- !app_assoc in E.
    + exfalso. symmetry in E. apply (word_head _ _ _ _ N' W') in E. revert E. apply not_word. cbn [In]. tauto.
    + exfalso. symmetry in E. apply (word_head _ _ _ _ N' W') in E. revert E. apply not_word. cbn [In]. tauto.
    + discriminate E.
    + exfalso. symmetry in E. apply (word_head _ _ _ _ N' W') in E. revert E. apply not_word. cbn [In]. tauto.
    + discriminate E.
    + cbn [lit app] in E. injection E as E.
      destruct (IH l' t' ("]"%byte :: u) ("]"%byte :: u')) as (M & -> & Q); [assumption|eexists; right; reflexivity|eexists; right; reflexivity|exact E|].
      injection Q as ->. cbn [norm]. now rewrite M.
  - split; [constructor|]. intros l' t' u u' K C C' E. destruct K as [|d t K|d t l v K Ks N].
    + cbn [app] in E. subst. auto.
    + exfalso. symmetry in E. destruct C as (r & [->| ->]); destruct (literal_not_closing _ _ _ _ _ K E); congruence.
    + exfalso. symmetry in E. rewrite <- app_assoc in E. destruct C as (r & [->| ->]); destruct (literal_not_closing _ _ _ _ _ K E); congruence.
  - intros d t H IH. split; [now constructor|]. intros l' t' u u' K C C' E. destruct K as [|d' t' K|d' t' l v K Ks N].
    + exfalso. destruct C' as (r & [->| ->]); cbn [app] in E; destruct (literal_not_closing _ _ _ _ _ H E); congruence.
    + destruct (IH d' t' u u') as (M & -> & ->); auto using ends_closing. cbn [map]. now rewrite M.
    + rewrite <- !app_assoc in E. destruct (IH d' t' u (lit ", " ++ v ++ u')) as (M & -> & Q); auto using ends_closing, comma_closing.
      subst u. exfalso. destruct C as (r & [Q|Q]); discriminate Q.
  - intros d t l v H IH _ [Hl IHl] N. split; [now constructor|]. intros l' t' u u' K C C' E. rewrite <- !app_assoc in E. destruct K as [|d' t' K|d' t' l' v' K Ks N'].
    + exfalso. destruct C' as (r & [->| ->]); cbn [app] in E; destruct (literal_not_closing _ _ _ _ _ H E); congruence.
    + destruct (IH d' t' (lit ", " ++ v ++ u) u') as (M & -> & Q); auto using ends_closing, comma_closing.
      subst u'. exfalso. destruct C' as (r & [Q|Q]); discriminate Q.
    + rewrite <- !app_assoc in E. destruct (IH d' t' (lit ", " ++ v ++ u) (lit ", " ++ v' ++ u')) as (M & -> & Q); auto using comma_closing.
      apply app_inv_head in Q. destruct (IHl _ _ _ _ Ks C C' Q) as (M' & -> & ->). cbn [map]. now rewrite M, M'.
  - split; [constructor|]. intros l' t' u u' K N. congruence.
  - intros k d t Hk H IH. split; [now constructor|]. intros l' t' u u' K _ N' E. rewrite <- !app_assoc in E. destruct Hk as [Nk Fk]. apply name_word in Fk.
    destruct K as [|k' d' t' (Nk' & Fk') K|k' d' t' l v (Nk' & Fk') K Ks N]; [congruence| |]; apply name_word in Fk'; rewrite <- !app_assoc in E; split_words E; subst k'; apply app_inv_head in Er.
    + destruct (IH d' t' (lit " }" ++ u) (lit " }" ++ u')) as (M & -> & Q); auto using brace_closing. apply app_inv_head in Q. subst. cbn [map norm_field]. now rewrite M.
    + destruct (IH d' t' (lit " }" ++ u) (lit ", " ++ v ++ lit " }" ++ u')) as (M & -> & Q); auto using brace_closing, comma_closing. discriminate Q.
  - intros k d t l v Hk H IH _ [Hl IHl] N. split; [now constructor|]. intros l' t' u u' K _ N' E. rewrite <- !app_assoc in E. destruct Hk as [Nk Fk]. apply name_word in Fk.
    destruct K as [|k' d' t' (Nk' & Fk') K|k' d' t' l' v' (Nk' & Fk') K Ks Nl]; [congruence| |]; apply name_word in Fk'; rewrite <- !app_assoc in E; split_words E; subst k'; apply app_inv_head in Er.
    + destruct (IH d' t' (lit ", " ++ v ++ lit " }" ++ u) (lit " }" ++ u')) as (M & -> & Q); auto using brace_closing, comma_closing. discriminate Q.
    + destruct (IH d' t' (lit ", " ++ v ++ lit " }" ++ u) (lit ", " ++ v' ++ lit " }" ++ u')) as (M & -> & Q); auto using comma_closing. apply app_inv_head in Q.
      destruct (IHl _ _ _ _ Ks N Nl Q) as (M' & -> & ->). cbn [map norm_field]. now rewrite M, M'.
Qed.

Theorem literal_fun d d' t : literal d t -> literal d' t -> norm d = norm d'.
Proof. intros H K. destruct (proj1 literal_unique d t H d' t [] [] K I I eq_refl) as (M & _). exact M. Qed.
