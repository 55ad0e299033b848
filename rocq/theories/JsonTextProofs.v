(** * Proofs: JSON texts *)

From Coq Require Import ZArith List Bool Lia.
From Verif Require Import Base F32 Json SpecBasic SpecText SpecFacts SpecJson SpecDecimal SpecJsonText JsonText TextProofs JsonLogic
  MagnitudeProofs FloatTextProofs NumberTextProofs.
Open Scope Z_scope.

(** ** Splitting *)

Definition stops {A} (P : A -> Prop) (u : list A) : Prop := match u with [] => True | x :: _ => ~ P x end.

Lemma span {A} (P : A -> Prop) a : forall b u v, Forall P a -> Forall P b -> stops P u -> stops P v ->
  a ++ u = b ++ v -> a = b /\ u = v.
Proof.
  induction a as [|x a IH]; intros [|y b] u v Fa Fb Su Sv E; cbn [app] in E; auto.
  - subst u. inversion Fb; subst. cbn [stops] in Su. tauto.
  - subst v. inversion Fa; subst. cbn [stops] in Sv. tauto.
  - injection E as -> E. inversion Fa; inversion Fb; subst. destruct (IH b u v) as [-> ->]; auto.
Qed.
Lemma stops_app {A} (P : A -> Prop) u v : u <> [] -> stops P u -> stops P (u ++ v).
Proof. destruct u; [congruence|auto]. Qed.

(** ** Numbers are unambiguous *)

Notation code b := (Z.of_N (Byte.to_N b)).
Ltac codes := cbn [Z.of_N Byte.to_N In stops app] in *.
Definition is_digit (b : byte) : Prop := 48 <= code b <= 57.

Lemma ascii_is_digit ds s : are_digits ds -> ascii_digits ds s -> Forall is_digit s.
Proof. intros A H. induction H; inversion A; subst; constructor; auto. unfold is_digit. lia. Qed.
Lemma ascii_inj ds s es : are_digits ds -> are_digits es -> ascii_digits ds s -> ascii_digits es s -> ds = es.
Proof.
  intros A B H. revert es B. induction H as [|d b ds s Hd _ IH]; intros es B H'; inversion H' as [|e b' es' s' He H'']; subst; auto.
  inversion A; inversion B; subst. f_equal; [lia|]. now apply IH.
Qed.
Lemma ascii_nonempty ds s : ds <> [] -> ascii_digits ds s -> s <> [].
Proof. intros N H. destruct H; congruence. Qed.

Lemma fraction_stops fs f : fraction_text fs f -> stops is_digit f.
Proof. destruct 1; cbn; auto. unfold is_digit. codes. lia. Qed.
Lemma exponent_stops e x : exponent_text e x -> stops is_digit x /\ stops (fun b => b = "."%byte) x.
Proof.
  destruct 1 as [|m sg f ds s Hm]; cbn [stops]; auto.
  destruct Hm as [<-|[<-|[]]]; (split; [unfold is_digit; codes; lia|discriminate]).
Qed.

Lemma sign_fun sg f ds s sg' f' ds' s' : In (sg, f) [([], 1); (["+"%byte], 1); (["-"%byte], -1)] ->
  In (sg', f') [([], 1); (["+"%byte], 1); (["-"%byte], -1)] -> ds <> [] -> ds' <> [] -> are_digits ds -> are_digits ds' ->
  ascii_digits ds s -> ascii_digits ds' s' -> sg ++ s = sg' ++ s' -> f = f' /\ s = s'.
Proof.
  intros Hs Hs' Hn Hn' Hd Hd' Ha Ha' E.
  pose proof (ascii_is_digit _ _ Hd Ha) as Fs. pose proof (ascii_is_digit _ _ Hd' Ha') as Fs'.
  pose proof (ascii_nonempty _ _ Hn Ha) as Ns. pose proof (ascii_nonempty _ _ Hn' Ha') as Ns'. clear Ha Ha'.
  destruct s as [|a s]; [congruence|]. destruct s' as [|a' s']; [congruence|].
  apply Forall_inv in Fs, Fs'. unfold is_digit in *.
  cbn [In] in Hs, Hs'. destruct Hs as [Q|[Q|[Q|[]]]]; injection Q as <- <-;
    destruct Hs' as [Q|[Q|[Q|[]]]]; injection Q as <- <-; cbn [app] in E; try discriminate E; injection E; intros; subst; auto;
    codes; exfalso; lia.
Qed.
Lemma exponent_fun e x e' x' : exponent_text e x -> exponent_text e' x' -> x = x' -> e = e'.
Proof.
  destruct 1 as [|m sg f ds s Hm Hs Hn Hd Ha]; destruct 1 as [|m' sg' f' ds' s' Hm' Hs' Hn' Hd' Ha']; intros E; try discriminate; auto.
  injection E as _ E. destruct (sign_fun sg f ds s sg' f' ds' s') as [-> ->]; auto.
  do 2 f_equal. f_equal. now apply (ascii_inj ds s').
Qed.
Lemma fraction_fun fs f e x fs' f' e' x' : fraction_text fs f -> fraction_text fs' f' -> exponent_text e x -> exponent_text e' x' ->
  f ++ x = f' ++ x' -> fs = fs' /\ x = x'.
Proof.
  intros H H' X X' E. destruct (exponent_stops _ _ X) as [S1 S2]. destruct (exponent_stops _ _ X') as [S1' S2'].
  destruct H as [|ds s Hn Hd Ha], H' as [|ds' s' Hn' Hd' Ha']; cbn [app] in E; auto.
  - subst x. cbn [stops] in S2. congruence.
  - subst x'. cbn [stops] in S2'. congruence.
  - injection E as E. destruct (span is_digit s s' x x' (ascii_is_digit _ _ Hd Ha) (ascii_is_digit _ _ Hd' Ha')) as [-> ->]; auto.
    split; auto. now apply (ascii_inj ds s').
Qed.

Lemma leading_digit ds d : are_digits ds -> no_leading_zero ds -> ascii_digits ds d -> exists b r, d = b :: r /\ is_digit b.
Proof.
  intros A N H. destruct ds as [|x ds]; [destruct N|]. inversion H as [|? b ? r Hb]; subst. inversion A; subst.
  exists b, r. split; auto. unfold is_digit. lia.
Qed.

Lemma number_fun n c e w t n' c' e' w' t' : number n c e w t -> number n' c' e' w' t' -> t = t' ->
  (n, c, e, w) = (n', c', e', w').
Proof.
  intros [neg ds d fs f x t1 A N D F X] [neg' ds' d' fs' f' x' t1' A' N' D' F' X'] E.
  destruct (leading_digit _ _ A N D) as (b & r & Eb & Hb). destruct (leading_digit _ _ A' N' D') as (b' & r' & Eb' & Hb').
  assert (neg = neg' /\ d ++ f ++ t1 = d' ++ f' ++ t1') as [<- E'].
  { destruct neg, neg'; cbn [app] in E; auto; [injection E; auto| |]; subst d d'; cbn [app] in E; injection E; intros; subst;
      unfold is_digit in *; codes; lia. }
  clear E b r Eb Hb b' r' Eb' Hb'.
  destruct (exponent_stops _ _ X) as [S1 _]. destruct (exponent_stops _ _ X') as [S1' _].
  assert (S : stops is_digit (f ++ t1)) by (destruct F; [exact S1|unfold is_digit; codes; lia]).
  assert (S' : stops is_digit (f' ++ t1')) by (destruct F'; [exact S1'|unfold is_digit; codes; lia]).
  destruct (span is_digit d d' _ _ (ascii_is_digit _ _ A D) (ascii_is_digit _ _ A' D') S S' E') as [<- E2].
  assert (ds = ds') as <- by (now apply (ascii_inj ds d)).
  destruct (fraction_fun _ _ _ _ _ _ _ _ F F' X X' E2) as [<- Ex].
  now rewrite (exponent_fun _ _ _ _ X X' Ex).
Qed.

(** the characters of numbers *)
Definition numeric (b : byte) : Prop := is_digit b \/ In (code b) [43; 45; 46; 69; 101].

Lemma digits_numeric s : Forall is_digit s -> Forall numeric s.
Proof. apply Forall_impl. now left. Qed.
Lemma number_numeric n c e w t : number n c e w t -> Forall numeric t /\ exists b r, t = b :: r /\ numeric b.
Proof.
  intros [neg ds d fs f x t1 A N D F X]. rename x into eo, t1 into x.
  assert (Fx : Forall numeric x).
  { destruct X as [|m sg g es s Hm Hs Hn Hd Ha]; auto. constructor.
    - right. destruct Hm as [<-|[<-|[]]]; codes; lia.
    - apply Forall_app. split; [|apply digits_numeric; eapply ascii_is_digit; eauto].
      cbn [In] in Hs. destruct Hs as [Q|[Q|[Q|[]]]]; injection Q as <- <-; repeat constructor; right; codes; lia. }
  assert (Ff : Forall numeric f).
  { destruct F as [|es s Hn Hd Ha]; auto. constructor; [right; codes; lia|]. apply digits_numeric. eapply ascii_is_digit; eauto. }
  assert (Fd : Forall numeric d) by (apply digits_numeric; eapply ascii_is_digit; eauto).
  destruct (leading_digit _ _ A N D) as (b & r & -> & Hb). split.
  - apply Forall_app. split; [destruct neg; repeat constructor; right; codes; lia|].
    apply Forall_app. split; auto. apply Forall_app. auto.
  - destruct neg; cbn [app]; eexists _, _; (split; [reflexivity|]); [right; codes; lia|now left].
Qed.

Lemma digits_number_nonneg ds : are_digits ds -> 0 <= digits_number ds.
Proof.
  induction 1 as [|d ds Hd _ IH]; cbn [digits_number]; [lia|].
  assert (0 <= 10 ^ Z.of_nat (length ds)) by (apply Z.pow_nonneg; lia). nia.
Qed.
Lemma number_nonneg n c e w t : number n c e w t -> 0 <= c.
Proof.
  intros [neg ds d fs f x t1 A N D F X]. apply digits_number_nonneg. apply digits_of_app. split; auto.
  destruct F; auto. constructor.
Qed.

Lemma float_fun x y t : float_text x t -> float_text y t -> x = y.
Proof.
  intros (n & c & e & a & N & H & ->) (n' & c' & e' & a' & N' & H' & ->).
  pose proof (number_fun _ _ _ _ _ _ _ _ _ _ N N' eq_refl) as Q. injection Q as <- <- <-.
  now rewrite (nearest_unique c e a a' (number_nonneg _ _ _ _ _ N) H H').
Qed.

(** ** Texts are unambiguous *)

Lemma hex_fun b x y : hex_value b x -> hex_value b y -> x = y.
Proof. unfold hex_value. cbv zeta. lia. Qed.
Lemma unit_fun u t v t' r r' : unit_text u t -> unit_text v t' -> t ++ r = t' ++ r' -> u = v /\ t = t' /\ r = r'.
Proof.
  intros (a & b & c & d & w & x & y & z & -> & A & B & C & D & ->) (a' & b' & c' & d' & w' & x' & y' & z' & -> & A' & B' & C' & D' & ->) E.
  cbn [app] in E. injection E as <- <- <- <- ->.
  rewrite (hex_fun _ _ _ A A'), (hex_fun _ _ _ B B'), (hex_fun _ _ _ C C'), (hex_fun _ _ _ D D'). auto.
Qed.
Lemma unit_start u t r : unit_text u t -> exists s, t ++ r = x5c :: x75 :: s.
Proof. intros (a & b & c & d & w & x & y & z & -> & _). now eexists. Qed.
Lemma utf8_one_fun c s s' : utf8_one c s -> utf8_one c s' -> s = s'.
Proof. rewrite !utf8_one_char. now intros [_ ->] [_ ->]. Qed.
Lemma code_inj a b : code a = code b -> a = b.
Proof. apply byteZ_inj. Qed.

Lemma short_start b c : In (b, c) [(x22, 34); (x5c, 92); (x2f, 47); (x62, 8); (x66, 12); (x6e, 10); (x72, 13); (x74, 9)] -> b <> x75.
Proof. cbn [In]. intros H ->. repeat (destruct H as [H|H]; [discriminate|]). exact H. Qed.
Lemma short_fun b c c' : In (b, c) [(x22, 34); (x5c, 92); (x2f, 47); (x62, 8); (x66, 12); (x6e, 10); (x72, 13); (x74, 9)] ->
  In (b, c') [(x22, 34); (x5c, 92); (x2f, 47); (x62, 8); (x66, 12); (x6e, 10); (x72, 13); (x74, 9)] -> c = c'.
Proof.
  cbn [In]. intros H H'. repeat (destruct H as [H|H]; [injection H as <- <-;
    repeat (destruct H' as [H'|H']; [try discriminate H'; injection H'; auto|]); destruct H'|]). destruct H.
Qed.

Lemma char_fun t s t' s' r r' : char_text t s -> char_text t' s' -> t ++ r = t' ++ r' -> s = s' /\ t = t' /\ r = r'.
Proof.
  intros H H' E.
  destruct H as [b B1 B2 B3|b c Hb d Hd|u t s U Hu S|u v t1 t2 s U V Hu Hv S];
  destruct H' as [b' B1' B2' B3'|b' c' Hb' d' Hd'|u' t' s' U' Hu' S'|u' v' t1' t2' s' U' V' Hu' Hv' S'].
  - cbn [app] in E. injection E as -> ->. auto.
  - cbn [app] in E. injection E as -> _. now destruct B3.
  - destruct (unit_start _ _ r' U') as [z Ez]. rewrite Ez in E. injection E as -> _. now destruct B3.
  - rewrite <- app_assoc in E. destruct (unit_start _ _ (t2' ++ r') U') as [z Ez]. rewrite Ez in E. injection E as -> _. now destruct B3.
  - cbn [app] in E. injection E as <- _. now destruct B3'.
  - cbn [app] in E. injection E as -> ->. rewrite (short_fun _ _ _ Hb Hb') in Hd. rewrite <- Hd' in Hd. apply code_inj in Hd. subst. auto.
  - destruct (unit_start _ _ r' U') as [z Ez]. rewrite Ez in E. injection E as -> _. apply short_start in Hb. congruence.
  - rewrite <- app_assoc in E. destruct (unit_start _ _ (t2' ++ r') U') as [z Ez]. rewrite Ez in E. injection E as -> _. apply short_start in Hb. congruence.
  - destruct (unit_start _ _ r U) as [z Ez]. rewrite Ez in E. injection E as <- _. now destruct B3'.
  - destruct (unit_start _ _ r U) as [z Ez]. rewrite Ez in E. injection E as <- _. apply short_start in Hb'. congruence.
  - destruct (unit_fun _ _ _ _ _ _ U U' E) as (<- & <- & <-). split; auto. now apply (utf8_one_fun u).
  - rewrite <- app_assoc in E. destruct (unit_fun _ _ _ _ _ _ U U' E) as (<- & _). lia.
  - rewrite <- app_assoc in E. destruct (unit_start _ _ (t2 ++ r) U) as [z Ez]. rewrite Ez in E. injection E as <- _. now destruct B3'.
  - rewrite <- app_assoc in E. destruct (unit_start _ _ (t2 ++ r) U) as [z Ez]. rewrite Ez in E. injection E as <- _. apply short_start in Hb'. congruence.
  - rewrite <- app_assoc in E. destruct (unit_fun _ _ _ _ _ _ U U' E) as (<- & _). lia.
  - rewrite <- !app_assoc in E. destruct (unit_fun _ _ _ _ _ _ U U' E) as (<- & <- & E').
    destruct (unit_fun _ _ _ _ _ _ V V' E') as (<- & <- & <-). split; auto. eapply utf8_one_fun; eauto.
Qed.
Lemma char_start t s r : char_text t s -> exists b z, t ++ r = b :: z /\ b <> x22.
Proof.
  intros [b B1 B2 B3|b c Hb d Hd|u t1 s1 U Hu S|u v t1 t2 s1 U V Hu Hv S].
  - exists b, r. split; auto. intros ->. now apply B2.
  - exists x5c, (b :: r). split; [auto|discriminate].
  - destruct (unit_start _ _ r U) as [z ->]. eexists _, _. split; [reflexivity|discriminate].
  - rewrite <- app_assoc. destruct (unit_start _ _ (t2 ++ r) U) as [z ->]. eexists _, _. split; [reflexivity|discriminate].
Qed.
Lemma chars_fun u s : chars_text u s -> forall u' s' r r', chars_text u' s' -> u ++ x22 :: r = u' ++ x22 :: r' ->
  s = s' /\ u = u' /\ r = r'.
Proof.
  induction 1 as [|t s t' s' C _ IH]; intros u1 s1 r r' H E.
  - destruct H as [|t1 s1 t1' s1' C1 _]; cbn [app] in E; [injection E; auto|]. rewrite <- app_assoc in E.
    destruct (char_start _ _ (t1' ++ x22 :: r') C1) as (b & z & Eb & Nb). rewrite Eb in E. injection E. congruence.
  - destruct H as [|t1 s1 t1' s1' C1 H].
    + rewrite <- app_assoc in E. destruct (char_start _ _ (t' ++ x22 :: r) C) as (b & z & Eb & Nb). rewrite Eb in E. injection E. congruence.
    + rewrite <- !app_assoc in E. destruct (char_fun _ _ _ _ _ _ C C1 E) as (<- & <- & E').
      destruct (IH _ _ _ _ H E') as (<- & <- & <-). auto.
Qed.
Lemma string_fun s t s' t' r r' : string_text s t -> string_text s' t' -> t ++ r = t' ++ r' -> s = s' /\ t = t' /\ r = r'.
Proof.
  intros (u & C & ->) (u' & C' & ->) E. cbn [app] in E. injection E as E. rewrite <- !app_assoc in E. cbn [app] in E.
  destruct (chars_fun _ _ C _ _ _ _ C' E) as (<- & <- & <-). auto.
Qed.

(** ** Values are unambiguous *)

Definition space (b : byte) : Prop := In (code b) [32; 9; 10; 13].
Lemma spaces_are w : spaces w <-> Forall space w.
Proof. reflexivity. Qed.
Lemma space_not_numeric b : space b -> ~ numeric b.
Proof. unfold space, numeric, is_digit. cbn [In]. lia. Qed.

(** how texts begin *)
Lemma value_start j t r : value_text j t -> exists b z, t ++ r = b :: z /\ ~ space b /\ b <> "]"%byte.
Proof.
  assert (N : forall n c e w t, number n c e w t -> exists b z, t ++ r = b :: z /\ ~ space b /\ b <> "]"%byte).
  { intros n c e w u H. apply number_numeric in H. destruct H as [_ (b & z & -> & Hb)].
    exists b, (z ++ r). split; auto. split; [intros S; now apply space_not_numeric in S|]. intros ->.
    destruct Hb as [Hb|Hb]; unfold is_digit in Hb; codes; lia. }
  intros H. destruct H as [| | |neg c e t Hn|x t (n & c & e & a & Hn & _)|s t (u & _ & ->)|w _|l t _|w _|l t _];
    try (eapply N; eassumption); eexists _, _; (split; [reflexivity|]); (split; [vm_compute; intuition discriminate|discriminate]).
Qed.

Scheme value_min := Minimality for value_text Sort Prop
  with items_min := Minimality for items_text Sort Prop
  with members_min := Minimality for members_text Sort Prop
  with member_min := Minimality for member_text Sort Prop.
Combined Scheme text_min from value_min, items_min, members_min, member_min.

Definition Pv (j : json) (t : str) : Prop := forall j' t' r r', value_text j' t' -> stops numeric r -> stops numeric r' ->
  t ++ r = t' ++ r' -> j = j' /\ t = t' /\ r = r'.
Definition Pi (l : list json) (t : str) : Prop := forall l' t' r r', items_text l' t' ->
  t ++ "]"%byte :: r = t' ++ "]"%byte :: r' -> l = l' /\ t = t' /\ r = r'.
Definition Pm (l : list (str * json)) (t : str) : Prop := forall l' t' r r', members_text l' t' ->
  t ++ "}"%byte :: r = t' ++ "}"%byte :: r' -> l = l' /\ t = t' /\ r = r'.
Definition brace_or_comma (r : str) : Prop := exists z, r = "}"%byte :: z \/ r = ","%byte :: z.
Definition Pk (k : str) (j : json) (m : str) : Prop := forall k' j' m' r r', member_text k' j' m' ->
  brace_or_comma r -> brace_or_comma r' -> m ++ r = m' ++ r' -> (k, j) = (k', j') /\ m = m' /\ r = r'.

Lemma stops_spaces w r : spaces w -> stops numeric r -> stops numeric (w ++ r).
Proof. intros S R. destruct w as [|b w]; auto. inversion S; subst. cbn [app stops]. now apply space_not_numeric. Qed.
Lemma split_spaces w v u u' : spaces w -> spaces v -> stops space u -> stops space u' -> w ++ u = v ++ u' -> w = v /\ u = u'.
Proof. apply span. Qed.
Lemma value_stops j t r : value_text j t -> stops space (t ++ r).
Proof. intros H. destruct (value_start j t r H) as (b & z & -> & S & _). exact S. Qed.
Lemma string_start s t r : string_text s t -> exists z, t ++ r = x22 :: z.
Proof. intros (u & _ & ->). cbn [app]. now eexists. Qed.

Ltac nosp := unfold space; codes; lia.

(** a value with white space around it, then something that ends it *)
Lemma padded_fun j t w v z j' t' w' v' z' : Pv j t -> value_text j t -> value_text j' t' -> spaces w -> spaces v -> spaces w' -> spaces v' ->
  stops numeric z -> stops numeric z' -> stops space z -> stops space z' ->
  w ++ t ++ v ++ z = w' ++ t' ++ v' ++ z' -> j = j' /\ w = w' /\ t = t' /\ v = v' /\ z = z'.
Proof.
  intros P H H' Sw Sv Sw' Sv' Nz Nz' Z Z' E.
  destruct (split_spaces _ _ _ _ Sw Sw' (value_stops j t _ H) (value_stops j' t' _ H') E) as [<- E1].
  destruct (P _ _ _ _ H' (stops_spaces _ _ Sv Nz) (stops_spaces _ _ Sv' Nz') E1) as (<- & <- & E2).
  destruct (split_spaces _ _ _ _ Sv Sv' Z Z' E2) as [<- <-]. auto.
Qed.

Lemma items_start l t r : items_text l t -> exists w b z, t ++ r = w ++ b :: z /\ spaces w /\ ~ space b /\ b <> "]"%byte.
Proof.
  intros [j u w w' S S' H|j u w w' l' u' S S' H _]; rewrite <- app_assoc.
  - rewrite <- app_assoc. destruct (value_start j u (w' ++ r) H) as (b & z & -> & Sb & Nb). exists w, b, z. auto.
  - rewrite <- app_assoc. destruct (value_start j u ((w' ++ ","%byte :: u') ++ r) H) as (b & z & -> & Sb & Nb). exists w, b, z. auto.
Qed.
Lemma members_start l t r : members_text l t -> exists w z, t ++ r = w ++ x22 :: z /\ spaces w.
Proof.
  assert (M : forall k j m r, member_text k j m -> exists w z, m ++ r = w ++ x22 :: z /\ spaces w).
  { intros k j m q [k' j' s u w1 w2 w3 w4 S1 S2 S3 S4 Hs Hv]. rewrite <- app_assoc.
    rewrite <- app_assoc. destruct (string_start _ _ ((w2 ++ ":"%byte :: w3 ++ u ++ w4) ++ q) Hs) as [z ->]. exists w1, z. auto. }
  intros [k j m H|k j m l' u H _]; [eauto|]. rewrite <- app_assoc. eauto.
Qed.

(** the first character tells which kind of value follows *)
Definition head_of (j : json) (b : byte) : Prop :=
  match j with
  | JNull => b = x6e
  | JBool true => b = x74
  | JBool false => b = x66
  | JInt _ | JF32 _ => numeric b
  | JStr _ => b = x22
  | JArr _ => b = x5b
  | JObj _ => b = x7b
  end.
Lemma value_head j t : value_text j t -> exists b z, t = b :: z /\ head_of j b.
Proof.
  intros H. destruct H as [| | |neg c e t Hn|x t (n & c & e & a & Hn & _)|s t (u & _ & ->)|w _|l t _|w _|l t _];
    try (apply number_numeric in Hn; apply Hn); eexists _, _; (split; [reflexivity|reflexivity]).
Qed.

Definition kind (j : json) : Z :=
  match j with JNull => 0 | JBool true => 1 | JBool false => 2 | JInt _ | JF32 _ => 3 | JStr _ => 4 | JArr _ => 5 | JObj _ => 6 end.
Lemma head_kind j j' b : head_of j b -> head_of j' b -> kind j = kind j'.
Proof.
  assert (N : forall c, In c [x6e; x74; x66; x22; x5b; x7b] -> ~ numeric c).
  { unfold numeric, is_digit. intros c H. cbn [In] in H. repeat (destruct H as [<-|H]; [codes; lia|]). destruct H. }
  destruct j as [|[]| | | | |], j' as [|[]| | | | |]; cbn [head_of kind]; intros H H'; try reflexivity; subst; try discriminate;
    exfalso; (eapply N; [|eassumption]); cbn [In]; tauto.
Qed.
Lemma same_kind j t r j' t' r' : value_text j t -> value_text j' t' -> t ++ r = t' ++ r' -> kind j = kind j'.
Proof.
  intros H H' E. destruct (value_head _ _ H) as (b & z & -> & Hb). destruct (value_head _ _ H') as (b' & z' & -> & Hb').
  cbn [app] in E. injection E as -> _. eapply head_kind; eauto.
Qed.

Lemma number_value n c e w t r j' t' r' : number n c e w t -> value_text j' t' -> kind j' = 3 -> t ++ r = t' ++ r' ->
  stops numeric r -> stops numeric r' ->
  t = t' /\ r = r' /\
  ((exists n' c' e', number n' c' e' true t /\ j' = JInt (if n' : bool then - c' else c')) \/ exists x, float_text x t /\ j' = JF32 x).
Proof.
  intros H H' K E Nr Nr'. destruct (number_numeric _ _ _ _ _ H) as [F _].
  assert (G : Forall numeric t' -> t = t' /\ r = r') by (intros F'; now apply (span numeric)).
  inversion H' as [| | |neg c' e' t1 Hn Ej|x t1 Hx Ej| | | | |]; subst; try discriminate.
  - destruct (number_numeric _ _ _ _ _ Hn) as [F' _]. destruct (G F') as [-> ->]. split; auto. split; auto. left. now exists neg, c', e'.
  - pose proof Hx as (n' & c' & e' & a & Hn & _). destruct (number_numeric _ _ _ _ _ Hn) as [F' _]. destruct (G F') as [-> ->].
    split; auto. split; auto. right. now exists x.
Qed.

Lemma brackets_differ w l t r r' : spaces w -> items_text l t -> w ++ "]"%byte :: r <> t ++ "]"%byte :: r'.
Proof.
  intros S H E. destruct (items_start l t ("]"%byte :: r') H) as (v & b & z & Eb & Sv & Sb & Nb). rewrite Eb in E.
  destruct (split_spaces _ _ ("]"%byte :: r) (b :: z) S Sv) as [_ Q]; auto; [nosp|]. injection Q. congruence.
Qed.
Lemma braces_differ w l t r r' : spaces w -> members_text l t -> w ++ "}"%byte :: r <> t ++ "}"%byte :: r'.
Proof.
  intros S H E. destruct (members_start l t ("}"%byte :: r') H) as (v & z & Eb & Sv). rewrite Eb in E.
  destruct (split_spaces _ _ ("}"%byte :: r) (x22 :: z) S Sv) as [_ Q]; auto; nosp || discriminate.
Qed.

Lemma texts_fun : (forall j t, value_text j t -> Pv j t) /\ (forall l t, items_text l t -> Pi l t) /\
  (forall l t, members_text l t -> Pm l t) /\ (forall k j m, member_text k j m -> Pk k j m).
Proof.
  assert (SQ : forall z, stops numeric ("]"%byte :: z) /\ stops space ("]"%byte :: z) /\ stops numeric (","%byte :: z) /\ stops space (","%byte :: z)).
  { intros z. unfold numeric, is_digit, space. codes. lia. }
  assert (ONE : forall j t, value_text j t -> (forall j' t', value_text j' t' -> kind j' = kind j -> j' = j /\ t' = t) -> Pv j t).
  { intros j t H U j' t' r r' H' _ _ E. destruct (U _ _ H') as [-> ->]; [symmetry; eapply same_kind; eauto|].
    apply app_inv_head in E. auto. }
  apply text_min.
  - apply ONE; [constructor|]. intros j' t' H' K. inversion H'; subst; try discriminate; auto.
  - apply ONE; [constructor|]. intros j' t' H' K. inversion H'; subst; try discriminate; auto.
  - apply ONE; [constructor|]. intros j' t' H' K. inversion H'; subst; try discriminate; auto.
  - intros neg c e t Hn j' t' r r' H' Nr Nr' E.
    assert (K : kind j' = 3) by (symmetry; eapply (same_kind (JInt (if neg then - c else c))); eauto; econstructor; eauto).
    destruct (number_value _ _ _ _ _ _ _ _ _ Hn H' K E Nr Nr') as (<- & <- & [(n' & c' & e' & Hn' & ->)|(x & (n' & c' & e' & a & Hn' & _) & ->)]).
    + pose proof (number_fun _ _ _ _ _ _ _ _ _ _ Hn Hn' eq_refl) as Q. injection Q as <- <- <-. auto.
    + pose proof (number_fun _ _ _ _ _ _ _ _ _ _ Hn Hn' eq_refl) as Q. discriminate.
  - intros x t Hx j' t' r r' H' Nr Nr' E.
    assert (K : kind j' = 3) by (symmetry; eapply (same_kind (JF32 x)); eauto; econstructor; eauto).
    pose proof Hx as (n & c & e & a & Hn & _).
    destruct (number_value _ _ _ _ _ _ _ _ _ Hn H' K E Nr Nr') as (<- & <- & [(n' & c' & e' & Hn' & ->)|(y & Hy & ->)]).
    + pose proof (number_fun _ _ _ _ _ _ _ _ _ _ Hn Hn' eq_refl) as Q. discriminate.
    + rewrite (float_fun _ _ _ Hx Hy). auto.
  - intros s t Hs j' t' r r' H' Nr Nr' E.
    assert (K : kind j' = 4) by (symmetry; eapply (same_kind (JStr s)); eauto; econstructor; eauto).
    inversion H' as [| | | | |s' t1 Hs'| | | |]; subst; try discriminate.
    destruct (string_fun _ _ _ _ _ _ Hs Hs' E) as (<- & <- & <-). auto.
  - intros w Sw j' t' r r' H' Nr Nr' E.
    assert (K : kind j' = 5) by (symmetry; eapply (same_kind (JArr [])); eauto; econstructor; eauto).
    inversion H' as [| | | | | |w' Sw'|l' t1 Hl'| |]; subst; try discriminate; cbn [app] in E; injection E as E; rewrite <- !app_assoc in E; cbn [app] in E.
    + destruct (split_spaces _ _ ("]"%byte :: r) ("]"%byte :: r') Sw Sw') as [<- Q]; auto; try nosp. injection Q. auto.
    + exfalso. eapply brackets_differ; eauto.
  - intros l t Hl IH j' t' r r' H' Nr Nr' E.
    assert (K : kind j' = 5) by (symmetry; eapply (same_kind (JArr l)); eauto; econstructor; eauto).
    inversion H' as [| | | | | |w' Sw'|l' t1 Hl'| |]; subst; try discriminate; cbn [app] in E; injection E as E; rewrite <- !app_assoc in E; cbn [app] in E.
    + exfalso. eapply brackets_differ; eauto.
    + destruct (IH _ _ _ _ Hl' E) as (<- & <- & <-). auto.
  - intros w Sw j' t' r r' H' Nr Nr' E.
    assert (K : kind j' = 6) by (symmetry; eapply (same_kind (JObj [])); eauto; econstructor; eauto).
    inversion H' as [| | | | | | | |w' Sw'|l' t1 Hl']; subst; try discriminate; cbn [app] in E; injection E as E; rewrite <- !app_assoc in E; cbn [app] in E.
    + destruct (split_spaces _ _ ("}"%byte :: r) ("}"%byte :: r') Sw Sw') as [<- Q]; auto; try nosp. injection Q. auto.
    + exfalso. eapply braces_differ; eauto.
  - intros l t Hl IH j' t' r r' H' Nr Nr' E.
    assert (K : kind j' = 6) by (symmetry; eapply (same_kind (JObj l)); eauto; econstructor; eauto).
    inversion H' as [| | | | | | | |w' Sw'|l' t1 Hl']; subst; try discriminate; cbn [app] in E; injection E as E; rewrite <- !app_assoc in E; cbn [app] in E.
    + exfalso. eapply braces_differ; eauto.
    + destruct (IH _ _ _ _ Hl' E) as (<- & <- & <-). auto.
  - (* the last item *)
    intros j t w w' Sw Sw' Hj IH l' t' r r' H' E.
    inversion H' as [j2 t2 v v' Sv Sv' Hj2|j2 t2 v v' l2 u2 Sv Sv' Hj2 Hl2]; subst; rewrite <- !app_assoc in E; cbn [app] in E.
    + destruct (padded_fun j t w w' ("]"%byte :: r) j2 t2 v v' ("]"%byte :: r')) as (<- & <- & <- & <- & Q); auto; try apply SQ. injection Q. auto.
    + destruct (padded_fun j t w w' ("]"%byte :: r) j2 t2 v v' (","%byte :: u2 ++ "]"%byte :: r')) as (_ & _ & _ & _ & Q); auto; try apply SQ. discriminate.
  - intros j t w w' l u Sw Sw' Hj IH Hl IHl l' t' r r' H' E.
    inversion H' as [j2 t2 v v' Sv Sv' Hj2|j2 t2 v v' l2 u2 Sv Sv' Hj2 Hl2]; subst; rewrite <- !app_assoc in E; cbn [app] in E.
    + destruct (padded_fun j t w w' (","%byte :: u ++ "]"%byte :: r) j2 t2 v v' ("]"%byte :: r')) as (_ & _ & _ & _ & Q); auto; try apply SQ. discriminate.
    + destruct (padded_fun j t w w' (","%byte :: u ++ "]"%byte :: r) j2 t2 v v' (","%byte :: u2 ++ "]"%byte :: r')) as (<- & <- & <- & <- & Q); auto; try apply SQ.
      injection Q as Q. destruct (IHl _ _ _ _ Hl2 Q) as (<- & <- & <-). auto.
  - (* the last member *)
    intros k j m Hm IH l' t' r r' H' E.
    inversion H' as [k2 j2 m2 Hm2|k2 j2 m2 l2 u2 Hm2 Hl2]; subst; rewrite <- ?app_assoc in E; cbn [app] in E.
    + destruct (IH _ _ _ ("}"%byte :: r) ("}"%byte :: r') Hm2) as (Q1 & <- & Q); auto; try (eexists; eauto; fail).
      injection Q1 as <- <-. injection Q. auto.
    + destruct (IH _ _ _ ("}"%byte :: r) (","%byte :: u2 ++ "}"%byte :: r') Hm2) as (Q1 & _ & Q); auto; try (eexists; eauto; fail).
      discriminate.
  - intros k j m l u Hm IH Hl IHl l' t' r r' H' E.
    inversion H' as [k2 j2 m2 Hm2|k2 j2 m2 l2 u2 Hm2 Hl2]; subst; rewrite <- ?app_assoc in E; cbn [app] in E.
    + destruct (IH _ _ _ (","%byte :: u ++ "}"%byte :: r) ("}"%byte :: r') Hm2) as (Q1 & _ & Q); auto; try (eexists; eauto; fail).
      discriminate.
    + destruct (IH _ _ _ (","%byte :: u ++ "}"%byte :: r) (","%byte :: u2 ++ "}"%byte :: r') Hm2) as (Q1 & <- & Q); auto; try (eexists; eauto; fail).
      injection Q1 as <- <-. injection Q as Q. destruct (IHl _ _ _ _ Hl2 Q) as (<- & <- & <-). auto.
  - (* a member *)
    intros k j q t w1 w2 w3 w4 S1 S2 S3 S4 Hq Hj IH k' j' m' r r' H' (z & Hz) (z' & Hz') E.
    inversion H' as [k2 j2 q2 t2 v1 v2 v3 v4 T1 T2 T3 T4 Hq2 Hj2]; subst. rewrite <- !app_assoc in E. cbn [app] in E. rewrite <- !app_assoc in E.
    assert (A : forall a b y, string_text a b -> stops space (b ++ y)).
    { intros a b y Hb. destruct (string_start _ _ y Hb) as [o ->]. nosp. }
    destruct (split_spaces _ _ _ _ S1 T1 (A _ _ _ Hq) (A _ _ _ Hq2) E) as [<- E1].
    destruct (string_fun _ _ _ _ _ _ Hq Hq2 E1) as (<- & <- & E2).
    assert (C : forall y, stops space (":"%byte :: y)) by (intros; nosp).
    destruct (split_spaces _ _ _ _ S2 T2 (C _) (C _) E2) as [<- E3]. injection E3 as E3.
    assert (X : stops numeric r /\ stops space r) by (destruct Hz as [-> | ->]; unfold numeric, is_digit, space; codes; lia).
    assert (X' : stops numeric r' /\ stops space r') by (destruct Hz' as [-> | ->]; unfold numeric, is_digit, space; codes; lia).
    destruct (padded_fun j t w3 w4 r j' t2 v3 v4 r') as (<- & <- & <- & <- & <-); auto; try apply X; try apply X'.
Qed.

Theorem document_fun j j' t : json_document j t -> json_document j' t -> j = j'.
Proof.
  intros (w & u & w' & S & S' & H & ->) (v & u2 & v' & T & T' & H2 & E).
  destruct texts_fun as [F _]. rewrite <- (app_nil_r w'), <- (app_nil_r v') in E.
  destruct (padded_fun j u w w' [] j' u2 v v' []) as (<- & _); auto; exact I.
Qed.
