(** * The text decoders of the model meet the specification *)

From Coq Require Import ZArith List Bool Lia ZifyBool.
From Verif Require Import Base Text SpecText.
Open Scope Z_scope.

Lemma is_byteZ b x : is b x <-> byteZ b = x.
Proof. reflexivity. Qed.
Lemma byteZ_range b : 0 <= byteZ b < 256.
Proof. unfold byteZ. pose proof (Byte.to_N_bounded b). lia. Qed.
Lemma byteZ_inj a b : byteZ a = byteZ b -> a = b.
Proof.
  unfold byteZ. intros H. assert (E : Byte.to_N a = Byte.to_N b) by lia.
  pose proof (Byte.of_to_N a) as Ha. rewrite E, Byte.of_to_N in Ha. congruence.
Qed.
Lemma byteZ_of_Z x : 0 <= x < 256 -> byteZ (byte_of_Z x) = x.
Proof.
  intros H. unfold byte_of_Z. rewrite Z.mod_small by lia.
  destruct (Byte.of_N (Z.to_N x)) eqn:E.
  - unfold byteZ. apply Byte.to_of_N in E. rewrite E. lia.
  - apply Byte.of_N_None_iff in E. lia.
Qed.

(** ** UTF-8 *)

Lemma utf8_one_scalar c s : utf8_one c s -> scalar c.
Proof. intros H. inversion H; subst; unfold scalar, surrogate in *; lia. Qed.

Ltac same_byte := match goal with
  | H1 : is ?a ?x, H2 : is ?a ?y |- _ => rewrite is_byteZ in H1, H2
  end.

Lemma utf8_one_char c s : utf8_one c s <-> scalar c /\ s = utf8_char c.
Proof.
  split.
  - intros H. split; [eapply utf8_one_scalar; eauto|]. inversion H; subst; unfold utf8_char;
    rewrite ?is_byteZ in *.
    + destruct (Z.ltb_spec c 128); try lia. f_equal. apply byteZ_inj. rewrite byteZ_of_Z; lia.
    + destruct (Z.ltb_spec (64 * x + y) 128); try lia.
      destruct (Z.ltb_spec (64 * x + y) 2048); try lia.
      replace ((64 * x + y) / 64) with x by (Z.div_mod_to_equations; lia).
      replace ((64 * x + y) mod 64) with y by (Z.div_mod_to_equations; lia).
      repeat (apply f_equal2; [apply byteZ_inj; rewrite byteZ_of_Z; lia|]). reflexivity.
    + set (k := 4096 * x + 64 * y + z) in *.
      destruct (Z.ltb_spec k 128); try lia. destruct (Z.ltb_spec k 2048); try lia.
      destruct (Z.ltb_spec k 65536); try lia.
      replace (k / 4096) with x by (Z.div_mod_to_equations; lia).
      replace ((k / 64) mod 64) with y by (Z.div_mod_to_equations; lia).
      replace (k mod 64) with z by (Z.div_mod_to_equations; lia).
      repeat (apply f_equal2; [apply byteZ_inj; rewrite byteZ_of_Z; lia|]). reflexivity.
    + set (k := 262144 * x + 4096 * y + 64 * z + t) in *.
      destruct (Z.ltb_spec k 128); try lia. destruct (Z.ltb_spec k 2048); try lia.
      destruct (Z.ltb_spec k 65536); try lia.
      replace (k / 262144) with x by (Z.div_mod_to_equations; lia).
      replace ((k / 4096) mod 64) with y by (Z.div_mod_to_equations; lia).
      replace ((k / 64) mod 64) with z by (Z.div_mod_to_equations; lia).
      replace (k mod 64) with t by (Z.div_mod_to_equations; lia).
      repeat (apply f_equal2; [apply byteZ_inj; rewrite byteZ_of_Z; lia|]). reflexivity.
  - intros [[R NS] ->]. unfold utf8_char.
    destruct (Z.ltb_spec c 128).
    { apply utf8_1; [apply byteZ_of_Z; lia|lia]. }
    destruct (Z.ltb_spec c 2048).
    { assert (E : c = 64 * (c / 64) + c mod 64) by (Z.div_mod_to_equations; lia).
      rewrite E at 1. apply utf8_2; try (apply byteZ_of_Z); Z.div_mod_to_equations; lia. }
    destruct (Z.ltb_spec c 65536).
    { assert (E : c = 4096 * (c / 4096) + 64 * ((c / 64) mod 64) + c mod 64)
        by (Z.div_mod_to_equations; lia).
      rewrite E at 1. apply utf8_3; try (apply byteZ_of_Z); try rewrite <- E; auto;
        Z.div_mod_to_equations; lia. }
    assert (E : c = 262144 * (c / 262144) + 4096 * ((c / 4096) mod 64) + 64 * ((c / 64) mod 64) + c mod 64)
        by (Z.div_mod_to_equations; lia).
    rewrite E at 1. apply utf8_4; try (apply byteZ_of_Z); try rewrite <- E; auto;
      Z.div_mod_to_equations; lia.
Qed.

Lemma utf8_encode_spec cs s : utf8 cs s <-> Forall scalar cs /\ s = utf8_encode cs.
Proof.
  revert s. induction cs as [|c cs IH]; intros s.
  - split; [intros H; inversion H; auto|intros [_ ->]; constructor].
  - split.
    + intros H. inversion H as [|c' cs' s1 t H1 H2]; subst. apply utf8_one_char in H1 as [Hc ->].
      apply IH in H2 as [Hs ->]. split; [constructor; auto|reflexivity].
    + intros [Hs ->]. inversion Hs; subst. cbn [utf8_encode flat_map].
      constructor; [apply utf8_one_char; auto|apply IH; auto].
Qed.
Lemma utf8_fun cs s s' : utf8 cs s -> utf8 cs s' -> s = s'.
Proof. rewrite !utf8_encode_spec. intros [_ ->] [_ ->]. reflexivity. Qed.

(** Validation.  One step of the validator reads one character. *)
Lemma validate_char c s t off : utf8_one c s ->
  utf8_validate off (s ++ t) = utf8_validate (off + lenZ s) t.
Proof.
  intros H. inversion H; subst; rewrite ?is_byteZ in *; cbn [app utf8_validate];
    unfold in_range, is_cont, ok3, ok4, in_range, surrogate, lenZ in *; cbn [length].
  - destruct (Z.ltb_spec (byteZ a) 128); try lia. reflexivity.
  - destruct (Z.ltb_spec (byteZ a) 128); try lia.
    replace ((194 <=? byteZ a) && (byteZ a <=? 223)) with true by lia.
    replace ((128 <=? byteZ b) && (byteZ b <=? 191)) with true by lia. reflexivity.
  - destruct (Z.ltb_spec (byteZ a) 128); try lia.
    replace ((194 <=? byteZ a) && (byteZ a <=? 223)) with false by lia.
    replace ((224 <=? byteZ a) && (byteZ a <=? 239)) with true by lia.
    replace ((128 <=? byteZ c0) && (byteZ c0 <=? 191)) with true by lia.
    match goal with |- (if ?x then _ else _) = _ => replace x with true; [reflexivity|] end.
    destruct (Z.eqb_spec (byteZ a) 224); [lia|]. destruct (Z.eqb_spec (byteZ a) 237); lia.
  - destruct (Z.ltb_spec (byteZ a) 128); try lia.
    replace ((194 <=? byteZ a) && (byteZ a <=? 223)) with false by lia.
    replace ((224 <=? byteZ a) && (byteZ a <=? 239)) with false by lia.
    replace ((240 <=? byteZ a) && (byteZ a <=? 244)) with true by lia.
    replace ((128 <=? byteZ c0) && (byteZ c0 <=? 191)) with true by lia.
    replace ((128 <=? byteZ d) && (byteZ d <=? 191)) with true by lia.
    match goal with |- (if ?x then _ else _) = _ => replace x with true; [reflexivity|] end.
    destruct (Z.eqb_spec (byteZ a) 240); [lia|]. destruct (Z.eqb_spec (byteZ a) 244); lia.
Qed.

Lemma validate_complete cs s : utf8 cs s -> forall off, utf8_validate off s = None.
Proof.
  induction 1 as [|c cs s t H1 H2 IH]; intros off; [reflexivity|].
  rewrite (validate_char c) by exact H1. apply IH.
Qed.

Lemma validate_sound n : forall s off, (length s <= n)%nat -> utf8_validate off s = None -> valid_utf8 s.
Proof.
  induction n as [|n IH]; intros s off L H.
  { destruct s; [exists []; constructor|simpl in L; lia]. }
  assert (STEP : forall c h t o, s = h ++ t -> utf8_one c h -> (length t <= n)%nat ->
    utf8_validate o t = None -> valid_utf8 s).
  { intros c h t o -> O Lt V. destruct (IH _ _ Lt V) as [cs Hc]. exists (c :: cs). constructor; auto. }
  destruct s as [|b0 s]; [exists []; constructor|]. cbn [utf8_validate length] in *.
  unfold in_range, is_cont, ok3, ok4, in_range in H.
  pose proof (byteZ_range b0).
  destruct (Z.ltb_spec (byteZ b0) 128).
  { eapply (STEP _ [b0] s); [reflexivity| |lia|exact H]. apply (utf8_1 b0 (byteZ b0)); [reflexivity|lia]. }
  destruct ((194 <=? byteZ b0) && (byteZ b0 <=? 223)) eqn:E2.
  { destruct s as [|b1 s]; [discriminate|]. cbn [length] in L.
    destruct ((128 <=? byteZ b1) && (byteZ b1 <=? 191)) eqn:C1; [|discriminate].
    eapply (STEP _ [b0; b1] s); [reflexivity| |lia|exact H].
    apply (utf8_2 b0 b1 (byteZ b0 - 192) (byteZ b1 - 128)); rewrite ?is_byteZ; lia. }
  destruct ((224 <=? byteZ b0) && (byteZ b0 <=? 239)) eqn:E3.
  { destruct s as [|b1 s]; [discriminate|]. cbn [length] in L.
    match type of H with (if ?x then _ else _) = _ => destruct x eqn:C1; [|discriminate] end.
    destruct s as [|b2 s]; [discriminate|]. cbn [length] in L.
    destruct ((128 <=? byteZ b2) && (byteZ b2 <=? 191)) eqn:C2; [|discriminate].
    eapply (STEP _ [b0; b1; b2] s); [reflexivity| |lia|exact H].
    apply (utf8_3 b0 b1 b2 (byteZ b0 - 224) (byteZ b1 - 128) (byteZ b2 - 128)); rewrite ?is_byteZ;
      unfold surrogate; try lia;
      destruct (Z.eqb_spec (byteZ b0) 224); destruct (Z.eqb_spec (byteZ b0) 237); try lia. }
  destruct ((240 <=? byteZ b0) && (byteZ b0 <=? 244)) eqn:E4; [|discriminate].
  destruct s as [|b1 s]; [discriminate|]. cbn [length] in L.
  match type of H with (if ?x then _ else _) = _ => destruct x eqn:C1; [|discriminate] end.
  destruct s as [|b2 s]; [discriminate|]. cbn [length] in L.
  destruct ((128 <=? byteZ b2) && (byteZ b2 <=? 191)) eqn:C2; [|discriminate].
  destruct s as [|b3 s]; [discriminate|]. cbn [length] in L.
  destruct ((128 <=? byteZ b3) && (byteZ b3 <=? 191)) eqn:C3; [|discriminate].
  eapply (STEP _ [b0; b1; b2; b3] s); [reflexivity| |lia|exact H].
  apply (utf8_4 b0 b1 b2 b3 (byteZ b0 - 240) (byteZ b1 - 128) (byteZ b2 - 128) (byteZ b3 - 128));
    rewrite ?is_byteZ; try lia;
    destruct (Z.eqb_spec (byteZ b0) 240); destruct (Z.eqb_spec (byteZ b0) 244); try lia.
Qed.

Lemma validate_spec s off : utf8_validate off s = None <-> valid_utf8 s.
Proof.
  split; [apply (validate_sound (length s)); lia|].
  intros [cs H]. eapply validate_complete; eauto.
Qed.

(** UTF-8 is uniquely decodable. *)
Lemma utf8_one_prefix c1 c2 s1 s2 t1 t2 :
  utf8_one c1 s1 -> utf8_one c2 s2 -> s1 ++ t1 = s2 ++ t2 -> c1 = c2 /\ s1 = s2 /\ t1 = t2.
Proof.
  intros H1 H2 E. inversion H1; subst; inversion H2; subst; cbn [app] in E;
    rewrite ?is_byteZ in *; injection E; intros; subst; try (exfalso; lia);
    repeat match goal with H : byteZ ?a = ?x, H' : byteZ ?a = ?y |- _ =>
      assert (x = y) by congruence; clear H' end; repeat split; try lia.
Qed.
Lemma utf8_inj cs1 s : utf8 cs1 s -> forall cs2, utf8 cs2 s -> cs1 = cs2.
Proof.
  induction 1 as [|c cs s t H1 H2 IH]; intros cs2 G.
  - inversion G as [|c' cs' s' t' G1 G2 EE E]; auto. apply app_eq_nil in E as [-> ->]. inversion G1.
  - inversion G as [E E'|c' cs' s' t' G1 G2 EE E].
    + exfalso. symmetry in E'. apply app_eq_nil in E' as [-> _]. inversion H1.
    + destruct (utf8_one_prefix _ _ _ _ _ _ G1 H1 E) as (-> & -> & ->). f_equal. apply IH, G2.
Qed.

(** ** Windows-1252 *)

Lemma cp1252_one b c : windows1252_one b c <-> c = cp1252_char b.
Proof.
  unfold windows1252_one, is. split.
  - intros (x & <- & ->). destruct b; reflexivity.
  - intros ->. exists (byteZ b). split; [reflexivity|]. destruct b; reflexivity.
Qed.
Lemma cp1252_scalar b : scalar (cp1252_char b).
Proof. unfold scalar, surrogate. destruct b; vm_compute; intuition discriminate. Qed.

Lemma cp1252_chars l cs : Forall2 windows1252_one l cs <-> cs = map cp1252_char l.
Proof.
  split.
  - induction 1 as [|b c l cs H _ IH]; [reflexivity|]. apply cp1252_one in H. cbn. congruence.
  - intros ->. induction l as [|b l IH]; constructor; auto. now apply cp1252_one.
Qed.
Lemma decode_cp1252_spec l s : windows1252 l s <-> s = decode_cp1252 l.
Proof.
  unfold windows1252. split.
  - intros (cs & H1 & H2). apply cp1252_chars in H1 as ->. apply utf8_encode_spec in H2 as [_ ->]. reflexivity.
  - intros ->. exists (map cp1252_char l). split; [now apply cp1252_chars|].
    apply utf8_encode_spec. split; [|reflexivity]. apply Forall_forall. intros c H.
    apply in_map_iff in H as (b & <- & _). apply cp1252_scalar.
Qed.

(** ** UTF-16 *)

Fixpoint even_list {A} (l : list A) : bool :=
  match l with [] => true | [_] => false | _ :: _ :: t => even_list t end.

Lemma units_spec : forall n l us, (length l <= n)%nat -> units l us <-> utf16_units l = (us, false).
Proof.
  induction n as [|n IH]; intros l us L.
  { destruct l; [|simpl in L; lia]. split; intros H; inversion H; constructor. }
  destruct l as [|a [|b l]].
  - split; intros H; inversion H; constructor.
  - split; intros H; inversion H.
  - cbn [utf16_units length] in *. specialize (IH l). split.
    + intros H. inversion H as [|a' b' u l' us' (x & y & X & Y & ->) U]; subst.
      apply IH in U; [|lia]. rewrite U. rewrite is_byteZ in *. subst. reflexivity.
    + destruct (utf16_units l) as [us' odd] eqn:E. intros [= <- ->].
      constructor; [exists (byteZ a), (byteZ b); repeat split|]. apply IH; [lia|]. reflexivity.
Qed.
Lemma units_total l : Nat.Even (length l) -> exists us, units l us.
Proof.
  intros [k H]. revert l H. induction k as [|k IH]; intros l H.
  - destruct l; [|simpl in H; lia]. exists []. constructor.
  - destruct l as [|a [|b l]]; cbn [length] in H; try lia.
    destruct (IH l) as [us Hu]; [lia|]. exists (byteZ a + 256 * byteZ b :: us).
    constructor; [|exact Hu]. exists (byteZ a), (byteZ b). repeat split.
Qed.
Lemma units_range l us : units l us -> Forall (fun u => 0 <= u < 65536) us.
Proof.
  induction 1 as [|a b u l us (x & y & X & Y & ->) U IH]; constructor; auto.
  rewrite is_byteZ in *. pose proof (byteZ_range a). pose proof (byteZ_range b). lia.
Qed.

Lemma u16_chars_total n : forall us, (length us <= n)%nat -> exists cs, utf16_chars_of us cs /\ utf16_chars us false = cs.
Proof.
  induction n as [|n IH]; intros us L.
  { destruct us; [|simpl in L; lia]. exists []. split; constructor. }
  destruct us as [|u us]; [exists []; split; constructor|]. cbn [length] in L.
  assert (LONE : surrogate u -> ~ (lead u /\ starts_with_trail us) ->
    exists cs, utf16_chars_of (u :: us) cs /\ replacement :: utf16_chars us false = cs).
  { intros S N. destruct (IH us) as (cs & H1 & H2); [lia|]. exists (replacement :: cs). rewrite H2.
    split; [apply u16_lone; auto|reflexivity]. }
  cbn [utf16_chars]. destruct (is_lead u) eqn:EL; unfold is_lead, in_range in EL.
  - destruct us as [|v us].
    + exists [replacement]. split; [|reflexivity]. apply u16_lone; [unfold surrogate; lia|intros [_ []]|constructor].
    + destruct (is_trail v) eqn:ET; unfold is_trail, in_range in ET.
      * cbn [length] in L. destruct (IH us) as (cs & H1 & H2); [lia|].
        eexists. split; [apply (u16_pair u v us cs); auto; unfold lead, trail; lia|]. rewrite H2. f_equal. lia.
      * apply LONE; [unfold surrogate; lia|]. intros [_ T]. cbn in T. unfold trail in T. lia.
  - destruct (is_trail u) eqn:ET; unfold is_trail, in_range in ET.
    + apply LONE; [unfold surrogate; lia|]. unfold lead. lia.
    + destruct (IH us) as (cs & H1 & H2); [lia|]. exists (u :: cs). rewrite H2.
      split; [apply u16_bmp; auto; unfold surrogate; lia|reflexivity].
Qed.

Lemma u16_chars_fun us cs : utf16_chars_of us cs -> forall cs', utf16_chars_of us cs' -> cs = cs'.
Proof.
  induction 1 as [|u us cs N H IH|u v us cs Lu Tv H IH|u us cs S N H IH]; intros cs' G;
    inversion G; subst; unfold surrogate, lead, trail in *; try (exfalso; lia); auto;
    try (f_equal; apply IH; auto; fail); try (exfalso; cbn in *; unfold trail in *; tauto).
Qed.
Lemma u16_chars_scalar us cs : utf16_chars_of us cs -> Forall (fun u => 0 <= u < 65536) us -> Forall scalar cs.
Proof.
  induction 1 as [|u us cs N H IH|u v us cs Lu Tv H IH|u us cs S N H IH]; intros R; auto;
    repeat match goal with H : Forall _ (_ :: _) |- _ => inversion H; clear H; subst end;
    constructor; auto; unfold scalar, surrogate, lead, trail in *; lia.
Qed.

Lemma decode_utf16_spec l s : Nat.Even (length l) -> utf16 l s <-> s = decode_utf16_data l.
Proof.
  intros Ev. destruct (units_total l Ev) as [us U].
  pose proof (proj1 (units_spec (length l) l us (le_n _)) U) as E.
  unfold utf16, decode_utf16_data. rewrite E.
  destruct (u16_chars_total (length us) us (le_n _)) as (cs & H1 & H2). rewrite H2. split.
  - intros (us' & cs' & A & B & C). apply (units_spec (length l)) in A; [|lia]. rewrite E in A.
    injection A as <-. rewrite (u16_chars_fun _ _ H1 _ B). apply utf8_encode_spec in C as [_ ->]. reflexivity.
  - intros ->. exists us, cs. repeat split; auto. apply utf8_encode_spec. split; [|reflexivity].
    eapply u16_chars_scalar; eauto using units_range.
Qed.
