(** * Proofs: numbers in JSON texts *)

From Coq Require Import ZArith List Bool Lia.
From Verif Require Import Base F32 Json SpecBasic SpecFacts SpecJson SpecDecimal SpecJsonText JsonText JsonLogic MagnitudeProofs FloatTextProofs.
Open Scope Z_scope.

(** ** Writing *)

Lemma int_text_shape x : exists ds, are_digits ds /\ no_leading_zero ds /\ digits_number ds = Z.abs x /\
  int_text x = if x <? 0 then "-"%byte :: map digit ds else map digit ds.
Proof.
  unfold int_text. set (n := S (Z.to_nat (Z.log2 (Z.abs x)))).
  assert (B : 0 <= Z.abs x < 10 ^ Z.of_nat n).
  { split; [lia|]. unfold n. rewrite Nat2Z.inj_succ, Z2Nat.id by apply Z.log2_nonneg.
    destruct (Z.eq_dec (Z.abs x) 0) as [->|]; [reflexivity|].
    pose proof (Z.log2_spec (Z.abs x) ltac:(lia)) as [_ U]. pose proof (Z.log2_nonneg (Z.abs x)).
    assert (2 ^ Z.succ (Z.log2 (Z.abs x)) <= 10 ^ Z.succ (Z.log2 (Z.abs x))) by (apply Z.pow_le_mono_l; lia). lia. }
  destruct (dec_digits_spec n (Z.abs x) [] ltac:(lia) B) as (ds & A & N & V & D). rewrite app_nil_r in D.
  exists ds. split; auto. split; auto. split; auto.
  destruct (Z.ltb_spec x 0); [rewrite Z.abs_neq in D by lia|rewrite Z.abs_eq in D by lia]; now rewrite D.
Qed.
Lemma int_text_decimal x : decimal x (int_text x).
Proof.
  destruct (int_text_shape x) as (ds & A & N & V & E). exists ds, (map digit ds).
  split; auto. split; auto. split; [apply ascii_map, A|]. split; auto.
Qed.

Lemma int_number x : exists neg c e, number neg c e true (int_text x) /\ x = if neg : bool then - c else c.
Proof.
  destruct (int_text_shape x) as (ds & A & N & V & E).
  pose proof (number_intro (x <? 0) ds (map digit ds) [] [] None [] A N (ascii_map ds A) ft_none et_none) as Q.
  rewrite !app_nil_r in Q. cbn [exponent whole lenZ length] in Q.
  exists (x <? 0), (digits_number ds), (0 - lenZ (@nil Z)). split.
  - rewrite E. destruct (x <? 0); exact Q.
  - rewrite V. destruct (Z.ltb_spec x 0); lia.
Qed.

Lemma digits_app ds fs : digits_number (ds ++ fs) = digits_number ds * 10 ^ lenZ fs + digits_number fs.
Proof.
  unfold lenZ. induction ds as [|d ds IH]; cbn [app digits_number]; [lia|].
  rewrite IH, app_length, Nat2Z.inj_add, Z.pow_add_r by lia. ring.
Qed.
Lemma digits_zeros n : digits_number (repeat 0 n) = 0.
Proof. induction n as [|n IH]; cbn [repeat digits_number]; lia. Qed.
Lemma zeros_digits n : are_digits (repeat 0 n).
Proof. apply Forall_forall. intros d H. apply repeat_spec in H. lia. Qed.
Lemma digits_of_app ds fs : are_digits (ds ++ fs) <-> are_digits ds /\ are_digits fs.
Proof. apply Forall_app. Qed.
Lemma map_zeros n : map digit (repeat 0 n) = repeat x30 n.
Proof. induction n as [|n IH]; cbn [repeat map]; [reflexivity|]. now rewrite IH. Qed.

Lemma exponent_part_ok e : exponent_text (Some e) (exponent_part e).
Proof.
  unfold exponent_part. destruct (int_text_shape e) as (ds & A & N & V & ->).
  assert (Hn : ds <> []) by (intros ->; exact N).
  destruct (Z.ltb_spec 0 e).
  - destruct (Z.ltb_spec e 0); [lia|].
    replace (Some e) with (Some (1 * digits_number ds)) by (f_equal; lia).
    apply (et_some "e"%byte ["+"%byte] 1 ds); auto; [now left|right; now left|now apply ascii_map].
  - destruct (Z.ltb_spec e 0).
    + replace (Some e) with (Some (-1 * digits_number ds)) by (f_equal; lia).
      apply (et_some "e"%byte ["-"%byte] (-1) ds); auto; [now left|right; right; now left|now apply ascii_map].
    + replace (Some e) with (Some (1 * digits_number ds)) by (f_equal; lia).
      apply (et_some "e"%byte [] 1 ds); auto; [now left|now left|now apply ascii_map].
Qed.

Lemma prefix_zero (ds : list Z) i : no_leading_zero ds -> no_leading_zero (firstn (S i) ds).
Proof. destruct ds as [|d [|d' ds]], i; cbn [firstn no_leading_zero]; auto. Qed.
Lemma ascii_point fs : fs <> [] -> are_digits fs -> fraction_text fs (lit "." ++ map digit fs).
Proof. intros H A. constructor; auto. now apply ascii_map. Qed.

Lemma layout_number d k : 0 < d -> exists c e, 0 <= c /\ same_decimal c e d k /\
  forall neg : bool, number neg c e false ((if neg then lit "-" else []) ++ layout_decimal d k).
Proof.
  intros Hd. unfold layout_decimal. cbv zeta. destruct (int_text_shape d) as (ds & A & N & V & E).
  destruct (Z.ltb_spec d 0); [lia|]. rewrite Z.abs_eq in V by lia. rewrite E.
  assert (Ln : lenZ (map digit ds) = lenZ ds) by (unfold lenZ; now rewrite map_length). rewrite Ln.
  assert (Hl : 1 <= lenZ ds) by (unfold lenZ; destruct ds; [destruct N|cbn [length]; lia]).
  assert (SP : forall i, firstn i (map digit ds) = map digit (firstn i ds) /\ skipn i (map digit ds) = map digit (skipn i ds))
    by (intros; split; [apply firstn_map|apply skipn_map]).
  assert (A1 : forall i, are_digits (firstn i ds) /\ are_digits (skipn i ds)).
  { intros i. apply digits_of_app. now rewrite firstn_skipn. }
  assert (PT : forall i, 1 <= i < lenZ ds -> forall e x, exponent_text e x -> forall neg : bool,
    number neg d (exponent e - (lenZ ds - i)) false
      ((if neg then lit "-" else []) ++ (firstn (Z.to_nat i) (map digit ds) ++ lit "." ++ skipn (Z.to_nat i) (map digit ds)) ++ x)).
  { intros i Hi e x Hx neg. destruct (SP (Z.to_nat i)) as [-> ->]. destruct (A1 (Z.to_nat i)) as [B1 B2].
    assert (L2 : lenZ (skipn (Z.to_nat i) ds) = lenZ ds - i) by (unfold lenZ in *; rewrite skipn_length; lia).
    assert (B3 : skipn (Z.to_nat i) ds <> []) by (intros Q; rewrite Q in L2; cbn in L2; lia).
    pose proof (number_intro neg (firstn (Z.to_nat i) ds) (map digit (firstn (Z.to_nat i) ds)) (skipn (Z.to_nat i) ds)
      (lit "." ++ map digit (skipn (Z.to_nat i) ds)) e x B1) as Q.
    rewrite firstn_skipn, V, L2 in Q.
    replace (whole (skipn (Z.to_nat i) ds) e) with false in Q by (destruct (skipn (Z.to_nat i) ds); [congruence|reflexivity]).
    rewrite <- !app_assoc in *. apply Q; auto.
    - replace (Z.to_nat i) with (S (Z.to_nat (i - 1))) by lia. now apply prefix_zero.
    - now apply ascii_map.
    - now apply ascii_point. }
  destruct (Z.leb_spec 0 k) as [K|K]; [destruct (Z.leb_spec (lenZ ds + k) 13) as [K2|K2]|]; cbn [andb].
  - exists (d * 10 ^ (k + 1)), (-1). split; [pose proof (pow10_pos (k + 1)); lia|].
    split; [unfold same_decimal; rewrite Z.max_r, Z.max_l by lia; replace (k - -1) with (k + 1) by lia; lia|]. intros neg.
    pose proof (number_intro neg (ds ++ repeat 0 (Z.to_nat k)) (map digit ds ++ repeat x30 (Z.to_nat k)) [0] (lit ".0") None []) as Q.
    cbn [exponent whole] in Q. change (0 - lenZ [0]) with (-1) in Q.
    replace (digits_number ((ds ++ repeat 0 (Z.to_nat k)) ++ [0])) with (d * 10 ^ (k + 1)) in Q.
    2: { rewrite !digits_app, digits_zeros, V. unfold lenZ. rewrite repeat_length, Z2Nat.id by lia.
         rewrite Z.pow_add_r by lia. cbn [length digits_number]. change (10 ^ Z.of_nat 1) with 10. change (10 ^ Z.of_nat 0) with 1. change (10 ^ 1) with 10. ring. }
    rewrite !app_nil_r, <- !app_assoc in Q. apply Q.
    + apply digits_of_app. split; auto. apply zeros_digits.
    + clear - N V Hd. destruct ds as [|x [|y ds]]; [destruct N| |exact N]. cbn [app]. destruct (Z.to_nat k); cbn [repeat]; [exact I|].
      cbn [digits_number length] in V. change (10 ^ Z.of_nat 0) with 1 in V. cbn [no_leading_zero]. lia.
    + rewrite <- map_zeros, <- map_app. apply ascii_map. apply digits_of_app. split; auto. apply zeros_digits.
    + apply (ascii_point [0]); [discriminate|]. constructor; [lia|constructor].
    + constructor.
  - (* an exponent *)
    assert (X : forall neg : bool, lenZ ds = 1 -> number neg d k false ((if neg then lit "-" else []) ++ map digit ds ++ exponent_part (lenZ ds + k - 1))).
    { intros neg L1. pose proof (number_intro neg ds (map digit ds) [] [] (Some (lenZ ds + k - 1)) _ A N (ascii_map ds A) ft_none (exponent_part_ok _)) as Q.
      rewrite app_nil_r, V in Q. cbn [exponent whole] in Q. replace (lenZ ds + k - 1 - lenZ (@nil Z)) with k in Q by (change (lenZ (@nil Z)) with 0; lia). exact Q. }
    exists d, k. split; [lia|]. split; [reflexivity|]. intros neg.
    destruct (Z.ltb_spec 0 (lenZ ds + k)), (Z.leb_spec (lenZ ds + k) 13), (Z.ltb_spec (-6) (lenZ ds + k)), (Z.leb_spec (lenZ ds + k) 0); try lia; cbn [andb].
    destruct (Z.eqb_spec (lenZ ds) 1); [now apply X|].
    pose proof (PT 1 ltac:(lia) _ _ (exponent_part_ok (lenZ ds + k - 1)) neg) as Q. cbn [exponent] in Q.
    replace (lenZ ds + k - 1 - (lenZ ds - 1)) with k in Q by lia. exact Q.
  - exists d, k. split; [lia|]. split; [reflexivity|]. intros neg.
    assert (X : lenZ ds = 1 -> number neg d k false ((if neg then lit "-" else []) ++ map digit ds ++ exponent_part (lenZ ds + k - 1))).
    { intros L1. pose proof (number_intro neg ds (map digit ds) [] [] (Some (lenZ ds + k - 1)) _ A N (ascii_map ds A) ft_none (exponent_part_ok _)) as Q.
      rewrite app_nil_r, V in Q. cbn [exponent whole] in Q. replace (lenZ ds + k - 1 - lenZ (@nil Z)) with k in Q by (change (lenZ (@nil Z)) with 0; lia). exact Q. }
    assert (Y : lenZ ds <> 1 -> number neg d k false ((if neg then lit "-" else []) ++
      (firstn (Z.to_nat 1) (map digit ds) ++ lit "." ++ skipn (Z.to_nat 1) (map digit ds)) ++ exponent_part (lenZ ds + k - 1))).
    { intros L1. pose proof (PT 1 ltac:(lia) _ _ (exponent_part_ok (lenZ ds + k - 1)) neg) as Q. cbn [exponent] in Q.
      replace (lenZ ds + k - 1 - (lenZ ds - 1)) with k in Q by lia. exact Q. }
    destruct (Z.ltb_spec 0 (lenZ ds + k)) as [P1|P1]; [destruct (Z.leb_spec (lenZ ds + k) 13) as [P2|P2]|]; cbn [andb].
    + pose proof (PT (lenZ ds + k) ltac:(lia) None [] et_none neg) as Q. cbn [exponent] in Q.
      replace (0 - (lenZ ds - (lenZ ds + k))) with k in Q by lia. rewrite app_nil_r in Q. exact Q.
    + destruct (Z.ltb_spec (-6) (lenZ ds + k)), (Z.leb_spec (lenZ ds + k) 0); try lia; cbn [andb];
        (destruct (Z.eqb_spec (lenZ ds) 1); auto).
    + destruct (Z.ltb_spec (-6) (lenZ ds + k)) as [P3|P3], (Z.leb_spec (lenZ ds + k) 0) as [P4|P4]; try lia; cbn [andb];
        [|destruct (Z.eqb_spec (lenZ ds) 1); auto].
      set (z := Z.to_nat (- (lenZ ds + k))).
      pose proof (number_intro neg [0] (lit "0") (repeat 0 z ++ ds) (lit "." ++ map digit (repeat 0 z ++ ds)) None []) as Q.
      cbn [exponent] in Q.
      replace (digits_number ([0] ++ repeat 0 z ++ ds)) with d in Q.
      2: { rewrite !digits_app, digits_zeros, V. cbn [digits_number length]. lia. }
      replace (0 - lenZ (repeat 0 z ++ ds)) with k in Q.
      2: { unfold lenZ in *. rewrite app_length, repeat_length. lia. }
      assert (Hne : repeat 0 z ++ ds <> []) by (intros F; apply app_eq_nil in F; destruct F as [_ ->]; exact N).
      replace (whole (repeat 0 z ++ ds) None) with false in Q by (destruct (repeat 0 z ++ ds); [congruence|reflexivity]).
      rewrite !app_nil_r, map_app, map_zeros in Q. apply Q.
      * constructor; [lia|constructor].
      * exact I.
      * constructor; [reflexivity|constructor].
      * rewrite <- map_zeros, <- map_app. apply ascii_point; auto. apply digits_of_app. split; auto. apply zeros_digits.
      * constructor.
Qed.

(** *** The text of a finite number *)

Lemma nearest_zero e : nearest 0 e 0.
Proof.
  apply (nearest_at (Z.max (- e) 0)); try lia. unfold at10. rewrite magnitude_0. split; [unfold inf; lia|].
  pose proof (pow10_pos (Z.max (- e) 0) ltac:(lia)) as P. split; [lia|]. intros y Hy Hn. left.
  pose proof (magnitude_pos y ltac:(lia)). nia.
Qed.

Lemma zero_untied a k c e : ~ tied a 0 k c e.
Proof.
  intros (Hc & _ & L & N & _). specialize (L 0 ltac:(lia) ltac:(reflexivity)). assert (c = 0) as -> by (change (10 ^ 0) with 1 in L; lia).
  apply N. reflexivity.
Qed.

Lemma f32_text_shortest x : is_u32 x -> finite x -> exists neg c e d k a,
  number neg c e false (f32_text x) /\ same_decimal c e d k /\ shortest_decimal a d k /\ ties_to_even a d k /\ 0 <= c /\
  x = (if neg : bool then 2 ^ 31 + a else a).
Proof.
  intros R F. destruct (finite_sign x R F) as [Ha Hx]. unfold f32_text. set (a := x mod 2 ^ 31) in *.
  assert (S : x = if negb (x <? 2 ^ 31) then 2 ^ 31 + a else a) by (destruct (x <? 2 ^ 31); exact Hx).
  replace (if x <? 2 ^ 31 then [] else lit "-") with (if negb (x <? 2 ^ 31) then lit "-" else []) by now destruct (x <? 2 ^ 31).
  destruct (Z.eqb_spec a 0) as [E|E].
  - exists (negb (x <? 2 ^ 31)), 0, (-1), 0, (-1), a. split.
    + assert (Z0 : are_digits [0]) by (constructor; [lia|constructor]).
      apply (number_intro _ [0] (lit "0") [0] (lit ".0") None [] Z0); [exact I| |apply (ascii_point [0]); [discriminate|auto]|constructor].
      constructor; [reflexivity|constructor].
    + split; [reflexivity|]. split; [|split; [intros c e T; destruct (zero_untied _ _ _ _ T)|split; [lia|auto]]]. rewrite E. split; [apply nearest_zero|]. split; [lia|].
      intros c e Hc Nc. split; [intros j Hj _; pose proof (pow10_pos j Hj); lia|].
      intros _ v Hv. injection Hv as <-. unfold no_farther. replace (distance 0 (-1) 0) with 0 by reflexivity. rewrite Z.mul_0_l.
      apply Z.mul_nonneg_nonneg; [unfold distance; lia|]. pose proof (pow10_pos (Z.max (- -1) 0)); lia.
  - destruct (f32_decimal_shortest false a ltac:(lia)) as (d & k & Ed & Sd & Td & Pd & _). rewrite Ed.
    destruct (layout_number d k Pd) as (c & e & Hc & Sc & Nc).
    exists (negb (x <? 2 ^ 31)), c, e, d, k, a. auto 8.
Qed.

Lemma same_sym c e d k : same_decimal c e d k -> same_decimal d k c e.
Proof. unfold same_decimal. auto. Qed.

Theorem f32_text_reads x : is_u32 x -> finite x -> float_text x (f32_text x).
Proof.
  intros R F. destruct (f32_text_shortest x R F) as (neg & c & e & d & k & a & N & S & Sd & _ & Hc & E).
  exists neg, c, e, a. split; auto. split; auto. destruct Sd as (Nd & Rd & _).
  apply (nearest_same d k); auto; try lia. now apply same_sym.
Qed.
