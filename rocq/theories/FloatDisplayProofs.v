(** * Proofs: 32-bit numbers in formatted text *)

From Coq Require Import ZArith List Bool Lia.
From Verif Require Import Base F32 Json SpecBasic SpecFacts SpecJson SpecDecimal SpecJsonText SpecFloatDisplay JsonText FloatDisplay
  JsonLogic MagnitudeProofs FloatTextProofs NumberTextProofs.
Open Scope Z_scope.

(** ** No letters *)

Definition small (t : str) : Prop := Forall (fun b => Z.of_N (Byte.to_N b) < 64) t.
Lemma small_digits ds : are_digits ds -> small (map digit ds).
Proof.
  intros A. pose proof (ascii_map ds A) as M. induction M as [|d b ds t Hb _ IH]; constructor; [|now apply IH; inversion A].
  inversion A; subst. lia.
Qed.
Lemma small_app a b : small a -> small b -> small (a ++ b).
Proof. intros. now apply Forall_app. Qed.
Lemma small_zeros n : small (repeat x30 n).
Proof. apply Forall_forall. intros b H. apply repeat_spec in H. subst b. reflexivity. Qed.
Lemma small_point : small (lit ".").
Proof. repeat constructor. Qed.
Lemma small_sign (neg : bool) : small (if neg then lit "-" else []).
Proof. destruct neg; repeat constructor. Qed.
Lemma small_plain neg c e w t : number neg c e w t -> small t -> plain neg c e t.
Proof.
  intros N S. split; [eauto|]. unfold small in S. rewrite Forall_forall in S. split; intros H; specialize (S _ H); revert S; cbv; discriminate.
Qed.

(** ** Shortest digits *)

Lemma plain_number d k : 0 < d -> d mod 10 <> 0 -> exists c e, 0 <= c /\ same_decimal c e d k /\ trimmed c e /\
  forall neg : bool, plain neg c e ((if neg then lit "-" else []) ++ plain_decimal d k).
Proof.
  intros Hd Md. unfold plain_decimal. cbv zeta. destruct (int_text_shape d) as (ds & A & N & V & E).
  destruct (Z.ltb_spec d 0); [lia|]. rewrite Z.abs_eq in V by lia. rewrite E.
  assert (Ln : lenZ (map digit ds) = lenZ ds) by (unfold lenZ; now rewrite map_length). rewrite Ln.
  assert (Hl : 1 <= lenZ ds) by (unfold lenZ; destruct ds; [destruct N|cbn [length]; lia]).
  pose proof (small_digits ds A) as SD.
  destruct (Z.leb_spec 0 k) as [K|K].
  - exists (d * 10 ^ k), 0. split; [pose proof (pow10_pos k); lia|].
    split; [unfold same_decimal; rewrite Z.max_r, Z.max_l by lia; rewrite Z.sub_0_r; lia|]. split; [split; lia|]. intros neg.
    pose proof (number_intro neg (ds ++ repeat 0 (Z.to_nat k)) (map digit ds ++ repeat x30 (Z.to_nat k)) [] [] None []) as Q.
    cbn [exponent whole app] in Q. change (0 - lenZ (@nil Z)) with 0 in Q.
    replace (digits_number ((ds ++ repeat 0 (Z.to_nat k)) ++ [])) with (d * 10 ^ k) in Q.
    2: { rewrite app_nil_r, !digits_app, digits_zeros, V. unfold lenZ. rewrite repeat_length, Z2Nat.id by lia. ring. }
    rewrite !app_nil_r in Q. eapply small_plain; [apply Q|].
    + apply digits_of_app. split; auto. apply zeros_digits.
    + clear - N V Hd. destruct ds as [|x [|y ds]]; [destruct N| |exact N]. cbn [app]. destruct (Z.to_nat k); cbn [repeat]; [exact I|].
      cbn [digits_number length] in V. change (10 ^ Z.of_nat 0) with 1 in V. cbn [no_leading_zero]. lia.
    + rewrite <- map_zeros, <- map_app. apply ascii_map. apply digits_of_app. split; auto. apply zeros_digits.
    + constructor.
    + constructor.
    + auto using small_app, small_sign, small_zeros.
  - exists d, k. split; [lia|]. split; [reflexivity|]. split; [split; [lia|auto]|]. intros neg.
    destruct (Z.ltb_spec 0 (lenZ ds + k)) as [P|P].
    + set (i := Z.to_nat (lenZ ds + k)). rewrite firstn_map, skipn_map. assert (Hi : Z.of_nat i = lenZ ds + k) by (unfold i; lia). clearbody i.
      assert (B : are_digits (firstn i ds) /\ are_digits (skipn i ds)) by (apply digits_of_app; now rewrite firstn_skipn). destruct B as [B1 B2].
      assert (L2 : lenZ (skipn i ds) = - k) by (unfold lenZ in *; rewrite skipn_length; lia).
      assert (B3 : skipn i ds <> []) by (intros Q; rewrite Q in L2; change (lenZ (@nil Z)) with 0 in L2; lia).
      pose proof (number_intro neg (firstn i ds) (map digit (firstn i ds)) (skipn i ds) (lit "." ++ map digit (skipn i ds)) None [] B1) as Q.
      cbn [exponent] in Q. rewrite firstn_skipn, V, L2, app_nil_r in Q. replace (0 - - k) with k in Q by lia.
      eapply small_plain; [apply Q|].
      * replace i with (S (Z.to_nat (lenZ ds + k - 1))) by lia. now apply prefix_zero.
      * now apply ascii_map.
      * now apply ascii_point.
      * constructor.
      * auto 6 using small_app, small_sign, small_digits, small_point.
    + set (z := Z.to_nat (- (lenZ ds + k))). assert (Hz : Z.of_nat z = - (lenZ ds + k)) by (unfold z; lia). clearbody z.
      pose proof (number_intro neg [0] (lit "0") (repeat 0 z ++ ds) (lit "." ++ map digit (repeat 0 z ++ ds)) None []) as Q.
      cbn [exponent] in Q.
      replace (digits_number ([0] ++ repeat 0 z ++ ds)) with d in Q.
      2: { rewrite !digits_app, digits_zeros, V. cbn [digits_number length]. lia. }
      replace (0 - lenZ (repeat 0 z ++ ds)) with k in Q.
      2: { unfold lenZ in *. rewrite app_length, repeat_length. lia. }
      assert (Hne : repeat 0 z ++ ds <> []) by (intros F; apply app_eq_nil in F; destruct F as [_ ->]; exact N).
      rewrite !app_nil_r, map_app, map_zeros in Q. eapply small_plain; [apply Q|].
      * constructor; [lia|constructor].
      * exact I.
      * constructor; [reflexivity|constructor].
      * rewrite <- map_zeros, <- map_app. apply ascii_point; auto. apply digits_of_app. split; auto. apply zeros_digits.
      * constructor.
      * assert (small (lit "0.")) by repeat constructor. auto 6 using small_app, small_sign, small_zeros.
Qed.

(** ** Forms *)

Lemma finite_range x : is_u32 x -> finite x -> x mod 2 ^ 31 < 255 * 2 ^ 23.
Proof.
  intros R F. destruct (finite_sign x R F) as [Ha _]. unfold inf in Ha. lia.
Qed.
Lemma float_form_finite x t : is_u32 x -> finite x -> float_form x t = (if negb (x <? 2 ^ 31) then lit "-" else []) ++ t.
Proof.
  intros R F. pose proof (finite_range x R F). unfold float_form.
  destruct (Z.ltb_spec (255 * 2 ^ 23) (x mod 2 ^ 31)); [lia|]. destruct (Z.eqb_spec (x mod 2 ^ 31) (255 * 2 ^ 23)); [lia|].
  now destruct (x <? 2 ^ 31).
Qed.
Lemma finite_split x : is_u32 x -> finite x -> x = if negb (x <? 2 ^ 31) then 2 ^ 31 + x mod 2 ^ 31 else x mod 2 ^ 31.
Proof. intros R F. destruct (finite_sign x R F) as [_ Hx]. destruct (x <? 2 ^ 31); exact Hx. Qed.

Lemma shortest_zero : shortest_decimal 0 0 0.
Proof.
  split; [apply nearest_zero|]. split; [lia|].
  intros c e Hc Nc. split; [intros j Hj _; pose proof (pow10_pos j Hj); lia|].
  intros _ v Hv. injection Hv as <-. unfold no_farther. replace (distance 0 0 0) with 0 by reflexivity. rewrite Z.mul_0_l.
  apply Z.mul_nonneg_nonneg; [unfold distance; lia|]. reflexivity || discriminate || lia.
Qed.

Lemma display_shortest x : is_u32 x -> finite x -> exists neg c e d k a,
  plain neg c e (display_f32 x) /\ trimmed c e /\ 0 <= c /\ same_decimal c e d k /\ shortest_decimal a d k /\ ties_up a d k /\
  x = (if neg : bool then 2 ^ 31 + a else a).
Proof.
  intros R F. pose proof (finite_split x R F) as S. destruct (finite_sign x R F) as [Ha _].
  unfold display_f32. cbv zeta. rewrite float_form_finite by auto. set (a := x mod 2 ^ 31) in *. clearbody a.
  destruct (Z.eqb_spec a 0) as [E|E].
  - exists (negb (x <? 2 ^ 31)), 0, 0, 0, 0, a. split; [|split; [split; lia|]].
    + assert (Z0 : are_digits [0]) by (constructor; [lia|constructor]).
      eapply small_plain; [apply (number_intro _ [0] (lit "0") [] [] None [] Z0); [exact I| |constructor|constructor]|].
      * constructor; [reflexivity|constructor].
      * apply small_app; [apply small_sign|repeat constructor].
    + split; [lia|]. split; [reflexivity|]. split; [rewrite E; exact shortest_zero|]. split; [intros c e T; destruct (zero_untied _ _ _ _ T)|auto].
  - destruct (f32_decimal_shortest true a ltac:(lia)) as (d & k & Ed & Sd & Td & Pd & Md). rewrite Ed.
    destruct (plain_number d k Pd Md) as (c & e & Hc & Sc & Tc & Nc).
    exists (negb (x <? 2 ^ 31)), c, e, d, k, a. auto 10.
Qed.

(** ** Two decimals *)

Lemma hundredths_nearest m n : 0 <= m -> n = hundredths m -> 0 <= n /\ forall k, k <> n ->
  hundredth_distance n m < hundredth_distance k m \/ hundredth_distance n m = hundredth_distance k m /\ Z.even n = true.
Proof.
  intros Hm ->. unfold hundredths, hundredth_distance. cbv zeta.
  pose proof (Z.div_mod (100 * m) (2 ^ 149) ltac:(lia)) as D. pose proof (Z.mod_pos_bound (100 * m) (2 ^ 149) eq_refl) as B.
  assert (H : 2 ^ 149 = 2 * 2 ^ 148) by reflexivity. assert (P : 0 < 2 ^ 148) by reflexivity.
  set (U := 2 ^ 149) in *. set (W := 2 ^ 148) in *. clearbody U W.
  assert (Q : 0 <= 100 * m / U) by (apply Z.div_pos; lia).
  set (q := 100 * m / U) in *. set (r := (100 * m) mod U) in *. clearbody q r. rewrite D. clear D.
  assert (K1 : forall k, k <= q -> Z.abs (k * U - (U * q + r)) = (q - k) * U + r).
  { intros k Hk. rewrite Z.abs_neq; [lia|]. assert (k * U <= q * U) by (apply Z.mul_le_mono_nonneg_r; lia). lia. }
  assert (K2 : forall k, q + 1 <= k -> Z.abs (k * U - (U * q + r)) = (k - q) * U - r).
  { intros k Hk. rewrite Z.abs_eq; [lia|]. assert ((q + 1) * U <= k * U) by (apply Z.mul_le_mono_nonneg_r; lia). lia. }
  assert (F1 : forall k, k <= q - 1 -> U <= (q - k) * U).
  { intros k Hk. assert (1 * U <= (q - k) * U) by (apply Z.mul_le_mono_nonneg_r; lia). lia. }
  assert (F2 : forall k, q + 2 <= k -> 2 * U <= (k - q) * U) by (intros k Hk; apply Z.mul_le_mono_nonneg_r; lia).
  assert (Od : Z.odd q = negb (Z.even q)) by (rewrite Z.negb_even; reflexivity).
  assert (Ev : Z.even (q + 1) = negb (Z.even q)) by (rewrite Z.even_add; now destruct (Z.even q)).
  destruct (Z.ltb_spec W r); [|destruct (Z.eqb_spec r W)]; cbn [orb andb].
  - split; [lia|]. intros k Hk. left. rewrite (K2 (q + 1)) by lia. replace (q + 1 - q) with 1 by lia.
    destruct (Z.le_gt_cases k q) as [L|L]; [rewrite K1 by lia|rewrite K2 by lia; specialize (F2 k ltac:(lia)); lia].
    assert (0 <= (q - k) * U) by (apply Z.mul_nonneg_nonneg; lia). lia.
  - rewrite Od. destruct (Z.even q) eqn:Eq; cbn [negb].
    + split; [lia|]. intros k Hk. rewrite (K1 q) by lia. replace (q - q) with 0 by lia.
      destruct (Z.le_gt_cases k q) as [L|L]; [rewrite K1 by lia; specialize (F1 k ltac:(lia)); lia|]. rewrite K2 by lia.
      destruct (Z.eq_dec k (q + 1)) as [->|]; [right; split; [lia|exact Eq]|]. left. specialize (F2 k ltac:(lia)). lia.
    + split; [lia|]. intros k Hk. rewrite (K2 (q + 1)) by lia. replace (q + 1 - q) with 1 by lia. rewrite Ev.
      destruct (Z.le_gt_cases k q) as [L|L]; [rewrite K1 by lia|rewrite K2 by lia; specialize (F2 k ltac:(lia)); lia].
      destruct (Z.eq_dec k q) as [->|]; [right; split; [lia|reflexivity]|]. left. specialize (F1 k ltac:(lia)). lia.
  - split; [lia|]. intros k Hk. left. rewrite (K1 q) by lia. replace (q - q) with 0 by lia.
    destruct (Z.le_gt_cases k q) as [L|L]; [rewrite K1 by lia; specialize (F1 k ltac:(lia)); lia|]. rewrite K2 by lia.
    assert (1 * U <= (k - q) * U) by (apply Z.mul_le_mono_nonneg_r; lia). lia.
Qed.

Lemma one_digit x : 0 <= x < 10 -> int_text x = map digit [x].
Proof.
  intros H. assert (C : x = 0 \/ x = 1 \/ x = 2 \/ x = 3 \/ x = 4 \/ x = 5 \/ x = 6 \/ x = 7 \/ x = 8 \/ x = 9) by lia.
  repeat (destruct C as [->|C]; [reflexivity|]). subst x. reflexivity.
Qed.

Lemma fixed2_nearest x : is_u32 x -> finite x -> exists neg n a,
  plain neg n (-2) (fixed2_f32 x) /\ nearest_hundredth a n /\ x = (if neg : bool then 2 ^ 31 + a else a).
Proof.
  intros R F. pose proof (finite_split x R F) as S. destruct (finite_sign x R F) as [Ha _].
  unfold fixed2_f32. cbv zeta. rewrite float_form_finite by auto. set (a := x mod 2 ^ 31) in *. clearbody a.
  assert (Ma : 0 <= magnitude a).
  { destruct (Z.eq_dec a 0) as [->|]; [rewrite magnitude_0; lia|]. pose proof (magnitude_pos a). lia. }
  destruct (hundredths_nearest (magnitude a) _ Ma eq_refl) as [Hn Nn]. set (n := hundredths (magnitude a)) in *. clearbody n.
  exists (negb (x <? 2 ^ 31)), n, a. split; [|split; [|exact S]].
  - assert (0 <= n / 100) by (apply Z.div_pos; lia).
    destruct (int_text_shape (n / 100)) as (ds & A & N & V & E). destruct (Z.ltb_spec (n / 100) 0); [lia|]. rewrite E, Z.abs_eq in * by lia.
    pose proof (Z.mod_pos_bound (n / 10) 10 eq_refl). pose proof (Z.mod_pos_bound n 10 eq_refl).
    rewrite !one_digit by lia. cbn [map app].
    assert (F2 : are_digits [n / 10 mod 10; n mod 10]) by (repeat constructor; lia).
    pose proof (number_intro (negb (x <? 2 ^ 31)) ds (map digit ds) [n / 10 mod 10; n mod 10] (lit "." ++ map digit [n / 10 mod 10; n mod 10]) None [] A N (ascii_map ds A)
      (ascii_point [n / 10 mod 10; n mod 10] ltac:(discriminate) F2) et_none) as Q.
    cbn [exponent whole] in Q. change (0 - lenZ [n / 10 mod 10; n mod 10]) with (-2) in Q.
    replace (digits_number (ds ++ [n / 10 mod 10; n mod 10])) with n in Q.
    2: { rewrite digits_app, V. change (lenZ [n / 10 mod 10; n mod 10]) with 2. cbn [digits_number length].
         change (10 ^ Z.of_nat 1) with 10. change (10 ^ Z.of_nat 0) with 1. change (10 ^ 2) with 100.
         Z.div_mod_to_equations; lia. }
    rewrite app_nil_r in Q. eapply small_plain; [exact Q|].
    apply small_app; [apply small_sign|]. apply small_app; [now apply small_digits|]. apply small_app; [apply small_point|]. exact (small_digits _ F2).
  - exists (magnitude a). split; [|exact Nn]. rewrite scaled_magnitude by (unfold inf in Ha; lia). destruct (Z.ltb_spec a inf); [reflexivity|lia].
Qed.

(** ** Infinity and not a number *)

Lemma special_form x t : is_u32 x -> ~ finite x -> special_text x (float_form x t).
Proof.
  intros R F. assert (H : 255 * 2 ^ 23 <= x mod 2 ^ 31).
  { destruct (Z.le_gt_cases (255 * 2 ^ 23) (x mod 2 ^ 31)) as [H|H]; [exact H|]. exfalso. apply F. unfold is_u32 in R.
    unfold finite, f32_scaled. assert (E : (x / 2 ^ 23) mod 2 ^ 8 <> 255).
    { intros E. Z.div_mod_to_equations; lia. }
    cbv zeta. destruct (Z.eqb_spec ((x / 2 ^ 23) mod 2 ^ 8) 255); [contradiction|].
    destruct ((x / 2 ^ 23) mod 2 ^ 8 =? 0); discriminate. }
  unfold is_u32 in R. unfold special_text, float_form. cbv zeta.
  destruct (Z.ltb_spec (255 * 2 ^ 23) (x mod 2 ^ 31)) as [L|L].
  - right; right. split; [intros ->; vm_compute in L; discriminate|]. split; [intros ->; vm_compute in L; discriminate|reflexivity].
  - assert (E : x mod 2 ^ 31 = 255 * 2 ^ 23) by lia. rewrite E. cbn [Z.eqb]. rewrite Z.eqb_refl.
    destruct (Z.ltb_spec x (2 ^ 31)); [left|right; left]; (split; [|reflexivity]); Z.div_mod_to_equations; lia.
Qed.
