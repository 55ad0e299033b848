(** * How long numbers, texts and JSON values are *)

From Coq Require Import ZArith List Bool Lia.
From Verif Require Import Base F32 Json JsonText SpecBasic SpecFacts SpecDecimal SpecSize JsonLogic MagnitudeProofs FloatTextProofs NumberTextProofs
  JsonTextProofs SizeProofs.
Open Scope Z_scope.

Lemma lenZ_app {A} (a b : list A) : lenZ (a ++ b) = lenZ a + lenZ b.
Proof. unfold lenZ. rewrite app_length. lia. Qed.
Lemma lenZ_cons {A} (x : A) l : lenZ (x :: l) = 1 + lenZ l.
Proof. unfold lenZ. cbn [length]. lia. Qed.
Lemma lenZ_nonneg {A} (l : list A) : 0 <= lenZ l.
Proof. unfold lenZ. lia. Qed.

(** ** Numbers *)

Lemma digits_least ds : are_digits ds -> no_leading_zero ds -> 2 <= lenZ ds -> 10 ^ (lenZ ds - 1) <= digits_number ds.
Proof.
  intros A N L. destruct ds as [|d [|d' t]]; try (unfold lenZ in L; cbn [length] in L; lia).
  inversion A as [|? ? Hd A']; subst. cbn [no_leading_zero] in N. set (r := d' :: t) in *. cbn [digits_number].
  pose proof (JsonTextProofs.digits_number_nonneg r A'). rewrite lenZ_cons. unfold lenZ.
  replace (1 + Z.of_nat (length r) - 1) with (Z.of_nat (length r)) by lia.
  assert (0 < 10 ^ Z.of_nat (length r)) by (apply Z.pow_pos_nonneg; lia). nia.
Qed.

Lemma int_text_len x n : 1 <= n -> Z.abs x < 10 ^ n -> lenZ (int_text x) <= n + (if x <? 0 then 1 else 0).
Proof.
  intros Hn H. destruct (int_text_shape x) as (ds & A & N & V & ->).
  assert (lenZ ds <= n).
  { destruct (Z_le_gt_dec (lenZ ds) 1) as [|L]; [lia|]. pose proof (digits_least ds A N ltac:(lia)).
    apply Z.lt_succ_r. unfold Z.succ. assert (lenZ ds - 1 < n); [|lia]. apply (Z.pow_lt_mono_r_iff 10); lia. }
  destruct (x <? 0); rewrite ?lenZ_cons; unfold lenZ in *; rewrite map_length; lia.
Qed.

Lemma display_len x : - 2 ^ 63 <= x < 2 ^ 64 -> lenZ (display_Z x) <= 20.
Proof.
  intros H. assert (Q : forall y, 0 <= y < 2 ^ 64 -> (y <= 2 ^ 63 -> lenZ (dec_digits 20 y []) <= 19) /\ lenZ (dec_digits 20 y []) <= 20).
  { intros y Hy. destruct (dec_digits_spec 20 y [] ltac:(lia) ltac:(split; [lia|transitivity (2 ^ 64); [lia|reflexivity]])) as (ds & A & N & V & ->).
    rewrite app_nil_r. assert (forall n, 1 <= n -> y < 10 ^ n -> lenZ ds <= n).
    { intros n Hn Hy'. destruct (Z_le_gt_dec (lenZ ds) 1) as [|L]; [lia|]. pose proof (digits_least ds A N ltac:(lia)).
      assert (lenZ ds - 1 < n); [|lia]. apply (Z.pow_lt_mono_r_iff 10); lia. }
    unfold lenZ in *. rewrite map_length. split; [intros; apply H0; [lia|]|apply H0; [lia|]].
    - apply Z.le_lt_trans with (2 ^ 63); [lia|reflexivity].
    - apply Z.lt_trans with (2 ^ 64); [lia|reflexivity]. }
  unfold display_Z. destruct (Z.ltb_spec x 0).
  - rewrite lenZ_cons. destruct (Q (- x) ltac:(lia)) as [Q1 _]. specialize (Q1 ltac:(lia)). lia.
  - apply Q. lia.
Qed.

Lemma power_range X : 1 <= X < 2 ^ 277 -> -48 <= leading_power X <= 40.
Proof.
  intros H. assert (0 <= Z.log2 X <= 276).
  { split; [apply Z.log2_nonneg|]. assert (Z.log2 X < 277); [|lia]. apply Z.log2_lt_pow2; lia. }
  assert (-46 <= (Z.log2 X - 149) * 30103 / 100000 <= 39).
  { split; [apply Z.div_le_lower_bound; lia|]. assert ((Z.log2 X - 149) * 30103 / 100000 < 40); [apply Z.div_lt_upper_bound; lia|lia]. }
  unfold leading_power. cbv zeta. destruct (has_power _ _); lia.
Qed.

Lemma decimal_range up a : 1 <= a < inf -> let (d, k) := f32_decimal up a in 0 < d < 10 ^ 10 /\ -57 <= k <= 50.
Proof.
  intros Ha. unfold f32_decimal.
  destruct (shortest_chosen up a Ha 9 1 eq_refl ltac:(lia) ltac:(lia)) as (n & d & E & Hn & Ch & _). rewrite E.
  pose proof (power_range _ (X_range a Ha)) as P. set (p := leading_power (magnitude a)) in *.
  pose proof (low_range a Ha n ltac:(lia)) as R.
  assert (P9 : 10 ^ n <= 10 ^ 9) by (apply Z.pow_le_mono_r; lia).
  assert (0 < 10 ^ (n - 1)) by (apply Z.pow_pos_nonneg; lia).
  assert (Hd : 0 < d <= 10 ^ 9) by (destruct Ch as [_ [[-> _]|[-> _]]]; lia).
  destruct (strip_spec a 9 d (p + 1 - n) ltac:(lia)) as (i & Hi & -> & D & _).
  assert (Pi : 0 < 10 ^ i) by (apply Z.pow_pos_nonneg; lia).
  set (d' := d / 10 ^ i) in *. split; [|lia]. split; [nia|]. change (10 ^ 10) with (10 * 10 ^ 9). nia.
Qed.

Lemma firstn_skipn_len {A} n (l : list A) : lenZ (firstn n l) + lenZ (skipn n l) = lenZ l.
Proof. rewrite <- lenZ_app, firstn_skipn. reflexivity. Qed.

Lemma exponent_len e : -1000 < e < 1000 -> lenZ (exponent_part e) <= 6.
Proof.
  intros H. unfold exponent_part. rewrite !lenZ_app. pose proof (int_text_len e 3 ltac:(lia) ltac:(change (10 ^ 3) with 1000; lia)).
  change (lenZ (lit "e")) with 1. destruct (0 <? e); [change (lenZ (lit "+")) with 1|change (@lenZ byte []) with 0]; destruct (e <? 0); lia.
Qed.

Lemma repeat_len (x : byte) n : lenZ (repeat x n) = Z.of_nat n.
Proof. unfold lenZ. now rewrite repeat_length. Qed.

Lemma f32_text_len x : f32_is_finite x = true -> lenZ (f32_text x) <= 20.
Proof.
  intros F. apply finite_iff in F.
  assert (Ha : 0 <= x mod 2 ^ 31 < inf).
  { pose proof (Z.mod_pos_bound x (2 ^ 32) ltac:(lia)) as H. assert (F' : f32_scaled (x mod 2 ^ 32) <> None).
    { unfold SpecJson.finite in F. revert F. unfold f32_scaled.
      assert (E1 : (x mod 2 ^ 32 / 2 ^ 23) mod 2 ^ 8 = (x / 2 ^ 23) mod 2 ^ 8).
      { change (2 ^ 32) with (2 ^ 23 * 2 ^ 9). rewrite Z.rem_mul_r by lia. rewrite (Z.add_comm (x mod 2 ^ 23)), (Z.mul_comm (2 ^ 23)).
        rewrite Z.div_add_l by lia. rewrite (Z.div_small (x mod 2 ^ 23)) by (apply Z.mod_pos_bound; lia). rewrite Z.add_0_r.
        change (2 ^ 9) with (2 ^ 8 * 2). rewrite Z.rem_mul_r by lia. rewrite Z.mul_comm, Z_mod_plus_full. apply Z.mod_mod. lia. }
      assert (E2 : (x mod 2 ^ 32) mod 2 ^ 23 = x mod 2 ^ 23).
      { change (2 ^ 32) with (2 ^ 23 * 2 ^ 9). rewrite Z.rem_mul_r by lia. rewrite Z.mul_comm, Z_mod_plus_full. apply Z.mod_mod. lia. }
      rewrite E1, E2. destruct (_ =? 255); [auto|]. intros _. destruct (_ =? 0); discriminate. }
    destruct (finite_sign _ H F') as [R _]. 
    replace (x mod 2 ^ 31) with ((x mod 2 ^ 32) mod 2 ^ 31); [exact R|].
    change (2 ^ 32) with (2 ^ 31 * 2). rewrite Z.rem_mul_r by lia. rewrite Z.mul_comm, Z_mod_plus_full. apply Z.mod_mod. lia. }
  unfold f32_text. set (a := x mod 2 ^ 31) in *. rewrite lenZ_app.
  assert (lenZ (if x <? 2 ^ 31 then [] else lit "-") <= 1) by (destruct (x <? 2 ^ 31); cbn; lia).
  destruct (Z.eqb_spec a 0); [change (lenZ (lit "0.0")) with 3; lia|].
  pose proof (decimal_range false a ltac:(lia)) as D. destruct (f32_decimal false a) as [d k]. destruct D as [Hd Hk].
  pose proof (int_text_len d 10 ltac:(lia) ltac:(lia)) as L. destruct (Z.ltb_spec d 0) as [|_]; [lia|].
  enough (lenZ (layout_decimal d k) <= 19) by lia.
  assert (L1 : 1 <= lenZ (int_text d)).
  { destruct (int_text_shape d) as (ds & A & N & V & ->). destruct (Z.ltb_spec d 0); [lia|]. destruct ds; [destruct N|].
    cbn [map]. rewrite lenZ_cons. pose proof (lenZ_nonneg (map digit ds)). lia. }
  unfold layout_decimal. cbv zeta. set (ds := int_text d) in *. set (kk := lenZ ds + k).
  destruct ((0 <=? k) && (kk <=? 13)) eqn:C1.
  { apply andb_prop in C1 as [C1 C2]. rewrite !lenZ_app, repeat_len. change (lenZ (lit ".0")) with 2. lia. }
  destruct ((0 <? kk) && (kk <=? 13)).
  { rewrite !lenZ_app. pose proof (firstn_skipn_len (Z.to_nat kk) ds). change (lenZ (lit ".")) with 1. lia. }
  destruct ((-6 <? kk) && (kk <=? 0)) eqn:C3.
  { apply andb_prop in C3 as [C3 C4]. rewrite !lenZ_app, repeat_len. change (lenZ (lit "0.")) with 2. lia. }
  pose proof (exponent_len (kk - 1) ltac:(lia)).
  destruct (lenZ ds =? 1); rewrite !lenZ_app; [lia|]. pose proof (firstn_skipn_len (Z.to_nat 1) ds).
  change (lenZ (lit ".")) with 1. lia.
Qed.

(** ** Texts *)

Lemma escape_len b : lenZ (escape b) <= 6.
Proof.
  unfold escape. cbv zeta. repeat match goal with |- context [if ?c then _ else _] => destruct c end;
    unfold lenZ; cbn [length]; lia.
Qed.
Lemma quote_len s : lenZ (quote s) <= 2 + 6 * lenZ s.
Proof.
  unfold quote. rewrite lenZ_cons, lenZ_app. change (lenZ [x22]) with 1.
  assert (lenZ (flat_map escape s) <= 6 * lenZ s); [|lia].
  induction s as [|b s IH]; [reflexivity|]. cbn [flat_map]. rewrite lenZ_app, lenZ_cons. pose proof (escape_len b). lia.
Qed.

(** ** Values: [N] for every line break *)

Fixpoint weight (N : Z) (j : json) : Z :=
  match j with
  | JNull => 4
  | JBool _ => 5
  | JInt x => lenZ (int_text x)
  | JF32 x => lenZ (f32_text x)
  | JStr s => lenZ (quote s)
  | JArr a => 2 + N + total (fun x => 1 + N + weight N x) a
  | JObj o => 2 + N + total (fun kv => 2 + N + lenZ (quote (fst kv)) + weight N (snd kv)) o
  end.

(** how deep arrays and objects are nested *)
Fixpoint height (j : json) : Z :=
  match j with
  | JArr a => 1 + fold_right (fun x n => Z.max (height x) n) 0 a
  | JObj o => 1 + fold_right (fun kv n => Z.max (height (snd kv)) n) 0 o
  | _ => 0
  end.

Section Induction.
Context (P : json -> Prop) (Hn : P JNull) (Hb : forall b, P (JBool b)) (Hi : forall x, P (JInt x)) (Hf : forall x, P (JF32 x))
  (Hs : forall s, P (JStr s)) (Ha : forall a, Forall P a -> P (JArr a)) (Ho : forall o, Forall (fun kv => P (snd kv)) o -> P (JObj o)).
Fixpoint json_rec' (j : json) : P j :=
  match j with
  | JNull => Hn
  | JBool b => Hb b
  | JInt x => Hi x
  | JF32 x => Hf x
  | JStr s => Hs s
  | JArr a => Ha a ((fix go l : Forall P l := match l with [] => Forall_nil _ | x :: t => Forall_cons _ (json_rec' x) (go t) end) a)
  | JObj o => Ho o ((fix go l : Forall (fun kv => P (snd kv)) l :=
      match l with [] => Forall_nil _ | kv :: t => Forall_cons _ (json_rec' (snd kv)) (go t) end) o)
  end.
End Induction.

Lemma height_nonneg j : 0 <= height j.
Proof.
  destruct j as [| | | | |a|o]; cbn [height]; try lia.
  - assert (0 <= fold_right (fun x n => Z.max (height x) n) 0 a) by (induction a; cbn [fold_right]; lia). lia.
  - assert (0 <= fold_right (fun kv n => Z.max (height (snd kv)) n) 0 o) by (induction o; cbn [fold_right]; lia). lia.
Qed.
Lemma height_arr x a : In x a -> height x + 1 <= height (JArr a).
Proof.
  cbn [height]. induction a as [|y a IH]; [intros []|]. cbn [fold_right]. intros [->|H]; [lia|]. specialize (IH H). lia.
Qed.
Lemma height_obj kv o : In kv o -> height (snd kv) + 1 <= height (JObj o).
Proof.
  cbn [height]. induction o as [|y o IH]; [intros []|]. cbn [fold_right]. intros [->|H]; [lia|]. specialize (IH H). lia.
Qed.

Section Texts.
Context (l : layout) (N : Z) (D : Z) (HN : 0 <= N).
Context (Hl : forall d, Z.of_nat d <= D -> lenZ (new_line l d) + lenZ (colon l) <= N + 1).

Lemma colon_pos : 1 <= lenZ (colon l).
Proof. destruct l; cbn; lia. Qed.

Lemma bracket_len o c d parts w : lenZ o = 1 -> lenZ c = 1 -> 0 <= w -> Z.of_nat d + 1 <= D \/ parts = [] ->
  total (fun p => 2 + N - lenZ (colon l) + lenZ p) parts <= w -> lenZ (bracket l d o c parts) <= 2 + N + w.
Proof.
  intros Ho Hc Hw Hd T. unfold bracket. destruct parts as [|p ps]; [rewrite lenZ_app; lia|]. destruct Hd as [Hd|]; [|discriminate].
  pose proof colon_pos as C. pose proof (Hl d ltac:(lia)) as H1. pose proof (Hl (S d) ltac:(lia)) as H2.
  rewrite !lenZ_app. rewrite total_cons in T.
  assert (lenZ (flat_map (fun q => lit "," ++ new_line l (S d) ++ q) ps) <= total (fun p => 2 + N - lenZ (colon l) + lenZ p) ps).
  { clear T. induction ps as [|q ps IH]; [reflexivity|]. cbn [flat_map]. rewrite total_cons, !lenZ_app. change (lenZ (lit ",")) with 1. lia. }
  lia.
Qed.

Lemma weight_nonneg j : 0 <= weight N j.
Proof.
  induction j as [| | | | |a IH|o IH] using json_rec'; cbn [weight]; try apply lenZ_nonneg; try lia.
  - assert (0 <= total (fun x => 1 + N + weight N x) a); [|lia]. induction IH; [reflexivity|]. rewrite total_cons. lia.
  - assert (0 <= total (fun kv => 2 + N + lenZ (quote (fst kv)) + weight N (snd kv)) o); [|lia].
    induction IH as [|kv o]; [reflexivity|]. rewrite total_cons. pose proof (lenZ_nonneg (quote (fst kv))). lia.
Qed.

Lemma json_len j : forall d, Z.of_nat d + height j <= D -> lenZ (json_text f32_text l d j) <= weight N j.
Proof.
  induction j as [|b| | | |a IH|o IH] using json_rec'; intros d Hd; cbn [weight json_text]; try lia.
  - reflexivity.
  - destruct b; cbn; lia.
  - apply bracket_len; try reflexivity.
    + pose proof (weight_nonneg (JArr a)) as W. cbn [weight] in W.
      clear - HN. induction a as [|x a]; [reflexivity|]. rewrite total_cons. pose proof (weight_nonneg x). lia.
    + destruct a as [|x a]; [right; reflexivity|left]. pose proof (height_arr x (x :: a) (or_introl eq_refl)).
      pose proof (height_nonneg x). lia.
    + rewrite total_map. assert (Hx : forall x, In x a -> Z.of_nat (S d) + height x <= D).
      { intros x Hx. apply height_arr in Hx. lia. }
      clear Hd. induction IH as [|x a Px _ IHa]; [reflexivity|]. rewrite !total_cons.
      specialize (Px (S d) (Hx x (or_introl eq_refl))). specialize (IHa (fun y Hy => Hx y (or_intror Hy))). pose proof colon_pos. lia.
  - apply bracket_len; try reflexivity.
    + clear - HN. induction o as [|x a]; [reflexivity|]. rewrite total_cons. pose proof (weight_nonneg (snd x)).
      pose proof (lenZ_nonneg (quote (fst x))). lia.
    + destruct o as [|x a]; [right; reflexivity|left]. pose proof (height_obj x (x :: a) (or_introl eq_refl)).
      pose proof (height_nonneg (snd x)). lia.
    + rewrite total_map. assert (Hx : forall x, In x o -> Z.of_nat (S d) + height (snd x) <= D).
      { intros x Hx. apply height_obj in Hx. lia. }
      clear Hd. induction IH as [|[k v] a Px _ IHa]; [reflexivity|]. rewrite !total_cons. cbn [fst snd] in *.
      specialize (Px (S d) (Hx (k, v) (or_introl eq_refl))). specialize (IHa (fun y Hy => Hx y (or_intror Hy))).
      rewrite !lenZ_app. cbn [snd] in *. lia.
Qed.
End Texts.
