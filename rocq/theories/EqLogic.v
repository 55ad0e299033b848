(** * Proofs: comparison, value by value *)

From Coq Require Import ZArith List Bool Lia SpecFloat.
From Verif Require Import Base F32 Text NetTypes EqNet JsonText SpecBasic SpecFacts SpecJson SpecEq SpecBlank MagnitudeProofs TimeProofs BasicProofs.
Open Scope Z_scope.

(** ** Floats *)

Definition zero_bits (x : Z) : Prop := x = 0 \/ x = 2 ^ 31.
Definition eq_bits (x y : Z) : Prop := (x = y /\ x mod 2 ^ 31 <= 255 * 2 ^ 23) \/ (zero_bits x /\ zero_bits y).

Lemma compare_bits x y : 0 <= x < 2 ^ 32 -> 0 <= y < 2 ^ 32 -> (f32_eq x y = true <-> eq_bits x y).
Proof.
  intros Hx Hy. unfold f32_eq, eq_bits, zero_bits.
  destruct (pattern x Hx) as (e & m & He & Hm & Mx & Ex & Sx). destruct (pattern y Hy) as (e' & m' & He' & Hm' & My & Ey & Sy).
  rewrite Sx, Sy, Mx. clear Sx Sy Mx My.
  assert (Bx : (2 ^ 31 <=? x) = true /\ x = 2 ^ 31 + e * 2 ^ 23 + m \/ (2 ^ 31 <=? x) = false /\ x = e * 2 ^ 23 + m)
    by (destruct (Z.leb_spec (2 ^ 31) x); [left|right]; split; auto; lia).
  assert (By : (2 ^ 31 <=? y) = true /\ y = 2 ^ 31 + e' * 2 ^ 23 + m' \/ (2 ^ 31 <=? y) = false /\ y = e' * 2 ^ 23 + m')
    by (destruct (Z.leb_spec (2 ^ 31) y); [left|right]; split; auto; lia).
  clear Ex Ey.
  destruct (Z.eqb_spec e 255) as [E1|E1]; destruct (Z.eqb_spec e' 255) as [E2|E2].
  - destruct (Z.eqb_spec m 0), (Z.eqb_spec m' 0); cbn [SFcompare]; destruct Bx as [[Gx Bx]|[Gx Bx]], By as [[Gy By]|[Gy By]]; rewrite ?Gx, ?Gy;
      cbn [SFcompare]; split; intros H; try discriminate; try reflexivity; lia.
  - assert (~ ((x = y /\ e * 2 ^ 23 + m <= 255 * 2 ^ 23) \/ (x = 0 \/ x = 2 ^ 31) /\ (y = 0 \/ y = 2 ^ 31))) as N by lia.
    split; [|tauto]. intros H; exfalso. destruct (m =? 0); cbn [SFcompare] in H; [|discriminate].
    destruct (e' =? 0); [destruct m' as [|p|p]|destruct (m' + 2 ^ 23) as [|p|p]]; cbn [SFcompare] in H; destruct (2 ^ 31 <=? x); discriminate.
  - assert (~ ((x = y /\ e * 2 ^ 23 + m <= 255 * 2 ^ 23) \/ (x = 0 \/ x = 2 ^ 31) /\ (y = 0 \/ y = 2 ^ 31))) as N by lia.
    split; [|tauto]. intros H; exfalso. destruct (e =? 0); [destruct m as [|p|p]|destruct (m + 2 ^ 23) as [|p|p]]; destruct (m' =? 0); cbn [SFcompare] in H; destruct (2 ^ 31 <=? y); discriminate.
  - assert (F : forall e m, 0 <= e < 255 -> 0 <= m < 2 ^ 23 -> forall s,
      exists p q, (if e =? 0 then match m with Zpos p => S754_finite s p (-149) | _ => S754_zero s end
        else match m + 2 ^ 23 with Zpos p => S754_finite s p (e - 150) | _ => S754_nan end) =
        (if (e =? 0) && (m =? 0) then S754_zero s else S754_finite s p q) /\
      (e * 2 ^ 23 + m <> 0 -> Zpos p = (if e =? 0 then m else m + 2 ^ 23) /\ q = (if e =? 0 then -149 else e - 150))).
    { clear. intros e m He Hm s. destruct (Z.eqb_spec e 0) as [->|N]; cbn [andb].
      - destruct m as [|p|p]; [exists 1%positive, 0|exists p, (-149)|lia]; cbn [Z.eqb]; split; auto; lia.
      - destruct (m + 2 ^ 23) as [|p|p] eqn:E; [lia| |lia]. exists p, (e - 150). split; auto. }
    destruct (F e m ltac:(lia) Hm (2 ^ 31 <=? x)) as (p & q & -> & P). destruct (F e' m' ltac:(lia) Hm' (2 ^ 31 <=? y)) as (p' & q' & -> & P').
    clear F. destruct (Z.eqb_spec e 0) as [A|A], (Z.eqb_spec m 0) as [C|C], (Z.eqb_spec e' 0) as [A'|A'], (Z.eqb_spec m' 0) as [C'|C'];
      cbn [andb SFcompare]; destruct Bx as [[Gx Bx]|[Gx Bx]], By as [[Gy By]|[Gy By]]; rewrite ?Gx, ?Gy;
      try (split; intros H; try discriminate; try reflexivity; lia);
      destruct (P ltac:(lia)) as [P1 P2], (P' ltac:(lia)) as [P1' P2'];
      (destruct (Z.compare_spec q q'); [|split; intros H0; try discriminate; lia|split; intros H0; try discriminate; lia]);
      change (Pos.compare_cont Eq p p') with (Pos.compare p p'); destruct (Pos.compare_spec p p') as [K|K|K]; cbn [CompOpp];
      (split; intros H0; try discriminate; try reflexivity; try lia).
Qed.

Lemma value_bits x y : 0 <= x < 2 ^ 32 -> 0 <= y < 2 ^ 32 -> (same_value x y <-> eq_bits x y).
Proof.
  intros Hx Hy. unfold same_value, eq_bits, zero_bits.
  assert (V : forall x, 0 <= x < 2 ^ 32 -> f32_scaled x = if x mod 2 ^ 31 <? inf then
    Some ((if x <? 2 ^ 31 then 1 else -1) * magnitude (x mod 2 ^ 31)) else None).
  { clear. intros x Hx. destruct (Z.ltb_spec x (2 ^ 31)) as [L|L].
    - rewrite scaled_magnitude by lia. rewrite (Z.mod_small x) by lia. destruct (x <? inf); [f_equal; lia|reflexivity].
    - pose proof (scaled_magnitude (x mod 2 ^ 31) (Z.mod_pos_bound x (2 ^ 31) eq_refl)) as S.
      assert (M : x mod 2 ^ 31 = x - 2 ^ 31) by (symmetry; apply Z.mod_unique with 1; lia).
      assert (N : f32_scaled x = option_map Z.opp (f32_scaled (x mod 2 ^ 31))).
      { unfold f32_scaled. assert (x mod 2 ^ 31 <? 2 ^ 31 = true) as -> by (apply Z.ltb_lt; lia).
        assert (x <? 2 ^ 31 = false) as -> by (apply Z.ltb_ge; lia). rewrite M.
        assert ((x - 2 ^ 31) / 2 ^ 23 = x / 2 ^ 23 - 2 ^ 8) as ->.
        { replace (x - 2 ^ 31) with (x + (- 2 ^ 8) * 2 ^ 23) by lia. rewrite Z.div_add by lia. lia. }
        assert ((x - 2 ^ 31) mod 2 ^ 23 = x mod 2 ^ 23) as ->.
        { replace (x - 2 ^ 31) with (x + (- 2 ^ 8) * 2 ^ 23) by lia. now rewrite Z.mod_add by lia. }
        assert ((x / 2 ^ 23 - 2 ^ 8) mod 2 ^ 8 = (x / 2 ^ 23) mod 2 ^ 8) as ->.
        { replace (x / 2 ^ 23 - 2 ^ 8) with (x / 2 ^ 23 + (- 1) * 2 ^ 8) by lia. now rewrite Z.mod_add by lia. }
        destruct ((x / 2 ^ 23) mod 2 ^ 8 =? 255); [reflexivity|]. destruct ((x / 2 ^ 23) mod 2 ^ 8 =? 0); cbn [option_map]; f_equal; lia. }
      rewrite N, S. destruct (x mod 2 ^ 31 <? inf); cbn [option_map]; [f_equal; lia|reflexivity]. }
  rewrite !V by auto. clear V.
  assert (Mx : x = (if x <? 2 ^ 31 then 0 else 2 ^ 31) + x mod 2 ^ 31 /\ 0 <= x mod 2 ^ 31 < 2 ^ 31).
  { split; [|apply Z.mod_pos_bound; lia]. destruct (Z.ltb_spec x (2 ^ 31)); [rewrite Z.mod_small by lia; lia|].
    assert (x mod 2 ^ 31 = x - 2 ^ 31) by (symmetry; apply Z.mod_unique with 1; lia). lia. }
  assert (My : y = (if y <? 2 ^ 31 then 0 else 2 ^ 31) + y mod 2 ^ 31 /\ 0 <= y mod 2 ^ 31 < 2 ^ 31).
  { split; [|apply Z.mod_pos_bound; lia]. destruct (Z.ltb_spec y (2 ^ 31)); [rewrite Z.mod_small by lia; lia|].
    assert (y mod 2 ^ 31 = y - 2 ^ 31) by (symmetry; apply Z.mod_unique with 1; lia). lia. }
  destruct Mx as [Mx Rx], My as [My Ry]. set (a := x mod 2 ^ 31) in *. set (b := y mod 2 ^ 31) in *.
  assert (Eab : x = y -> a = b) by (intros E; unfold a, b; now rewrite E). clearbody a b.
  unfold plus_infinity, minus_infinity. assert (inf = 255 * 2 ^ 23) as I by reflexivity.
  assert (P : forall a, 1 <= a -> 1 <= magnitude a) by exact magnitude_pos. pose proof magnitude_0 as M0.
  assert (J : forall a b, 0 <= a -> 0 <= b -> magnitude a = magnitude b -> a = b).
  { intros c d Hc Hd E. destruct (Z.lt_trichotomy c d) as [L|[L|L]]; auto; exfalso;
      [pose proof (magnitude_lt c d ltac:(lia))|pose proof (magnitude_lt d c ltac:(lia))]; lia. }
  split.
  - intros [(v & E & F)|[E0 E]]; [|left; split; [exact E0|revert Mx; destruct (Z.ltb_spec x (2 ^ 31)); lia]].
    destruct (Z.ltb_spec a inf); [|discriminate]. destruct (Z.ltb_spec b inf); [|discriminate].
    injection E as E. injection F as F. rewrite <- F in E. clear F.
    change (Z.pow_pos 2 31) with (2 ^ 31) in E. revert E Mx My. destruct (Z.ltb_spec x (2 ^ 31)), (Z.ltb_spec y (2 ^ 31)); intros E Mx My.
    + pose proof (J a b ltac:(lia) ltac:(lia) ltac:(lia)). left. lia.
    + right. assert (a = 0 /\ b = 0); [|lia]. destruct (Z.eq_dec a 0) as [->|], (Z.eq_dec b 0) as [->|]; auto;
        try (pose proof (P a ltac:(lia))); try (pose proof (P b ltac:(lia))); lia.
    + right. assert (a = 0 /\ b = 0); [|lia]. destruct (Z.eq_dec a 0) as [->|], (Z.eq_dec b 0) as [->|]; auto;
        try (pose proof (P a ltac:(lia))); try (pose proof (P b ltac:(lia))); lia.
    + pose proof (J a b ltac:(lia) ltac:(lia) ltac:(lia)). left. lia.
  - intros [[E0 L]|[Zx Zy]].
    + assert (a = b) as <- by (apply Eab, E0). destruct (Z.eq_dec a inf) as [E|E].
      * right. split; [exact E0|]. destruct (x <? 2 ^ 31); lia.
      * left. destruct (Z.ltb_spec a inf); [|lia]. rewrite E0. eexists. split; reflexivity.
    + left. exists 0. assert (a = 0 /\ b = 0) as [-> ->] by (destruct (x <? 2 ^ 31), (y <? 2 ^ 31); lia).
      rewrite M0. change (0 <? inf) with true. split; f_equal; lia.
Qed.

Lemma f32_same x y : is_u32 x -> is_u32 y -> (f32_eq x y = true <-> same_value x y).
Proof. intros Hx Hy. rewrite compare_bits, value_bits by (unfold is_u32 in *; lia). reflexivity. Qed.

(** ** Types *)

Definition bits {A} (floats : A -> list f32) (a : A) : Prop := Forall is_u32 (floats a).
(** comparison compares everything but the floats exactly, and the floats by value *)
Definition eqs {A} (e : A -> A -> bool) (blank : A -> A) (floats : A -> list f32) : Prop := forall a b,
  (blank a = blank b -> length (floats a) = length (floats b)) /\
  (bits floats a -> bits floats b -> (e a b = true <-> blank a = blank b /\ Forall2 same_value (floats a) (floats b))).
Definition exact {A} (e : A -> A -> bool) : Prop := eqs e (fun x => x) (fun _ => []).

Lemma eqs_exact {A} (e : A -> A -> bool) : (forall a b, e a b = true <-> a = b) -> exact e.
Proof. intros H a b. split; [auto|]. intros _ _. rewrite H. split; [auto|tauto]. Qed.
Lemma exact_iff {A} (e : A -> A -> bool) : exact e -> forall a b, e a b = true <-> a = b.
Proof. intros H a b. destruct (H a b) as [_ K]. rewrite K by constructor. split; [tauto|auto]. Qed.

Lemma eqs_Z : exact Z.eqb.
Proof. apply eqs_exact, Z.eqb_eq. Qed.
Lemma eqs_bool : exact Bool.eqb.
Proof. apply eqs_exact, eqb_true_iff. Qed.
Lemma eqs_str : exact str_eqb.
Proof. apply eqs_exact, str_eqb_spec. Qed.
Lemma eqs_f32 : eqs f32_eq blank_f32 one_float.
Proof.
  intros a b. split; [reflexivity|]. unfold bits, one_float. intros Ha Hb. inversion Ha; inversion Hb; subst.
  rewrite f32_same by auto. split.
  - intros S. split; [reflexivity|auto].
  - intros [_ F]. now inversion F.
Qed.

Lemma Forall2_split {A B} (R : A -> B -> Prop) a b c d : length a = length c -> Forall2 R (a ++ b) (c ++ d) -> Forall2 R a c /\ Forall2 R b d.
Proof.
  revert c. induction a as [|x a IH]; intros [|y c] L F; try discriminate; cbn [app] in F; [auto|].
  inversion F; subst. injection L as L. destruct (IH c L H4) as [F1 F2]. auto.
Qed.

Lemma eqs_opt_exact {A} (e : A -> A -> bool) : exact e -> exact (eq_opt e).
Proof.
  intros H. apply eqs_exact. intros [a|] [b|]; cbn [eq_opt]; try (split; congruence).
  rewrite (exact_iff _ H). split; congruence.
Qed.
Lemma eqs_vec_exact {A} (e : A -> A -> bool) : exact e -> exact (eq_vec e).
Proof.
  intros H. apply eqs_exact. induction a as [|a l IH]; intros [|b m]; cbn [eq_vec]; try (split; congruence).
  rewrite andb_true_iff, (exact_iff _ H), IH. split; [intros [-> ->]; reflexivity|intros [= -> ->]; auto].
Qed.
Lemma eqs_opt {A} (e : A -> A -> bool) blank floats : eqs e blank floats -> eqs (eq_opt e) (option_map blank) (opt_floats floats).
Proof.
  intros H [a|] [b|]; cbn [eq_opt option_map opt_floats]; (split; [try congruence|]).
  - intros [= E]. now apply H.
  - intros Ha Hb. rewrite (proj2 (H a b)) by assumption. split; intros [E F]; split; congruence.
  - intros _ _. split; [discriminate|intros [E _]; discriminate].
  - intros _ _. split; [discriminate|intros [E _]; discriminate].
  - intros _ _. split; auto.
Qed.
Lemma eqs_vec {A} (e : A -> A -> bool) blank floats : eqs e blank floats -> eqs (eq_vec e) (map blank) (vec_floats floats).
Proof.
  intros H. unfold vec_floats, bits. intros l. induction l as [|a l IH]; intros [|b m]; cbn [eq_vec map flat_map]; (split; [try discriminate|]).
  - reflexivity.
  - intros _ _. split; auto.
  - intros _ _. split; [discriminate|intros [E _]; discriminate].
  - intros _ _. split; [discriminate|intros [E _]; discriminate].
  - intros [= E F]. rewrite !app_length. f_equal; [now apply H|now apply IH].
  - intros Ha Hb. apply Forall_app in Ha as [Ha Hl], Hb as [Hb Hm].
    rewrite andb_true_iff, (proj2 (H a b)), (proj2 (IH m)) by assumption. split.
    + intros [[E1 F1] [E2 F2]]. split; [congruence|now apply Forall2_app].
    + intros [[= E1 E2] F]. apply Forall2_split in F as [F1 F2]; [auto|now apply H].
Qed.

(** ** Tactics for the generated lemmas *)

#[global] Hint Resolve eqs_Z eqs_bool eqs_str eqs_f32 eqs_opt_exact eqs_vec_exact eqs_opt eqs_vec : eqs.

Ltac eqs_conj := repeat match goal with H : _ /\ _ |- _ => destruct H end.
Ltac exact_fields :=
  rewrite ?andb_true_iff;
  repeat match goal with |- context [?e ?a ?b = true] =>
    let H := fresh "H" in assert (H : exact e) by eauto with eqs; rewrite (exact_iff e H a b); clear H end.
Ltac exact_solve := exact_fields; split; [intros; eqs_conj; subst; reflexivity|intros [=]; subst; auto 20].
(** a type without floats *)
Ltac exact_all e := apply eqs_exact; intros a b; destruct a, b; cbn [e]; try (split; discriminate); exact_solve.

Ltac eqs_lengths :=
  repeat match goal with H : Forall2 same_value (_ ++ _) (_ ++ _) |- _ =>
    let F := fresh "F" in let G := fresh "F" in apply Forall2_split in H as [F G]; [|solve [auto]] end.
(** replaces the comparisons of the fields, remembering the lengths of the floats *)
Ltac eqs_field :=
  match goal with |- context [?e ?a ?b = true] =>
    first
    [ let H := fresh "H" in assert (H : exact e) by eauto with eqs; rewrite (exact_iff e H a b); clear H
    | let H := fresh "H" in let L := fresh "L" in let R := fresh "R" in
      eassert (H : eqs e _ _) by (eauto with eqs); destruct (H a b) as [L R]; rewrite R by assumption; clear H R ] end.
Ltac eqs_floats :=
  let Ha := fresh "Ha" in let Hb := fresh "Hb" in
  intros Ha Hb; rewrite ?Forall_app in Ha, Hb; eqs_conj;
  rewrite ?andb_true_iff; repeat eqs_field;
  split; [intros; eqs_conj; split; [congruence|repeat apply Forall2_app; auto]
         |let E := fresh "E" in let F := fresh "F" in
          intros [E F]; try (injection E as); eqs_lengths; repeat split; auto].
Ltac eqs_length :=
  let E := fresh "E" in intros E; try (injection E as); rewrite ?app_length; repeat apply f_equal2;
  try match goal with |- length (?f ?a) = length (?f ?b) =>
    let H := fresh "H" in eassert (H : eqs _ _ f) by (eauto with eqs); apply (H a b); auto end; auto.
(** a type with floats *)
Ltac eqs_all e blank floats :=
  intros a b; unfold bits; destruct a, b; cbn [e blank floats];
  try (split; [discriminate|intros _ _; split; [discriminate|intros [? _]; discriminate]]);
  (split; [eqs_length|eqs_floats]).
