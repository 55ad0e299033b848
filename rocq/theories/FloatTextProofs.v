(** * Proofs: the text of a binary32 number *)

From Coq Require Import ZArith List Bool Lia.
From Verif Require Import Base F32 Json SpecBasic SpecFacts SpecDecimal SpecJsonText JsonText JsonLogic MagnitudeProofs.
Open Scope Z_scope.

Lemma at10_scale E c e i : 0 <= e + E -> 0 <= i -> at10 (E + i) c e = at10 E c e * 10 ^ i.
Proof. intros. unfold at10. rewrite Z.add_assoc, Z.pow_add_r by lia. ring. Qed.
Lemma at10_shift E c e i : 0 <= e - i + E -> 0 <= i -> at10 E (c * 10 ^ i) (e - i) = at10 E c e.
Proof. intros. unfold at10. replace (e + E) with (i + (e - i + E)) by lia. rewrite (Z.pow_add_r 10 i) by lia. ring. Qed.
Lemma at10_le E c d e : 0 <= e + E -> c <= d -> at10 E c e <= at10 E d e.
Proof.
  intros H L. unfold at10. pose proof (pow10_pos (e + E) H). apply Z.mul_le_mono_nonneg_r; [lia|].
  apply Z.mul_le_mono_nonneg_r; lia.
Qed.
Lemma at10_lt_inv E c d e : 0 <= e + E -> at10 E c e < at10 E d e -> c < d.
Proof. intros H L. destruct (Z_lt_dec c d); auto. pose proof (at10_le E d c e H ltac:(lia)). lia. Qed.

Lemma nearest_same c e d k a : 0 <= c -> 0 <= d -> same_decimal c e d k -> nearest c e a -> nearest d k a.
Proof.
  intros Hc Hd S H. set (E := Z.max (- Z.min e k) 0). assert (0 <= E /\ 0 <= e + E /\ 0 <= k + E) as (H1 & H2 & H3) by lia.
  assert (V : at10 E c e = at10 E d k).
  { unfold at10, same_decimal in *. destruct (Z_le_dec e k) as [L|L].
    - rewrite Z.max_r, Z.mul_1_r, Z.max_l in S by lia. subst c.
      replace (k + E) with (k - e + (e + E)) by lia. rewrite (Z.pow_add_r 10 (k - e)) by lia. ring.
    - rewrite Z.max_l, (Z.max_r (k - e)), Z.mul_1_r in S by lia. subst d.
      replace (e + E) with (e - k + (k + E)) by lia. rewrite (Z.pow_add_r 10 (e - k)) by lia. ring. }
  apply (nearest_at E) in H; auto. apply (nearest_at E); auto. now rewrite <- V.
Qed.

Lemma reads_as_nearest a d k : 1 <= a < inf -> 0 <= d -> reads_as a d k = true <-> nearest d k a.
Proof.
  intros Ha Hd. set (E := Z.max (- k) 0). rewrite <- (between_nearest E) by lia. unfold between, reads_as.
  destruct (Z.leb_spec 1 a); [|lia].
  replace (2 * d * 10 ^ Z.max k 0 * 2 ^ 149) with (2 * at10 E d k).
  2: { unfold at10. replace (k + E) with (Z.max k 0) by lia. ring. }
  fold E. destruct (Z.even a); rewrite andb_true_iff, ?Z.leb_le, ?Z.ltb_lt; tauto.
Qed.

(** ** The leading digit *)

Lemma has_power_at E x p : 0 <= E -> 0 <= p + E -> has_power x p = true <-> at10 E 1 p <= x * 10 ^ E.
Proof.
  intros H1 H2. unfold has_power, at10. rewrite Z.leb_le, Z.mul_1_l.
  pose proof (pow10_pos (E - Z.max (- p) 0) ltac:(lia)) as P.
  replace (p + E) with (Z.max p 0 + (E - Z.max (- p) 0)) by lia.
  replace (10 ^ E) with (10 ^ (Z.max (- p) 0 + (E - Z.max (- p) 0))) by (f_equal; lia).
  rewrite !Z.pow_add_r by lia. rewrite (Z.mul_le_mono_pos_r _ _ _ P).
  match goal with |- ?a <= ?b <-> ?c <= ?d => replace c with a by ring; replace d with b by ring end. tauto.
Qed.
Lemma has_power_mono x y p : 0 <= x <= y -> has_power x p = true -> has_power y p = true.
Proof.
  unfold has_power. rewrite !Z.leb_le. intros H L. pose proof (pow10_pos (Z.max (- p) 0) ltac:(lia)). nia.
Qed.

Definition estimate (l : Z) : Z := (l - 149) * 30103 / 100000.
Lemma estimate_ok : forallb (fun i => let l := Z.of_nat i in
  has_power (2 ^ l) (estimate l) && negb (has_power (2 ^ (l + 1) - 1) (estimate l + 2))) (seq 0 277) = true.
Proof. vm_compute. reflexivity. Qed.

Lemma leading_power_ok x : 1 <= x < 2 ^ 277 -> has_power x (leading_power x) = true /\ has_power x (leading_power x + 1) = false.
Proof.
  intros H. set (l := Z.log2 x). assert (Hl : 0 <= l) by apply Z.log2_nonneg.
  assert (S : 2 ^ l <= x < 2 ^ (l + 1)) by (apply Z.log2_spec; lia).
  assert (Hu : l < 277). { apply Z.log2_lt_pow2; lia. }
  pose proof estimate_ok as F. rewrite forallb_forall in F. specialize (F (Z.to_nat l)). cbv beta zeta in F.
  rewrite Z2Nat.id in F by lia. rewrite andb_true_iff, negb_true_iff in F. destruct F as [F1 F2]; [apply in_seq; lia|].
  assert (Q1 : has_power x (estimate l) = true) by (apply (has_power_mono (2 ^ l)); auto; pose proof (Z.pow_pos_nonneg 2 l); lia).
  assert (Q2 : has_power x (estimate l + 2) = false).
  { destruct (has_power x (estimate l + 2)) eqn:Q; auto. rewrite (has_power_mono x (2 ^ (l + 1) - 1)) in F2; [discriminate|lia|auto]. }
  unfold leading_power. fold l. change ((l - 149) * 30103 / 100000) with (estimate l).
  destruct (has_power x (estimate l + 1)) eqn:Q; auto. split; auto. now replace (estimate l + 1 + 1) with (estimate l + 2) by lia.
Qed.

(** ** Truncation *)

Lemma truncated_at E x k : 0 <= x -> 0 <= E -> 0 <= k + E ->
  0 <= truncated x k /\ at10 E (truncated x k) k <= x * 10 ^ E < at10 E (truncated x k + 1) k.
Proof.
  intros Hx H1 H2. unfold truncated.
  pose proof (pow10_pos (E - Z.max (- k) 0) ltac:(lia)) as P.
  pose proof (pow10_pos (Z.max k 0) ltac:(lia)) as P1. pose proof (pow10_pos (Z.max (- k) 0) ltac:(lia)) as P2.
  set (U := 10 ^ Z.max k 0 * 2 ^ 149) in *. assert (HU : 0 < U) by (unfold U; lia).
  set (y := x * 10 ^ Z.max (- k) 0). assert (Hy : 0 <= y) by (unfold y; apply Z.mul_nonneg_nonneg; lia).
  pose proof (Z.div_mod y U ltac:(lia)) as D. pose proof (Z.mod_pos_bound y U HU) as M.
  set (d := y / U) in *.
  assert (A : forall c, at10 E c k = c * U * 10 ^ (E - Z.max (- k) 0)).
  { intros c. unfold at10, U. replace (k + E) with (Z.max k 0 + (E - Z.max (- k) 0)) by lia. rewrite Z.pow_add_r by lia. ring. }
  assert (B : x * 10 ^ E = y * 10 ^ (E - Z.max (- k) 0)).
  { unfold y. rewrite <- Z.mul_assoc, <- Z.pow_add_r by lia. do 2 f_equal. lia. }
  rewrite !A, B. split; [unfold d; apply Z.div_pos; lia|].
  split; [apply Z.mul_le_mono_nonneg_r; lia|apply Z.mul_lt_mono_pos_r; auto; lia].
Qed.

Lemma rescale E x y u v : 0 <= x <= E -> 0 <= y <= E -> u * 10 ^ (E - x) <= v * 10 ^ (E - y) -> u * 10 ^ y <= v * 10 ^ x.
Proof.
  intros Hx Hy H. assert (P : 0 < 10 ^ E) by (apply pow10_pos; lia). apply (Z.mul_le_mono_pos_r _ _ (10 ^ E) P).
  assert (Q : 0 < 10 ^ (x + y)) by (apply pow10_pos; lia).
  apply (Z.mul_le_mono_nonneg_r _ _ (10 ^ (x + y))) in H; [|lia].
  rewrite <- !Z.mul_assoc, <- !Z.pow_add_r in * by lia.
  replace (E - x + (x + y)) with (y + E) in H by lia. replace (E - y + (x + y)) with (x + E) in H by lia. exact H.
Qed.

Lemma scale_up E x y u v : 0 <= x <= E -> 0 <= y <= E -> u * 10 ^ y <= v * 10 ^ x -> u * 10 ^ (E - x) <= v * 10 ^ (E - y).
Proof.
  intros Hx Hy H. assert (P : 0 < 10 ^ (x + y)) by (apply pow10_pos; lia). apply (Z.mul_le_mono_pos_r _ _ (10 ^ (x + y)) P).
  assert (Q : 0 < 10 ^ E) by (apply pow10_pos; lia).
  apply (Z.mul_le_mono_nonneg_r _ _ (10 ^ E)) in H; [|lia].
  rewrite <- !Z.mul_assoc, <- !Z.pow_add_r in * by lia.
  replace (E - x + (x + y)) with (y + E) by lia. replace (E - y + (x + y)) with (x + E) by lia. exact H.
Qed.

Lemma same_sign x y u w m n : x - y = (u - w) * m * n -> 0 < m -> 0 < n -> (x = y -> u = w) /\ (x < y -> u < w).
Proof.
  intros V M N. rewrite <- Z.mul_assoc in V. assert (P : 0 < m * n) by (apply Z.mul_pos_pos; auto). set (q := m * n) in *. clearbody q. clear M N.
  split; intros H.
  - assert (Z0 : (u - w) * q = 0) by lia. apply Z.mul_eq_0 in Z0. lia.
  - destruct (Z_lt_dec u w); auto. assert (0 <= (u - w) * q) by (apply Z.mul_nonneg_nonneg; lia). lia.
Qed.

Section Number.
Context (up : bool) (a : Z) (Ha : 1 <= a < inf).
Let X := magnitude a.
Let p := leading_power X.

Lemma X_range : 1 <= X < 2 ^ 277.
Proof.
  unfold X. split; [apply magnitude_pos; lia|]. rewrite <- magnitude_inf. apply magnitude_lt. lia.
Qed.
Lemma p_range E : 0 <= E -> 0 <= p + E -> at10 E 1 p <= X * 10 ^ E < at10 E 1 (p + 1).
Proof.
  intros H1 H2. destruct (leading_power_ok X X_range) as [A B]. split; [now apply has_power_at|].
  destruct (Z_lt_dec (X * 10 ^ E) (at10 E 1 (p + 1))); auto.
  assert (has_power X (p + 1) = true) by (apply (has_power_at E); lia). unfold p in *. congruence.
Qed.

Definition low (n : Z) : Z := truncated X (p + 1 - n).
Lemma low_at n E : 0 <= E -> 0 <= p + 1 - n + E ->
  0 <= low n /\ at10 E (low n) (p + 1 - n) <= X * 10 ^ E < at10 E (low n + 1) (p + 1 - n).
Proof. intros. apply truncated_at; auto. pose proof X_range. lia. Qed.

Lemma low_range n : 1 <= n -> 10 ^ (n - 1) <= low n < 10 ^ n.
Proof.
  intros Hn. set (E := Z.max (- (p + 1 - n)) 0). assert (H1 : 0 <= E) by lia. assert (H2 : 0 <= p + 1 - n + E) by lia.
  destruct (low_at n E H1 H2) as (L0 & L1 & L2). destruct (p_range E H1 ltac:(lia)) as [P1 P2].
  assert (Q1 : at10 E 1 p = at10 E (10 ^ (n - 1)) (p + 1 - n)).
  { rewrite <- (at10_shift E 1 p (n - 1)) by lia. rewrite Z.mul_1_l. f_equal. lia. }
  assert (Q2 : at10 E 1 (p + 1) = at10 E (10 ^ n) (p + 1 - n)).
  { rewrite <- (at10_shift E 1 (p + 1) n) by lia. now rewrite Z.mul_1_l. }
  rewrite Q1 in P1. rewrite Q2 in P2. split.
  - assert (10 ^ (n - 1) < low n + 1); [|lia]. apply (at10_lt_inv E _ _ (p + 1 - n)); lia.
  - apply (at10_lt_inv E _ _ (p + 1 - n)); lia.
Qed.

(** *** Nine digits suffice *)

Lemma nine_digits : reads_as a (low 9) (p + 1 - 9) = true \/ reads_as a (low 9 + 1) (p + 1 - 9) = true.
Proof.
  set (E := Z.max (- (p + 1 - 9)) 0). assert (H1 : 0 <= E) by lia. assert (H2 : 0 <= p + 1 - 9 + E) by lia.
  destruct (low_at 9 E H1 H2) as (L0 & L1 & L2). destruct (p_range E H1 ltac:(lia)) as [P1 P2].
  rewrite !reads_as_nearest by lia. rewrite <- !(between_nearest E) by lia. unfold between.
  destruct (Z.leb_spec 1 a); [|lia].
  destruct (magnitude_next a ltac:(lia)) as (g & G & Eg & L). destruct (L ltac:(lia)) as (l & Hl & El & Hb). clear L.
  rewrite Eg. replace (magnitude (a - 1)) with (X - l) by (unfold X; lia). fold X in Hb. fold X.
  set (V := at10 E (low 9) (p + 1 - 9)) in *. set (W := at10 E (low 9 + 1) (p + 1 - 9)) in *.
  set (U := at10 E 1 (p + 1 - 9)).
  assert (WU : W = V + U) by (unfold W, V, U, at10; ring).
  assert (UX : U * 10 ^ 8 <= X * 10 ^ E).
  { rewrite <- (at10_shift E 1 p 8) in P1 by lia. unfold U. replace (p + 1 - 9) with (p - 8) by lia.
    replace (at10 E 1 (p - 8) * 10 ^ 8) with (at10 E (1 * 10 ^ 8) (p - 8)) by (unfold at10; ring). exact P1. }
  clearbody U V W. set (D := 10 ^ E) in *. assert (PD : 0 < D) by (apply pow10_pos; lia). clearbody D.
  assert (UL : U * 10 ^ 8 <= 2 ^ 24 * l * D).
  { assert (X * D <= 2 ^ 24 * l * D) by (apply Z.mul_le_mono_nonneg_r; lia). lia. }
  assert (LG : l * D <= g * D) by (apply Z.mul_le_mono_nonneg_r; lia).
  assert (LP : 0 < l * D) by (apply Z.mul_pos_pos; lia).
  replace ((X - l + X) * D) with (2 * (X * D) - l * D) by ring.
  replace ((X + (X + g)) * D) with (2 * (X * D) + g * D) by ring.
  destruct (Z.even a); lia.
Qed.

(** *** The choice *)

Lemma rounds_at E d k : 0 <= E -> 0 <= k + E ->
  rounds_up up X d k = true -> at10 E d k + at10 E (d + 1) k <= 2 * (X * 10 ^ E).
Proof.
  intros H1 H2. unfold rounds_up, at10.
  pose proof (pow10_pos (E - Z.max (- k) 0) ltac:(lia)) as P.
  intros H. assert (L : (2 * d + 1) * 10 ^ Z.max k 0 * 2 ^ 149 <= 2 * X * 10 ^ Z.max (- k) 0).
  { apply orb_true_iff in H. destruct H as [H|H]; [apply Z.ltb_lt in H; lia|].
    apply andb_true_iff in H. destruct H as [H _]. apply Z.eqb_eq in H. lia. }
  replace (k + E) with (Z.max k 0 + (E - Z.max (- k) 0)) by lia.
  replace (10 ^ E) with (10 ^ (Z.max (- k) 0 + (E - Z.max (- k) 0))) by (f_equal; lia).
  rewrite !Z.pow_add_r by lia. apply (Z.mul_le_mono_nonneg_r _ _ (10 ^ (E - Z.max (- k) 0))) in L; [|lia].
  match type of L with ?u <= ?v => match goal with |- ?x <= ?y => replace x with u by ring; replace y with v by ring end end. exact L.
Qed.
Lemma stays_at E d k : 0 <= E -> 0 <= k + E ->
  rounds_up up X d k = false -> 2 * (X * 10 ^ E) <= at10 E d k + at10 E (d + 1) k.
Proof.
  intros H1 H2. unfold rounds_up, at10.
  pose proof (pow10_pos (E - Z.max (- k) 0) ltac:(lia)) as P.
  intros H. assert (L : 2 * X * 10 ^ Z.max (- k) 0 <= (2 * d + 1) * 10 ^ Z.max k 0 * 2 ^ 149).
  { apply orb_false_iff in H. destruct H as [H _]. apply Z.ltb_ge in H. lia. }
  replace (k + E) with (Z.max k 0 + (E - Z.max (- k) 0)) by lia.
  replace (10 ^ E) with (10 ^ (Z.max (- k) 0 + (E - Z.max (- k) 0))) by (f_equal; lia).
  rewrite !Z.pow_add_r by lia. apply (Z.mul_le_mono_nonneg_r _ _ (10 ^ (E - Z.max (- k) 0))) in L; [|lia].
  match type of L with ?u <= ?v => match goal with |- ?x <= ?y => replace x with u by ring; replace y with v by ring end end. exact L.
Qed.

Definition none (n : Z) : Prop := ~ nearest (low n) (p + 1 - n) a /\ ~ nearest (low n + 1) (p + 1 - n) a.
Definition chosen (n d : Z) : Prop :=
  nearest d (p + 1 - n) a /\
  (d = low n /\ (nearest (low n + 1) (p + 1 - n) a -> rounds_up up X (low n) (p + 1 - n) = false) \/
   d = low n + 1 /\ (nearest (low n) (p + 1 - n) a -> rounds_up up X (low n) (p + 1 - n) = true)).

Lemma reads_not n d : 0 <= d -> reads_as a d (p + 1 - n) = false -> ~ nearest d (p + 1 - n) a.
Proof. intros Hd H Q. apply reads_as_nearest in Q; auto. congruence. Qed.

Lemma shortest_chosen f : forall n, Z.of_nat f + n = 10 -> 1 <= n -> (forall m, 1 <= m < n -> none m) ->
  exists n0 d, shortest up f a p n = (d, p + 1 - n0) /\ 1 <= n0 <= 9 /\ chosen n0 d /\ forall m, 1 <= m < n0 -> none m.
Proof.
  induction f as [|f IH]; intros n Hf Hn N.
  - exfalso. destruct (N 9 ltac:(lia)) as [N1 N2]. pose proof (low_range 9 ltac:(lia)).
    destruct nine_digits as [Q|Q]; apply reads_as_nearest in Q; auto; lia.
  - cbn [shortest]. fold X. fold (low n). pose proof (low_range n Hn) as R. pose proof (pow10_pos (n - 1) ltac:(lia)).
    destruct (reads_as a (low n) (p + 1 - n)) eqn:R1.
    + exists n. destruct (reads_as a (low n + 1) (p + 1 - n)) eqn:R2, (rounds_up up X (low n) (p + 1 - n)) eqn:R3; cbn [andb].
      * exists (low n + 1). split; auto. split; [lia|]. split; auto. split; [now apply reads_as_nearest; try lia|]. right. auto.
      * exists (low n). split; auto. split; [lia|]. split; auto. split; [now apply reads_as_nearest; try lia|]. left. auto.
      * exists (low n). split; auto. split; [lia|]. split; auto. split; [now apply reads_as_nearest; try lia|]. left. split; auto.
        intros Q. apply reads_not in R2; [tauto|lia].
      * exists (low n). split; auto. split; [lia|]. split; auto. split; [now apply reads_as_nearest; try lia|]. left. auto.
    + destruct (reads_as a (low n + 1) (p + 1 - n)) eqn:R2.
      * exists n, (low n + 1). split; auto. split; [lia|]. split; auto. split; [now apply reads_as_nearest; try lia|]. right. split; auto.
        intros Q. apply reads_not in R1; [tauto|lia].
      * apply IH; try lia. intros m Hm. destruct (Z.eq_dec m n) as [->|]; [|apply N; lia].
        split; apply reads_not; auto; lia.
Qed.

(** the numbers that are read as [a] have no gaps *)
Lemma convex E c e d k : 0 <= E -> 0 <= e + E -> 0 <= k + E -> 0 <= c -> 0 <= d -> nearest c e a ->
  (at10 E c e <= at10 E d k <= X * 10 ^ E \/ X * 10 ^ E <= at10 E d k <= at10 E c e) -> nearest d k a.
Proof.
  intros H1 H2 H3 Hc Hd N H. rewrite <- (between_nearest E) in * by lia. unfold between in *.
  destruct (Z.leb_spec 1 a) as [_|]; [|lia]. fold X in N. fold X.
  pose proof (magnitude_lt (a - 1) a ltac:(lia)) as M1. pose proof (magnitude_lt a (a + 1) ltac:(lia)) as M2. fold X in M1, M2.
  set (D := 10 ^ E) in *. assert (PD : 0 < D) by (apply pow10_pos; lia). clearbody D.
  apply (Z.mul_lt_mono_pos_r D) in M1, M2; auto.
  rewrite !Z.mul_add_distr_r in *. destruct (Z.even a); lia.
Qed.

(** a short decimal number lies below the truncated one or above the next *)
Lemma short_outside E n c e : 1 <= n -> 0 <= E -> 0 <= e + E -> 0 <= p + 1 - n + E -> 0 <= c < 10 ^ n ->
  at10 E c e <= at10 E (low n) (p + 1 - n) \/ at10 E (low n + 1) (p + 1 - n) <= at10 E c e.
Proof.
  intros Hn H1 H2 H3 Hc. pose proof (low_range n Hn) as R. set (k := p + 1 - n) in *.
  destruct (Z_lt_dec e k) as [L|L].
  - left. unfold at10. apply Z.mul_le_mono_nonneg_r; [lia|].
    assert (10 ^ n * 10 ^ (e + E) <= low n * 10 ^ (k + E)).
    { replace (k + E) with (1 + (k - 1 - e) + (e + E)) by lia. rewrite (Z.pow_add_r 10 (1 + (k - 1 - e))), (Z.pow_add_r 10 1) by lia.
      pose proof (pow10_pos (e + E) H2). pose proof (pow10_pos (k - 1 - e) ltac:(lia)).
      rewrite Z.mul_assoc. apply Z.mul_le_mono_nonneg_r; [lia|].
      replace (10 ^ n) with (10 ^ (n - 1) * 10 ^ 1) by (rewrite <- Z.pow_add_r by lia; f_equal; lia). nia. }
    pose proof (pow10_pos (e + E) H2). nia.
  - assert (at10 E c e = at10 E (c * 10 ^ (e - k)) k) as ->.
    { rewrite <- (at10_shift E c e (e - k)) by lia. f_equal. lia. }
    destruct (Z_le_dec (c * 10 ^ (e - k)) (low n)); [left|right]; apply at10_le; lia.
Qed.

Lemma none_longer n c e : 1 <= n -> none n -> 0 <= c < 10 ^ n -> nearest c e a -> False.
Proof.
  intros Hn [N1 N2] Hc H. set (E := Z.max (- Z.min e (p + 1 - n)) 0).
  assert (0 <= E /\ 0 <= e + E /\ 0 <= p + 1 - n + E) as (H1 & H2 & H3) by lia.
  destruct (low_at n E H1 H3) as (L0 & L1 & L2). destruct (short_outside E n c e) as [O|O]; auto.
  - apply N1. apply (convex E c e); auto; lia.
  - apply N2. apply (convex E c e); auto; lia.
Qed.

Lemma chosen_nearest n d c e E : 1 <= n -> chosen n d -> 0 <= c < 10 ^ n -> nearest c e a ->
  0 <= E -> 0 <= e + E -> 0 <= p + 1 - n + E ->
  Z.abs (at10 E d (p + 1 - n) - X * 10 ^ E) <= Z.abs (at10 E c e - X * 10 ^ E).
Proof.
  intros Hn [Nd Ch] Hc H H1 H2 H3. destruct (low_at n E H1 H3) as (L0 & L1 & L2).
  destruct (short_outside E n c e) as [O|O]; auto.
  - assert (Nl : nearest (low n) (p + 1 - n) a) by (apply (convex E c e); auto; lia).
    destruct Ch as [[-> _]|[-> Ch]]; [lia|]. specialize (Ch Nl). apply (rounds_at E) in Ch; auto. lia.
  - assert (Nl : nearest (low n + 1) (p + 1 - n) a) by (apply (convex E c e); auto; lia).
    destruct Ch as [[-> Ch]|[-> _]]; [|lia]. specialize (Ch Nl). apply (stays_at E) in Ch; auto. lia.
Qed.

(** *** Ties *)

Lemma tie_exact E d k : 0 <= E -> 0 <= k + E -> at10 E d k + at10 E (d + 1) k = 2 * (X * 10 ^ E) ->
  rounds_up up X d k = up || Z.odd d.
Proof.
  intros H1 H2 H. unfold rounds_up, at10 in *. pose proof (pow10_pos (E - Z.max (- k) 0) ltac:(lia)) as P.
  assert (L : (2 * d + 1) * 10 ^ Z.max k 0 * 2 ^ 149 = 2 * X * 10 ^ Z.max (- k) 0).
  { replace (k + E) with (Z.max k 0 + (E - Z.max (- k) 0)) in H by lia.
    replace (10 ^ E) with (10 ^ (Z.max (- k) 0 + (E - Z.max (- k) 0))) in H by (f_equal; lia).
    rewrite !Z.pow_add_r in H by lia. apply (Z.mul_reg_r _ _ (10 ^ (E - Z.max (- k) 0))); [lia|].
    match type of H with ?u = ?v => match goal with |- ?x = ?y => replace x with u by ring; replace y with v by ring end end. exact H. }
  cbv zeta. rewrite L, Z.ltb_irrefl, Z.eqb_refl. reflexivity.
Qed.

Lemma odd_place E n m c e k : 1 <= n -> 10 ^ (n - 1) <= m -> Z.odd m = true -> 0 <= c < 10 ^ n -> 0 <= e + E -> 0 <= k + E ->
  at10 E c e = at10 E m k -> c = m.
Proof.
  intros Hn Hm O Hc H1 H2 Q. unfold at10 in Q. apply Z.mul_reg_r in Q; [|lia].
  destruct (Z.lt_trichotomy e k) as [L|[->|L]].
  - exfalso. replace (k + E) with (k - e + (e + E)) in Q by lia. rewrite (Z.pow_add_r 10 (k - e)), Z.mul_assoc in Q by lia.
    pose proof (pow10_pos (e + E) H1). apply Z.mul_reg_r in Q; [|lia].
    assert (10 ^ 1 <= 10 ^ (k - e)) by (apply Z.pow_le_mono_r; lia).
    change (10 ^ 1) with 10 in *.
    assert (10 ^ n = 10 ^ (n - 1) * 10) by (rewrite Z.mul_comm, <- Z.pow_succ_r by lia; f_equal; lia).
    pose proof (pow10_pos (n - 1) ltac:(lia)).
    assert (10 ^ (n - 1) * 10 <= m * 10 ^ (k - e)) by (apply Z.mul_le_mono_nonneg; lia). lia.
  - pose proof (pow10_pos (k + E) H1). apply Z.mul_reg_r in Q; lia.
  - exfalso. replace (e + E) with (1 + (e - k - 1) + (k + E)) in Q by lia.
    rewrite (Z.pow_add_r 10 (1 + (e - k - 1))), (Z.pow_add_r 10 1), Z.mul_assoc in Q by lia.
    pose proof (pow10_pos (k + E) H2). apply Z.mul_reg_r in Q; [|lia]. rewrite <- Q, !Z.odd_mul in O. rewrite andb_false_r in O. discriminate.
Qed.

Lemma chosen_tie n d c e E : 1 <= n -> chosen n d -> 0 <= c < 10 ^ n -> nearest c e a ->
  0 <= E -> 0 <= e + E -> 0 <= p + 1 - n + E ->
  Z.abs (at10 E c e - X * 10 ^ E) <= Z.abs (at10 E d (p + 1 - n) - X * 10 ^ E) -> at10 E c e <> at10 E d (p + 1 - n) ->
  if up then at10 E c e < at10 E d (p + 1 - n) else Z.odd c = true.
Proof.
  intros Hn [Nd Ch] Hc H H1 H2 H3 A N. destruct (low_at n E H1 H3) as (L0 & L1 & L2). pose proof (low_range n Hn) as R.
  destruct (short_outside E n c e) as [O|O]; auto.
  - assert (Nl : nearest (low n) (p + 1 - n) a) by (apply (convex E c e); auto; lia).
    destruct Ch as [[-> _]|[-> Ch]]; [lia|]. specialize (Ch Nl). pose proof (rounds_at E _ _ H1 H3 Ch) as T.
    rewrite (tie_exact E) in Ch by lia. destruct up; [lia|]. cbn [orb] in Ch.
    rewrite (odd_place E n (low n) c e (p + 1 - n)); auto; lia.
  - assert (Nl : nearest (low n + 1) (p + 1 - n) a) by (apply (convex E c e); auto; lia).
    destruct Ch as [[-> Ch]|[-> _]]; [|lia]. specialize (Ch Nl). pose proof (stays_at E _ _ H1 H3 Ch) as T.
    rewrite (tie_exact E) in Ch by lia. destruct up; [discriminate|]. cbn [orb] in Ch.
    assert (Z.odd (low n + 1) = true) as Od by (rewrite Z.odd_add, Ch; reflexivity).
    rewrite (odd_place E n (low n + 1) c e (p + 1 - n)); auto; lia.
Qed.

(** *** Zeros at the end *)

Lemma strip_spec f : forall d k, 0 < d -> exists i, 0 <= i <= Z.of_nat f /\
  strip_zeros f d k = (d / 10 ^ i, k + i) /\ d = d / 10 ^ i * 10 ^ i /\ (i < Z.of_nat f -> (d / 10 ^ i) mod 10 <> 0).
Proof.
  induction f as [|f IH]; intros d k Hd; cbn [strip_zeros].
  - exists 0. split; [lia|]. rewrite Z.div_1_r, Z.add_0_r. split; auto. lia.
  - destruct (Z.eqb_spec (d mod 10) 0) as [M|M].
    + pose proof (Z.div_mod d 10 ltac:(lia)). destruct (IH (d / 10) (k + 1) ltac:(lia)) as (i & Hi & E & D & N).
      assert (Q : d / 10 / 10 ^ i = d / 10 ^ (1 + i)).
      { pose proof (pow10_pos i). rewrite Z.div_div, Z.pow_add_r by lia. reflexivity. }
      rewrite Q in *. exists (1 + i). split; [lia|]. split; [rewrite E; f_equal; lia|].
      split; [rewrite Z.pow_add_r at 2 by lia; change (10 ^ 1) with 10; lia|]. intros L. apply N. lia.
    + exists 0. split; [lia|]. change (10 ^ 0) with 1. rewrite Z.div_1_r, Z.add_0_r. split; auto. split; [lia|]. auto.
Qed.

Lemma power_digits n m : 0 <= n -> 0 <= m -> 10 ^ n < 10 ^ m -> n < m.
Proof. intros. apply (Z.pow_lt_mono_r_iff 10); lia. Qed.

Theorem f32_decimal_shortest : exists d k, f32_decimal up a = (d, k) /\ shortest_decimal a d k /\
  (if up then ties_up a d k else ties_to_even a d k) /\ 0 < d /\ d mod 10 <> 0.
Proof.
  unfold f32_decimal. fold X. fold p.
  destruct (shortest_chosen 9 1 eq_refl ltac:(lia) ltac:(lia)) as (n & d & E & Hn & Ch & No). rewrite E.
  pose proof (low_range n ltac:(lia)) as R. pose proof (pow10_pos (n - 1) ltac:(lia)) as P0.
  assert (Hd : 0 < d <= 10 ^ n) by (destruct Ch as [_ [[-> _]|[-> _]]]; lia).
  assert (P9 : 10 ^ n <= 10 ^ 9) by (apply Z.pow_le_mono_r; lia).
  destruct (strip_spec 9 d (p + 1 - n) ltac:(lia)) as (i & Hi & -> & D & M). set (d' := d / 10 ^ i) in *.
  pose proof (pow10_pos i ltac:(lia)) as Pi.
  assert (Hd' : 0 < d') by nia.
  assert (M' : d' mod 10 <> 0).
  { destruct (Z.eq_dec i 9) as [->|]; [|apply M; lia]. assert (d' = 1) as -> by lia. discriminate. }
  assert (B : d' < 10 ^ n).
  { destruct (Z_lt_dec d' (10 ^ n)) as [|G]; auto. exfalso. assert (d' = 10 ^ n) as Q by nia. apply M'. rewrite Q.
    replace n with (1 + (n - 1)) by lia. rewrite Z.pow_add_r by lia. change (10 ^ 1) with 10. rewrite Z.mul_comm. apply Z.mod_mul. lia. }
  assert (S : same_decimal d (p + 1 - n) d' (p + 1 - n + i)).
  { unfold same_decimal. rewrite Z.max_r, Z.max_l by lia. replace (p + 1 - n + i - (p + 1 - n)) with i by lia. lia. }
  assert (Q : forall E0, 0 <= p + 1 - n + E0 -> at10 E0 d (p + 1 - n) = at10 E0 d' (p + 1 - n + i)).
  { intros E0 HE. rewrite D. rewrite <- (at10_shift E0 d' (p + 1 - n + i) i) by lia. f_equal. lia. }
  exists d', (p + 1 - n + i). split; auto. split; [|split; [|auto]]. split; [|split; [lia|]].
  - apply (nearest_same d (p + 1 - n)); auto; try lia. apply Ch.
  - intros c e Hc Nc. assert (Ln : forall j, 0 <= j -> c < 10 ^ j -> n <= j).
    { intros j Hj Hcj. destruct (Z_lt_dec j n) as [Lt|]; [|lia]. exfalso.
      destruct (Z.eq_dec j 0) as [->|].
      - assert (c = 0) as -> by lia.
        apply (nearest_at (Z.max (- e) 0)) in Nc; try lia. destruct Nc as (_ & _ & Nc).
        specialize (Nc 0 ltac:(lia) ltac:(lia)). unfold at10 in Nc. rewrite magnitude_0 in Nc.
        pose proof (pow10_pos (Z.max (- e) 0) ltac:(lia)). fold X in Nc. pose proof X_range. nia.
      - apply (none_longer j c e); auto; try lia. apply No. lia. }
    split.
    + intros j Hj Hcj. specialize (Ln j Hj Hcj). assert (10 ^ n <= 10 ^ j) by (apply Z.pow_le_mono_r; lia). lia.
    + intros Sc v Hv. apply scaled_some in Hv; [|unfold inf in *; lia]. destruct Hv as [_ ->]. fold X.
      assert (Hcn : 0 <= c < 10 ^ n) by (split; auto; apply Sc; lia).
      set (E0 := Z.max (- Z.min e (p + 1 - n)) 0).
      pose proof (chosen_nearest n d c e E0 ltac:(lia) Ch Hcn Nc ltac:(lia) ltac:(lia) ltac:(lia)) as F.
      rewrite Q, <- !distance_at in F by lia. unfold no_farther.
      apply (rescale E0); auto; lia.
  - set (k' := p + 1 - n + i) in *.
    assert (T : forall c e, tied a d' k' c e -> if up then c * 10 ^ Z.max (e - k') 0 < d' * 10 ^ Z.max (k' - e) 0 else Z.odd c = true).
    { intros c e (Hc & Nc & Sc & Ns & v & Hv & F). apply scaled_some in Hv; [|unfold inf in *; lia]. destruct Hv as [_ ->]. fold X in F.
      assert (Hcn : 0 <= c < 10 ^ n) by (split; auto; apply Sc; lia).
      set (E0 := Z.max (- Z.min e (p + 1 - n)) 0).
      assert (V : forall x y, at10 E0 x e - at10 E0 y k' = (x * 10 ^ Z.max (e - k') 0 - y * 10 ^ Z.max (k' - e) 0) * 10 ^ (Z.min e k' + E0) * 2 ^ 149).
      { intros x y. assert (0 <= Z.min e k' + E0) by lia. unfold at10.
        replace (e + E0) with (Z.max (e - k') 0 + (Z.min e k' + E0)) by lia.
        replace (k' + E0) with (Z.max (k' - e) 0 + (Z.min e k' + E0)) by lia. set (mn := Z.min e k' + E0) in *. clearbody mn.
        rewrite !Z.pow_add_r by lia. ring. }
      pose proof (pow10_pos (Z.min e k' + E0) ltac:(lia)) as P. specialize (V c d').
      pose proof (chosen_tie n d c e E0 ltac:(lia) Ch Hcn Nc ltac:(lia) ltac:(lia) ltac:(lia)) as T. rewrite (Q E0 ltac:(lia)) in T.
      unfold same_decimal in Ns. set (u := c * 10 ^ Z.max (e - k') 0) in *. set (w := d' * 10 ^ Z.max (k' - e) 0) in *.
      assert (T' : if up then at10 E0 c e < at10 E0 d' k' else Z.odd c = true).
      { apply T.
        - rewrite <- (distance_at E0 c e X), <- (distance_at E0 d' k' X) by lia. unfold no_farther in F.
          assert (U1 : 0 <= Z.max (- e) 0 <= E0) by (clear; subst E0; lia).
          assert (U2 : 0 <= Z.max (- k') 0 <= E0) by (clear - Hi; subst E0 k'; lia).
          exact (scale_up E0 (Z.max (- e) 0) (Z.max (- k') 0) _ _ U1 U2 F).
        - intros Z. apply Ns. exact (proj1 (same_sign _ _ _ _ _ _ V P eq_refl) Z). }
      destruct up; [|exact T']. exact (proj2 (same_sign _ _ _ _ _ _ V P eq_refl) T'). }
    destruct up; exact T.
Qed.
End Number.
