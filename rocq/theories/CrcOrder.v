(** * Two wrong bits: the order of the checksum register *)

From Coq Require Import NArith ZArith List Lia Bool Znumtheory.
From Verif Require Import Base Crc SpecCrc CrcProofs.
Open Scope N_scope.

(** One step of the register without input: multiplication by [x] modulo the polynomial. *)
Notation step := (crc_bit crc_poly).
(** [n] steps, for large [n] *)
Definition steps (n : N) (r : N) : N := N.iter n step r.

Lemma steps_0 r : steps 0 r = r.
Proof. reflexivity. Qed.
Lemma steps_succ n r : steps (N.succ n) r = step (steps n r).
Proof. apply N.iter_succ. Qed.
Lemma steps_add m n r : steps (m + n) r = steps m (steps n r).
Proof. apply N.iter_add. Qed.
Lemma steps_comm m n r : steps m (steps n r) = steps n (steps m r).
Proof. rewrite <- !steps_add. f_equal. lia. Qed.
Lemma steps_nat n r : iter_n n step r = steps (N.of_nat n) r.
Proof.
  revert r. induction n as [|n IH]; intros r; [reflexivity|].
  rewrite Nat2N.inj_succ, steps_succ, <- IH. apply iter_S.
Qed.
Lemma linear_steps n : linear (steps n).
Proof.
  induction n as [|n IH] using N.peano_ind; intros a b; [reflexivity|].
  rewrite !steps_succ, IH. apply linear_crc_bit.
Qed.
Lemma steps_bound n r : r < 2 ^ 32 -> steps n r < 2 ^ 32.
Proof.
  intros H. destruct n as [|p]; [exact H|]. rewrite <- (N.succ_pos_pred p), steps_succ. apply crc_bit_bound.
Qed.
Lemma steps_inj n r s : r < 2 ^ 32 -> s < 2 ^ 32 -> steps n r = steps n s -> r = s.
Proof.
  intros Hr Hs E. apply (crc_bits_inj (N.to_nat n)); auto. rewrite !steps_nat, N2Nat.id. exact E.
Qed.

(** The powers of two below [2^32] are reached from 1 in as many steps. *)
Lemma steps_pow i : i < 32 -> steps i 1 = 2 ^ i.
Proof.
  intros H. assert (C : forallb (fun i => steps (N.of_nat i) 1 =? 2 ^ N.of_nat i) (seq 0 32) = true)
    by (vm_compute; reflexivity).
  rewrite forallb_forall in C. specialize (C (N.to_nat i)). rewrite N2Nat.id in C.
  apply N.eqb_eq, C. apply in_seq. lia.
Qed.

(** A number of steps that returns to 1 returns to any register. *)
Lemma steps_all n : steps n 1 = 1 -> forall r, r < 2 ^ 32 -> steps n r = r.
Proof.
  intros E. apply (linear_ext (steps n) (fun r => r) 32); [apply linear_steps|intros a b; reflexivity|].
  intros i Hi. rewrite <- (steps_pow i) by exact Hi. rewrite steps_comm, E. reflexivity.
Qed.

(** ** Computing a large number of steps *)

(** product of two registers: the sum of [steps i b] over the bits [i] of [a] *)
Definition times (a b : N) : N :=
  fold_right (fun i acc => N.lxor (if N.testbit a (N.of_nat i) then steps (N.of_nat i) b else 0) acc) 0 (seq 0 32).

Lemma linear_times b : linear (fun a => times a b).
Proof.
  unfold times. induction (seq 0 32) as [|i l IH]; intros x y; [reflexivity|].
  cbn [fold_right]. rewrite IH, N.lxor_spec.
  set (p := fold_right _ 0 l). set (q := fold_right _ 0 l). set (s := steps _ b).
  destruct (N.testbit x _), (N.testbit y _); cbn [xorb]; rewrite ?N.lxor_0_l.
  - rewrite (N.lxor_comm s p), <- !N.lxor_assoc, (N.lxor_assoc p s s), N.lxor_nilpotent, N.lxor_0_r. reflexivity.
  - apply eq_sym, N.lxor_assoc.
  - rewrite <- !N.lxor_assoc. f_equal. apply N.lxor_comm.
  - reflexivity.
Qed.
Lemma steps_times n y : y < 2 ^ 32 -> steps n y = times y (steps n 1).
Proof.
  apply (linear_ext (steps n) (fun y => times y (steps n 1)) 32); [apply linear_steps|apply linear_times|].
  intros i Hi. rewrite <- (steps_pow i) at 1 by exact Hi. rewrite steps_comm.
  set (b := steps n 1). clearbody b.
  assert (C : i = 0 \/ i = 1 \/ i = 2 \/ i = 3 \/ i = 4 \/ i = 5 \/ i = 6 \/ i = 7 \/ i = 8 \/ i = 9 \/ i = 10 \/ i = 11 \/
    i = 12 \/ i = 13 \/ i = 14 \/ i = 15 \/ i = 16 \/ i = 17 \/ i = 18 \/ i = 19 \/ i = 20 \/ i = 21 \/ i = 22 \/ i = 23 \/
    i = 24 \/ i = 25 \/ i = 26 \/ i = 27 \/ i = 28 \/ i = 29 \/ i = 30 \/ i = 31) by (change (N.of_nat 32) with 32 in Hi; lia).
  unfold times.
  repeat match goal with H : _ \/ _ |- _ => destruct H as [H|H] end; subst i;
    cbn [seq fold_right N.of_nat Pos.of_succ_nat Pos.succ N.pow Pos.pow Pos.iter Pos.mul N.testbit Pos.testbit N.pred Pos.pred_N Pos.pred_double];
    rewrite ?N.lxor_0_l, ?N.lxor_0_r; reflexivity.
Qed.

Fixpoint power (p : positive) : N :=
  match p with
  | xH => 2
  | xO p => let a := power p in times a a
  | xI p => let a := power p in step (times a a)
  end.
Lemma power_steps p : steps (Npos p) 1 = power p.
Proof.
  induction p as [p IH|p IH|]; cbn [power].
  - change (Npos p~1) with (N.succ (Npos p~0)). rewrite steps_succ. f_equal.
    replace (Npos p~0) with (Npos p + Npos p) by lia. rewrite steps_add, steps_times, IH; [reflexivity|].
    apply steps_bound. reflexivity.
  - replace (Npos p~0) with (Npos p + Npos p) by lia. rewrite steps_add, steps_times, IH; [reflexivity|].
    apply steps_bound. reflexivity.
  - reflexivity.
Qed.

(** ** The order is [2^32 - 1] *)

Definition order : N := 2 ^ 32 - 1.

Lemma order_returns : steps order 1 = 1.
Proof. change order with (Npos 4294967295). rewrite power_steps. vm_compute. reflexivity. Qed.
Lemma order_least q : In q [3; 5; 17; 257; 65537] -> steps (order / q) 1 <> 1.
Proof.
  intros H. assert (C : forallb (fun q => match order / q with Npos p => negb (power p =? 1) | N0 => false end)
    [3; 5; 17; 257; 65537] = true) by (vm_compute; reflexivity).
  rewrite forallb_forall in C. specialize (C q H). destruct (order / q) as [|p]; [discriminate C|].
  rewrite power_steps. apply N.eqb_neq. now destruct (power p =? 1).
Qed.

Lemma small_divisor p g : (forall k, 2 <= k <= 256 -> p mod k <> 0 \/ p = k) -> 1 < p < 66049 -> (g | p) -> g = 1 \/ g = p.
Proof.
  intros C Hp [k E].
  destruct (N.le_gt_cases g 256) as [Lg|Lg].
  - destruct (N.le_gt_cases g 1) as [L1|L1]; [left; destruct (N.eq_dec g 0) as [->|]; lia|].
    destruct (C g) as [D|D]; [lia| |right; symmetry; exact D].
    exfalso. apply D. rewrite E. apply N.mod_mul. lia.
  - destruct (N.le_gt_cases k 1) as [L1|L1]; [right; assert (k = 0 \/ k = 1) as [->| ->] by lia; lia|].
    destruct (N.le_gt_cases k 256) as [Lk|Lk]; [|exfalso; assert (257 * 257 <= k * g) by (apply N.mul_le_mono; lia); lia].
    destruct (C k) as [D|D]; [lia| |exfalso; subst k; assert (p * 257 <= p * g) by (apply N.mul_le_mono_l; lia); lia].
    exfalso. apply D. rewrite E, N.mul_comm. apply N.mod_mul. lia.
Qed.
Definition no_small (p : N) : bool :=
  forallb (fun i => let k := N.of_nat i in (k <? 2) || negb (p mod k =? 0) || (p =? k)) (seq 0 257).
Lemma factor_prime q g : In q [3; 5; 17; 257; 65537] -> (g | q) -> g = 1 \/ g = q.
Proof.
  intros H. assert (C : forallb no_small [3; 5; 17; 257; 65537] = true) by (vm_compute; reflexivity).
  rewrite forallb_forall in C. specialize (C q H). apply small_divisor.
  - intros k Hk. unfold no_small in C. rewrite forallb_forall in C. specialize (C (N.to_nat k)).
    cbv zeta in C. rewrite N2Nat.id in C. assert (I : In (N.to_nat k) (seq 0 257)) by (apply in_seq; lia).
    apply C in I. apply orb_true_iff in I as [I|I]; [apply orb_true_iff in I as [I|I]|].
    + apply N.ltb_lt in I. lia.
    + left. intros E. rewrite E in I. discriminate I.
    + right. apply N.eqb_eq, I.
  - cbn [In] in H. lia.
Qed.

(** a divisor of the order other than 1 has one of the five factors *)
Lemma has_factor q : (q | order) -> q <> 1 -> exists p, In p [3; 5; 17; 257; 65537] /\ (p | q).
Proof.
  intros D N1.
  assert (S : forall p m, In p [3; 5; 17; 257; 65537] -> (q | p * m) -> (exists p, In p [3; 5; 17; 257; 65537] /\ (p | q)) \/ (q | m)).
  { intros p m Hp Dm. destruct (factor_prime p (N.gcd q p) Hp (N.gcd_divide_r q p)) as [G|G].
    - right. apply N.gauss with p; [exact Dm|exact G].
    - left. exists p. split; [exact Hp|]. rewrite <- G at 1. apply N.gcd_divide_l. }
  change order with (3 * (5 * (17 * (257 * (65537 * 1))))) in D.
  apply S in D as [D|D]; [exact D| |cbn [In]; auto 7].
  apply S in D as [D|D]; [exact D| |cbn [In]; auto 7].
  apply S in D as [D|D]; [exact D| |cbn [In]; auto 7].
  apply S in D as [D|D]; [exact D| |cbn [In]; auto 7].
  apply S in D as [D|D]; [exact D| |cbn [In]; auto 7].
  apply N.divide_1_r in D. contradiction.
Qed.

Lemma returns_mul n k : steps n 1 = 1 -> steps (k * n) 1 = 1.
Proof.
  intros H. induction k as [|k IH] using N.peano_ind; [reflexivity|].
  rewrite N.mul_succ_l, N.add_comm, steps_add, IH. exact H.
Qed.
Lemma returns_gcd a b : a <> 0 -> b <> 0 -> steps a 1 = 1 -> steps b 1 = 1 -> steps (N.gcd a b) 1 = 1.
Proof.
  intros Na Nb Ha Hb. destruct (N.gcd_bezout_pos a b) as (u & v & E); [lia|].
  pose proof (returns_mul _ u Ha) as Hu. rewrite E, N.add_comm, steps_add in Hu.
  rewrite <- Hu at 2. rewrite steps_comm, returns_mul by exact Hb. reflexivity.
Qed.

Lemma order_minimal n : 0 < n < order -> steps n 1 <> 1.
Proof.
  intros [H0 H1] E. set (g := N.gcd n order).
  assert (Hg : steps g 1 = 1) by (apply returns_gcd; [lia|discriminate|exact E|exact order_returns]).
  assert (Dn : (g | n)) by apply N.gcd_divide_l. assert (Do : (g | order)) by apply N.gcd_divide_r.
  assert (Lg : g < order) by (apply N.divide_pos_le in Dn; lia).
  destruct Do as [q Eq]. destruct (has_factor q) as (p & Hp & [m Em]).
  - exists g. rewrite Eq. lia.
  - intros ->. lia.
  - apply (order_least p Hp). replace (order / p) with (m * g); [apply returns_mul; exact Hg|].
    rewrite Eq, Em. symmetry. replace (m * p * g) with (m * g * p) by lia. apply N.div_mul.
    cbn [In] in Hp. lia.
Qed.

(** ** Two wrong bits *)

Lemma flip_register a x b y c r :
  crc_register (a ++ negb x :: b ++ negb y :: c) r =
  N.lxor (crc_register (a ++ x :: b ++ y :: c) r)
         (steps (N.of_nat (length c)) (N.lxor (steps (N.of_nat (S (length b))) crc_poly) crc_poly)).
Proof.
  assert (F : forall s z, shift_in s (negb z) = N.lxor crc_poly (shift_in s z)).
  { intros s z. rewrite !shift_in_bit. change crc_poly with (step (2 ^ 31)) at 2. rewrite <- linear_crc_bit.
    f_equal. destruct z; cbn [negb top]; rewrite ?N.lxor_0_r; [|apply N.lxor_comm].
    rewrite N.lxor_comm, N.lxor_assoc, N.lxor_nilpotent, N.lxor_0_r. reflexivity. }
  rewrite !register_app. set (s := crc_register a r).
  change (crc_register (negb x :: b ++ negb y :: c) s) with (crc_register (b ++ negb y :: c) (shift_in s (negb x))).
  change (crc_register (x :: b ++ y :: c) s) with (crc_register (b ++ y :: c) (shift_in s x)).
  rewrite F, !register_app, register_linear. set (t := crc_register b (shift_in s x)).
  set (d := iter_n (length b) step crc_poly).
  change (crc_register (negb y :: c) (N.lxor d t)) with (crc_register c (shift_in (N.lxor d t) (negb y))).
  change (crc_register (y :: c) t) with (crc_register c (shift_in t y)).
  rewrite F. assert (G : shift_in (N.lxor d t) y = N.lxor (step d) (shift_in t y)).
  { rewrite !shift_in_bit, N.lxor_assoc. apply linear_crc_bit. }
  rewrite G, <- N.lxor_assoc, register_linear, N.lxor_comm. f_equal.
  rewrite steps_nat. f_equal. rewrite N.lxor_comm. f_equal. unfold d. rewrite steps_nat, Nat2N.inj_succ, steps_succ. reflexivity.
Qed.

Lemma two_bits_detected d1 d2 a x b y c :
  data_bits d1 = a ++ x :: b ++ y :: c -> data_bits d2 = a ++ negb x :: b ++ negb y :: c ->
  N.of_nat (length b) < 2 ^ 32 - 2 ->
  calc_crc d1 <> calc_crc d2.
Proof.
  intros H1 H2 L E. rewrite !calc_crc_spec in E. unfold crc32_unreal in E.
  apply (f_equal (fun z => N.lxor z crc_xorout)) in E.
  rewrite !N.lxor_assoc, !N.lxor_nilpotent, !N.lxor_0_r in E.
  rewrite H1, H2, flip_register in E. set (w := crc_register _ _) in E.
  apply (f_equal (N.lxor w)) in E. rewrite <- N.lxor_assoc, N.lxor_nilpotent, N.lxor_0_l in E. symmetry in E.
  set (n := N.of_nat (S (length b))) in E.
  assert (Z : N.lxor (steps n crc_poly) crc_poly = 0).
  { apply (steps_inj (N.of_nat (length c))); [|reflexivity|].
    - apply lxor_bound; [apply steps_bound|]; reflexivity.
    - rewrite E, (linear_0 _ (linear_steps _)). reflexivity. }
  apply N.lxor_eq in Z. change crc_poly with (steps 32 1) in Z. rewrite steps_comm in Z.
  apply steps_inj in Z; [|apply steps_bound; reflexivity|reflexivity].
  apply (order_minimal n); [|exact Z]. unfold n, order. split; [lia|].
  change (2 ^ 32 - 1) with 4294967295. change (2 ^ 32 - 2) with 4294967294 in L. lia.
Qed.

Lemma two_flips_detected d1 d2 : two_flips d1 d2 -> calc_crc d1 <> calc_crc d2.
Proof. intros (a & x & b & y & c & H1 & H2 & L). exact (two_bits_detected _ _ _ _ _ _ _ H1 H2 L). Qed.
Lemma two_flips_length d1 d2 : two_flips d1 d2 -> length d2 = length d1.
Proof.
  intros (a & x & b & y & c & H1 & H2 & _). apply (f_equal (@length _)) in H1, H2.
  rewrite data_bits_length in H1, H2. repeat (rewrite app_length in H1, H2; cbn [length] in H1, H2). lia.
Qed.
