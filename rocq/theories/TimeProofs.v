(** * Proofs: range of frame times *)

From Coq Require Import ZArith List Bool Lia ZifyBool Floats.SpecFloat.
From Verif Require Import Base F32 NetTypes FrameDecoder SpecFrames.
Open Scope Z_scope.

Lemma testbit31 x : 0 <= x < 2 ^ 32 -> Z.testbit x 31 = (2 ^ 31 <=? x).
Proof.
  intros H. rewrite Z.testbit_odd, Z.shiftr_div_pow2 by lia.
  destruct (Z.leb_spec (2 ^ 31) x).
  - assert (x / 2 ^ 31 = 1) as -> by (symmetry; apply Z.div_unique with (x - 2 ^ 31); lia). reflexivity.
  - now rewrite Z.div_small by lia.
Qed.

(** sign, exponent and fraction of a bit pattern *)
Lemma pattern x : 0 <= x < 2 ^ 32 -> exists e m, 0 <= e < 256 /\ 0 <= m < 2 ^ 23 /\
  x mod 2 ^ 31 = e * 2 ^ 23 + m /\
  x = (if 2 ^ 31 <=? x then 2 ^ 31 else 0) + e * 2 ^ 23 + m /\
  sf_of_bits x =
    (if e =? 255 then (if m =? 0 then S754_infinity (2 ^ 31 <=? x) else S754_nan)
     else if e =? 0 then
       match m with Zpos p => S754_finite (2 ^ 31 <=? x) p (-149) | _ => S754_zero (2 ^ 31 <=? x) end
     else match m + 2 ^ 23 with Zpos p => S754_finite (2 ^ 31 <=? x) p (e - 150) | _ => S754_nan end).
Proof.
  intros H. exists ((x / 2 ^ 23) mod 2 ^ 8), (x mod 2 ^ 23).
  pose proof (Z.mod_pos_bound (x / 2 ^ 23) (2 ^ 8) ltac:(lia)).
  pose proof (Z.mod_pos_bound x (2 ^ 23) ltac:(lia)).
  pose proof (Z.div_mod x (2 ^ 23) ltac:(lia)) as D1.
  pose proof (Z.div_mod (x / 2 ^ 23) (2 ^ 8) ltac:(lia)) as D2.
  assert (Q : x = (if 2 ^ 31 <=? x then 2 ^ 31 else 0) + (x / 2 ^ 23) mod 2 ^ 8 * 2 ^ 23 + x mod 2 ^ 23).
  { destruct (Z.leb_spec (2 ^ 31) x).
    - assert (x / 2 ^ 23 / 2 ^ 8 = 1) by (rewrite Z.div_div by lia; symmetry; apply Z.div_unique with (x - 2 ^ 31); lia).
      lia.
    - assert (x / 2 ^ 23 / 2 ^ 8 = 0) by (rewrite Z.div_div by lia; apply Z.div_small; lia). lia. }
  split; [lia|]. split; [lia|]. split.
  - symmetry. apply Z.mod_unique with (if 2 ^ 31 <=? x then 1 else 0); [lia|].
    destruct (2 ^ 31 <=? x); lia.
  - split; [exact Q|]. unfold sf_of_bits. rewrite testbit31 by auto. reflexivity.
Qed.

Lemma sf_1em10 : sf_of_bits f32_1em10 = S754_finite false 14411519 (-57).
Proof. reflexivity. Qed.

Ltac pos_case m := destruct m as [|p|p]; try lia.

Lemma lt_zero x : 0 <= x < 2 ^ 32 ->
  f32_lt x f32_zero = (2 ^ 31 <? x) && (x mod 2 ^ 31 <=? 0x7F800000).
Proof.
  intros H. destruct (pattern x H) as (e & m & He & Hm & Hx & Hq & E). unfold f32_lt. rewrite E.
  change (sf_of_bits f32_zero) with (S754_zero false). rewrite Hx.
  destruct (Z.leb_spec (2 ^ 31) x) as [S|S]; destruct (Z.eqb_spec e 255) as [->|N].
  - destruct (Z.eqb_spec m 0) as [->|]; simpl SFcompare; cbv iota; lia.
  - destruct (Z.eqb_spec e 0) as [->|].
    + destruct m as [|p|p]; simpl SFcompare; cbv iota; lia.
    + assert (0 < m + 2 ^ 23) by lia. destruct (m + 2 ^ 23) as [|p|p] eqn:Q; try lia; simpl SFcompare; cbv iota; lia.
  - destruct (Z.eqb_spec m 0) as [->|]; simpl SFcompare; cbv iota; lia.
  - destruct (Z.eqb_spec e 0) as [->|].
    + destruct m as [|p|p]; simpl SFcompare; cbv iota; lia.
    + assert (0 < m + 2 ^ 23) by lia. destruct (m + 2 ^ 23) as [|p|p] eqn:Q; try lia; simpl SFcompare; cbv iota; lia.
Qed.

Lemma gt_zero x : 0 <= x < 2 ^ 32 -> f32_gt x f32_zero = (0 <? x) && (x <=? 0x7F800000).
Proof.
  intros H. destruct (pattern x H) as (e & m & He & Hm & Hx & Hq & E). unfold f32_gt, f32_lt. rewrite E.
  change (sf_of_bits f32_zero) with (S754_zero false).
  destruct (Z.leb_spec (2 ^ 31) x) as [S|S]; destruct (Z.eqb_spec e 255) as [->|N].
  - destruct (Z.eqb_spec m 0) as [->|]; simpl SFcompare; cbv iota; lia.
  - destruct (Z.eqb_spec e 0) as [->|].
    + destruct m as [|p|p]; simpl SFcompare; cbv iota; lia.
    + assert (0 < m + 2 ^ 23) by lia. destruct (m + 2 ^ 23) as [|p|p] eqn:Q; try lia; simpl SFcompare; cbv iota; lia.
  - destruct (Z.eqb_spec m 0) as [->|]; simpl SFcompare; cbv iota; lia.
  - destruct (Z.eqb_spec e 0) as [->|].
    + destruct m as [|p|p]; simpl SFcompare; cbv iota; lia.
    + assert (0 < m + 2 ^ 23) by lia. destruct (m + 2 ^ 23) as [|p|p] eqn:Q; try lia; simpl SFcompare; cbv iota; lia.
Qed.

Lemma lt_1em10 x : 0 < x <= 0x7F800000 -> f32_lt x f32_1em10 = (x <? 0x2EDBE6FF).
Proof.
  intros H. destruct (pattern x ltac:(lia)) as (e & m & He & Hm & Hx & Hq & E). unfold f32_lt. rewrite E, sf_1em10.
  destruct (Z.leb_spec (2 ^ 31) x) as [S|S]; [lia|]. destruct (Z.eqb_spec e 255) as [->|N].
  - destruct (Z.eqb_spec m 0) as [->|]; simpl SFcompare; cbv iota; lia.
  - destruct (Z.eqb_spec e 0) as [->|].
    + destruct m as [|p|p]; simpl SFcompare; cbv iota; lia.
    + assert (0 < m + 2 ^ 23) by lia. destruct (m + 2 ^ 23) as [|p|p] eqn:Q; try lia.
      unfold SFcompare. destruct (Z.compare_spec (e - 150) (-57)) as [C|C|C]; [|lia|lia].
      assert (e = 93) by lia. subst e. clear N.
      change (Pos.compare_cont Eq p 14411519) with (Pos.compare p 14411519).
      destruct (Pos.compare_spec p 14411519) as [C'|C'|C']; lia.
Qed.

Lemma out_of_range_spec x : 0 <= x < 2 ^ 32 -> (out_of_range x = false <-> time_ok x).
Proof.
  intros H. unfold out_of_range, time_ok. rewrite lt_zero, gt_zero by auto.
  assert (M : x < 2 ^ 31 /\ x mod 2 ^ 31 = x \/ 2 ^ 31 <= x /\ x mod 2 ^ 31 = x - 2 ^ 31).
  { destruct (Z_lt_le_dec x (2 ^ 31)); [left; rewrite Z.mod_small; lia|right].
    split; auto. symmetry. apply Z.mod_unique with 1; lia. }
  destruct (Z.ltb_spec 0 x), (Z.leb_spec x 0x7F800000); cbn [andb orb].
  - rewrite lt_1em10 by lia. lia.
  - lia.
  - lia.
  - lia.
Qed.

Lemma eq_zero x : 0 <= x < 2 ^ 32 -> (f32_eq x f32_zero = true <-> time_zero x).
Proof.
  intros H. destruct (pattern x H) as (e & m & He & Hm & Hx & Hq & E). unfold f32_eq, time_zero. rewrite E.
  change (sf_of_bits f32_zero) with (S754_zero false).
  destruct (Z.leb_spec (2 ^ 31) x) as [S|S]; destruct (Z.eqb_spec e 255) as [->|N].
  - destruct (Z.eqb_spec m 0) as [->|]; simpl SFcompare; cbv iota; lia.
  - destruct (Z.eqb_spec e 0) as [->|].
    + destruct m as [|p|p]; simpl SFcompare; cbv iota; lia.
    + assert (0 < m + 2 ^ 23) by lia. destruct (m + 2 ^ 23) as [|p|p] eqn:Q; try lia; simpl SFcompare; cbv iota; lia.
  - destruct (Z.eqb_spec m 0) as [->|]; simpl SFcompare; cbv iota; lia.
  - destruct (Z.eqb_spec e 0) as [->|].
    + destruct m as [|p|p]; simpl SFcompare; cbv iota; lia.
    + assert (0 < m + 2 ^ 23) by lia. destruct (m + 2 ^ 23) as [|p|p] eqn:Q; try lia; simpl SFcompare; cbv iota; lia.
Qed.
