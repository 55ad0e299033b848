(** * UTF-8 validation reports the first error *)

From Coq Require Import ZArith List Bool Lia ZifyBool ZifyNat.
From Verif Require Import Base Text SpecText TextProofs SpecFile SpecFileErrors.
Open Scope Z_scope.

Lemma byte_with x : 0 <= x < 256 -> exists b, byteZ b = x.
Proof.
  intros H. destruct (Byte.of_N (Z.to_N x)) as [b|] eqn:E.
  - exists b. unfold byteZ. apply Byte.to_of_N in E. rewrite E. lia.
  - apply Byte.of_N_None_iff in E. lia.
Qed.
Definition cont (b : byte) : Prop := 0x80 <= byteZ b <= 0xBF.
Definition second3 (a b : byte) : Prop := ok3 (byteZ a) (byteZ b) = true.
Definition second4 (a b : byte) : Prop := ok4 (byteZ a) (byteZ b) = true.

Lemma one_2 a b : (exists c, utf8_one c [a; b]) <-> 0xC2 <= byteZ a <= 0xDF /\ cont b.
Proof.
  unfold cont. split.
  - intros (c & H). inversion H; subst. rewrite is_byteZ in *. lia.
  - intros (H1 & H2). eexists. apply (utf8_2 a b (byteZ a - 0xC0) (byteZ b - 0x80)); rewrite ?is_byteZ; lia.
Qed.
Lemma one_3 a b c : (exists x, utf8_one x [a; b; c]) <-> 0xE0 <= byteZ a <= 0xEF /\ second3 a b /\ cont c.
Proof.
  unfold cont, second3, ok3, in_range. split.
  - intros (x & H). inversion H; subst. rewrite is_byteZ in *. unfold surrogate in *.
    destruct (Z.eqb_spec (byteZ a) 224); [lia|]. destruct (Z.eqb_spec (byteZ a) 237); lia.
  - intros (H1 & H2 & H3). eexists. apply (utf8_3 a b c (byteZ a - 0xE0) (byteZ b - 0x80) (byteZ c - 0x80));
      rewrite ?is_byteZ; unfold surrogate; destruct (Z.eqb_spec (byteZ a) 224); destruct (Z.eqb_spec (byteZ a) 237); lia.
Qed.
Lemma one_4 a b c d : (exists x, utf8_one x [a; b; c; d]) <-> 0xF0 <= byteZ a <= 0xF4 /\ second4 a b /\ cont c /\ cont d.
Proof.
  unfold cont, second4, ok4, in_range. split.
  - intros (x & H). inversion H; subst. rewrite is_byteZ in *.
    destruct (Z.eqb_spec (byteZ a) 240); [lia|]. destruct (Z.eqb_spec (byteZ a) 244); lia.
  - intros (H1 & H2 & H3 & H4). eexists.
    apply (utf8_4 a b c d (byteZ a - 0xF0) (byteZ b - 0x80) (byteZ c - 0x80) (byteZ d - 0x80));
      rewrite ?is_byteZ; destruct (Z.eqb_spec (byteZ a) 240); destruct (Z.eqb_spec (byteZ a) 244); lia.
Qed.
Lemma one_1 a : (exists x, utf8_one x [a]) <-> byteZ a < 0x80.
Proof.
  split.
  - intros (x & H). inversion H; subst. rewrite is_byteZ in *. lia.
  - intros H. exists (byteZ a). apply (utf8_1 a (byteZ a)); [reflexivity|]. pose proof (byteZ_range a). lia.
Qed.
Lemma one_long c s : utf8_one c s -> (1 <= length s <= 4)%nat.
Proof. intros H. inversion H; cbn; lia. Qed.

(** what an unfinished character looks like *)
Lemma unfinished_1 a : unfinished [a] <-> 0xC2 <= byteZ a <= 0xF4.
Proof.
  destruct (byte_with 0x80 ltac:(lia)) as (b8 & E8). destruct (byte_with 0xA0 ltac:(lia)) as (ba & Ea).
  destruct (byte_with 0x90 ltac:(lia)) as (b9 & E9).
  split.
  - intros (_ & c & q & Nq & H). cbn [app] in H.
    destruct q as [|b [|c' [|d [|]]]]; [congruence|..].
    + assert (K : exists c, utf8_one c [a; b]) by eauto. apply one_2 in K. lia.
    + assert (K : exists c, utf8_one c [a; b; c']) by eauto. apply one_3 in K. lia.
    + assert (K : exists c, utf8_one c [a; b; c'; d]) by eauto. apply one_4 in K. lia.
    + apply one_long in H. cbn in H. lia.
  - intros H. split; [discriminate|].
    assert (H2 : 0xC2 <= byteZ a <= 0xDF \/ 0xE0 <= byteZ a <= 0xEF \/ 0xF0 <= byteZ a <= 0xF4) by lia.
    destruct H2 as [H2|[H2|H2]].
    + destruct (proj2 (one_2 a b8)) as (c & K); [unfold cont; lia|]. exists c, [b8]. split; [discriminate|exact K].
    + destruct (Z.eq_dec (byteZ a) 0xE0) as [E|E].
      * destruct (proj2 (one_3 a ba b8)) as (c & K); [unfold cont, second3, ok3, in_range; rewrite E, Ea; cbn; lia|].
        exists c, [ba; b8]. split; [discriminate|exact K].
      * destruct (proj2 (one_3 a b8 b8)) as (c & K).
        { unfold cont, second3, ok3, in_range. rewrite E8. destruct (Z.eqb_spec (byteZ a) 224); destruct (Z.eqb_spec (byteZ a) 237); lia. }
        exists c, [b8; b8]. split; [discriminate|exact K].
    + destruct (Z.eq_dec (byteZ a) 0xF0) as [E|E].
      * destruct (proj2 (one_4 a b9 b8 b8)) as (c & K); [unfold cont, second4, ok4, in_range; rewrite E, E9; cbn; lia|].
        exists c, [b9; b8; b8]. split; [discriminate|exact K].
      * destruct (proj2 (one_4 a b8 b8 b8)) as (c & K).
        { unfold cont, second4, ok4, in_range. rewrite E8. destruct (Z.eqb_spec (byteZ a) 240); destruct (Z.eqb_spec (byteZ a) 244); lia. }
        exists c, [b8; b8; b8]. split; [discriminate|exact K].
Qed.
Lemma unfinished_2 a b : unfinished [a; b] <->
  0xE0 <= byteZ a <= 0xEF /\ second3 a b \/ 0xF0 <= byteZ a <= 0xF4 /\ second4 a b.
Proof.
  destruct (byte_with 0x80 ltac:(lia)) as (b8 & E8). assert (C8 : cont b8) by (unfold cont; lia).
  split.
  - intros (_ & c & q & Nq & H). cbn [app] in H.
    destruct q as [|c' [|d [|]]]; [congruence|..].
    + assert (K : exists c, utf8_one c [a; b; c']) by eauto. apply one_3 in K. tauto.
    + assert (K : exists c, utf8_one c [a; b; c'; d]) by eauto. apply one_4 in K. tauto.
    + apply one_long in H. cbn in H. lia.
  - intros H. split; [discriminate|]. destruct H as [H|H].
    + destruct (proj2 (one_3 a b b8)) as (c & K); [tauto|]. exists c, [b8]. split; [discriminate|exact K].
    + destruct (proj2 (one_4 a b b8 b8)) as (c & K); [tauto|]. exists c, [b8; b8]. split; [discriminate|exact K].
Qed.
Lemma unfinished_3 a b c : unfinished [a; b; c] <-> 0xF0 <= byteZ a <= 0xF4 /\ second4 a b /\ cont c.
Proof.
  destruct (byte_with 0x80 ltac:(lia)) as (b8 & E8). assert (C8 : cont b8) by (unfold cont; lia).
  split.
  - intros (_ & x & q & Nq & H). cbn [app] in H. destruct q as [|d [|]]; [congruence|..].
    + assert (K : exists x, utf8_one x [a; b; c; d]) by eauto. apply one_4 in K. tauto.
    + apply one_long in H. cbn in H. lia.
  - intros H. split; [discriminate|].
    destruct (proj2 (one_4 a b c b8)) as (x & K); [tauto|]. exists x, [b8]. split; [discriminate|exact K].
Qed.
Lemma unfinished_long a b c d l : ~ unfinished (a :: b :: c :: d :: l).
Proof.
  intros (_ & x & q & Nq & H). apply one_long in H. destruct q; [congruence|]. rewrite app_length in H. cbn in H. lia.
Qed.

(** the length of an error at the start of [bad] *)
Definition error_length (bad : bytes) (k : option Z) : Prop :=
  match k with
  | None => unfinished bad
  | Some n => ~ unfinished bad /\
      exists p q, bad = p ++ q /\ Z.of_nat (length p) = n /\ (unfinished p \/ length p = 1%nat) /\
        forall p' q', bad = p' ++ q' -> unfinished p' -> (length p' <= length p)%nat
  end.

Lemma app_length_le {A} (a b c d : list A) : a ++ b = c ++ d -> length a = length c -> a = c.
Proof. revert c. induction a as [|x a IH]; intros [|y c] E L; try discriminate; auto. injection E as -> E. f_equal. apply IH; auto. Qed.

Lemma error_length_fun bad k k' : error_length bad k -> error_length bad k' -> k = k'.
Proof.
  destruct k as [n|], k' as [n'|]; cbn [error_length]; try tauto.
  intros (_ & p & q & E & L & U & M) (_ & p' & q' & E' & L' & U' & M').
  f_equal. assert (length p = length p'); [|lia].
  destruct U as [U|U], U' as [U'|U'].
  - specialize (M _ _ E' U'). specialize (M' _ _ E U). lia.
  - specialize (M' _ _ E U). destruct U as [N _]. destruct p; [congruence|cbn in *; lia].
  - specialize (M _ _ E' U'). destruct U' as [N _]. destruct p'; [congruence|cbn in *; lia].
  - lia.
Qed.

Lemma unfinished_prefix p q : p <> [] -> unfinished (p ++ q) -> unfinished p.
Proof.
  intros N (_ & c & r & Nr & H). split; [exact N|]. exists c, (q ++ r). rewrite app_assoc. split; [|exact H].
  intros E. apply app_eq_nil in E as [_ E]. congruence.
Qed.
Lemma error_some p x q : p <> [] -> (unfinished p \/ length p = 1%nat) -> ~ unfinished (p ++ [x]) ->
  error_length (p ++ x :: q) (Some (Z.of_nat (length p))).
Proof.
  intros N U X. change (x :: q) with ([x] ++ q). rewrite app_assoc.
  assert (NX : p ++ [x] <> []) by (destruct p; discriminate).
  split; [intros K; apply X, (unfinished_prefix _ q NX K)|].
  exists p, ([x] ++ q). rewrite <- app_assoc. split; [reflexivity|]. split; [reflexivity|]. split; [exact U|].
  intros p' q' E U'. destruct (Nat.le_gt_cases (length p') (length p)) as [L|L]; [exact L|]. exfalso.
  apply X, (unfinished_prefix _ (skipn (S (length p)) p') NX).
  assert (E1 : firstn (S (length p)) p' = p ++ [x]).
  { assert (K : firstn (S (length p)) (p ++ [x] ++ q) = firstn (S (length p)) (p' ++ q')) by now rewrite E.
    rewrite (firstn_app _ p'), (proj2 (Nat.sub_0_le _ _)), app_nil_r in K by lia.
    rewrite <- K, app_assoc, firstn_app, app_length, Nat.add_1_r, Nat.sub_diag, app_nil_r.
    rewrite firstn_all2; [reflexivity|rewrite app_length; cbn; lia]. }
  rewrite <- E1, firstn_skipn. exact U'.
Qed.
Lemma error_one a q : ~ unfinished [a] -> error_length (a :: q) (Some 1).
Proof.
  intros X. split; [intros K; apply X, (unfinished_prefix [a] q); [discriminate|exact K]|].
  exists [a], q. split; [reflexivity|]. split; [reflexivity|]. split; [now right|].
  intros p' q' E U'. destruct p' as [|a' p']; [cbn; lia|]. injection E as <- _. exfalso.
  apply X, (unfinished_prefix [a] p'); [discriminate|exact U'].
Qed.

Lemma stuck bad : bad <> [] -> (forall c a t, utf8_one c a -> bad <> a ++ t) ->
  exists k, error_length bad k /\ forall off, utf8_validate off bad = Some (off, k).
Proof.
  intros N S. destruct bad as [|a l]; [congruence|]. clear N.
  assert (S1 : ~ byteZ a < 0x80) by (intros K; apply one_1 in K as (x & K); exact (S _ [a] l K eq_refl)).
  assert (S2 : forall b t, l = b :: t -> ~ (0xC2 <= byteZ a <= 0xDF /\ cont b))
    by (intros b t -> K; apply one_2 in K as (x & K); exact (S _ [a; b] t K eq_refl)).
  assert (S3 : forall b c t, l = b :: c :: t -> ~ (0xE0 <= byteZ a <= 0xEF /\ second3 a b /\ cont c))
    by (intros b c t -> K; apply one_3 in K as (x & K); exact (S _ [a; b; c] t K eq_refl)).
  assert (S4 : forall b c d t, l = b :: c :: d :: t -> ~ (0xF0 <= byteZ a <= 0xF4 /\ second4 a b /\ cont c /\ cont d))
    by (intros b c d t -> K; apply one_4 in K as (x & K); exact (S _ [a; b; c; d] t K eq_refl)).
  clear S. cbn [utf8_validate]. pose proof (unfinished_1 a) as U1.
  destruct (Z.ltb_spec (byteZ a) 0x80); [lia|]. unfold is_cont, in_range.
  destruct ((0xC2 <=? byteZ a) && (byteZ a <=? 0xDF)) eqn:R2.
  { destruct l as [|b t]; [exists None; split; [apply U1; lia|reflexivity]|].
    specialize (S2 b t eq_refl). unfold cont in S2. replace ((128 <=? byteZ b) && (byteZ b <=? 191)) with false by lia.
    exists (Some 1). split; [|reflexivity]. apply (error_some [a] b t); [discriminate|now right|].
    cbn [app]. rewrite unfinished_2. lia. }
  destruct ((0xE0 <=? byteZ a) && (byteZ a <=? 0xEF)) eqn:R3.
  { destruct l as [|b t]; [exists None; split; [apply U1; lia|reflexivity]|].
    destruct (ok3 (byteZ a) (byteZ b)) eqn:O.
    - destruct t as [|c t]; [exists None; split; [apply unfinished_2; left; split; [lia|exact O]|reflexivity]|].
      specialize (S3 b c t eq_refl). unfold cont, second3 in S3. replace ((128 <=? byteZ c) && (byteZ c <=? 191)) with false by lia.
      exists (Some 2). split; [|reflexivity]. apply (error_some [a; b] c t); [discriminate|left; apply unfinished_2; left; split; [lia|exact O]|].
      cbn [app]. rewrite unfinished_3. lia.
    - exists (Some 1). split; [|reflexivity]. apply (error_some [a] b t); [discriminate|now right|].
      cbn [app]. rewrite unfinished_2. unfold second3. rewrite O. lia. }
  destruct ((0xF0 <=? byteZ a) && (byteZ a <=? 0xF4)) eqn:R4.
  { destruct l as [|b t]; [exists None; split; [apply U1; lia|reflexivity]|].
    destruct (ok4 (byteZ a) (byteZ b)) eqn:O.
    - assert (U2 : unfinished [a; b]) by (apply unfinished_2; right; split; [lia|exact O]).
      destruct t as [|c t]; [exists None; split; [exact U2|reflexivity]|].
      destruct ((128 <=? byteZ c) && (byteZ c <=? 191)) eqn:C.
      + assert (U3 : unfinished [a; b; c]) by (apply unfinished_3; split; [lia|split; [exact O|unfold cont; lia]]).
        destruct t as [|d t]; [exists None; split; [exact U3|reflexivity]|].
        specialize (S4 b c d t eq_refl). unfold cont, second4 in S4. replace ((128 <=? byteZ d) && (byteZ d <=? 191)) with false by lia.
        exists (Some 3). split; [|reflexivity]. apply (error_some [a; b; c] d t); [discriminate|now left|]. apply unfinished_long.
      + exists (Some 2). split; [|reflexivity]. apply (error_some [a; b] c t); [discriminate|now left|].
        cbn [app]. rewrite unfinished_3. unfold cont. lia.
    - exists (Some 1). split; [|reflexivity]. apply (error_some [a] b t); [discriminate|now right|].
      cbn [app]. rewrite unfinished_2. unfold second4. rewrite O. lia. }
  exists (Some 1). split; [|reflexivity]. apply error_one. rewrite U1. lia.
Qed.

Lemma validate_good cs good : utf8 cs good -> forall off bad,
  utf8_validate off (good ++ bad) = utf8_validate (off + lenZ good) bad.
Proof.
  induction 1 as [|c cs s t H1 H2 IH]; intros off bad; [now rewrite Z.add_0_r|].
  rewrite <- app_assoc, (validate_char c) by exact H1. rewrite IH. f_equal. unfold lenZ. rewrite app_length. lia.
Qed.

Lemma broken_validate s e off : utf8_broken s e -> utf8_validate off s = Some (off + fst e, snd e).
Proof.
  intros (good & bad & -> & (cs & V) & N & S & E & K). rewrite (validate_good _ _ V).
  destruct (stuck bad N S) as (k & K' & ->). f_equal. f_equal; [unfold lenZ; lia|]. eapply error_length_fun; [exact K'|exact K].
Qed.
Lemma one_dec l : (exists c, utf8_one c l) \/ ~ (exists c, utf8_one c l).
Proof.
  destruct l as [|a [|b [|c [|d [|e l]]]]].
  - right. intros (x & H). apply one_long in H. cbn in H. lia.
  - rewrite one_1. lia.
  - rewrite one_2. unfold cont. lia.
  - rewrite one_3. unfold cont, second3. destruct (ok3 _ _); lia.
  - rewrite one_4. unfold cont, second4. destruct (ok4 _ _); lia.
  - right. intros (x & H). apply one_long in H. cbn in H. lia.
Qed.
Lemma starts l : (exists c a t, utf8_one c a /\ l = a ++ t) \/ (forall c a t, utf8_one c a -> l <> a ++ t).
Proof.
  assert (D : forall n, (exists c, utf8_one c (firstn n l)) -> exists c a t, utf8_one c a /\ l = a ++ t)
    by (intros n (c & H); exists c, (firstn n l), (skipn n l); split; [exact H|now rewrite firstn_skipn]).
  destruct (one_dec (firstn 1 l)) as [H|H1]; [eauto|]. destruct (one_dec (firstn 2 l)) as [H|H2]; [eauto|].
  destruct (one_dec (firstn 3 l)) as [H|H3]; [eauto|]. destruct (one_dec (firstn 4 l)) as [H|H4]; [eauto|].
  right. intros c a t H E. apply one_long in H as L.
  assert (F : firstn (length a) l = a) by (rewrite E, firstn_app, Nat.sub_diag, app_nil_r; apply firstn_all).
  destruct (length a) as [|[|[|[|[|n]]]]]; try lia; rewrite F in *; eauto.
Qed.
Lemma validate_broken n : forall s off e, (length s <= n)%nat -> utf8_validate off s = Some e ->
  utf8_broken s (fst e - off, snd e).
Proof.
  induction n as [|n IH]; intros s off e L H.
  { destruct s; [discriminate|cbn in L; lia]. }
  destruct s as [|x s]; [discriminate|]. destruct (starts (x :: s)) as [(c & a & t & K & E)|S].
  - rewrite E in *. rewrite (validate_char c) in H by exact K. apply one_long in K as La. rewrite app_length in L.
    apply IH in H; [|lia]. destruct H as (good & bad & -> & (cs & V) & N & S & F & EL).
    exists (a ++ good), bad. rewrite app_assoc. split; [reflexivity|]. split; [exists (c :: cs); now constructor|].
    split; [exact N|]. split; [exact S|]. cbn [fst snd] in *. split; [|exact EL]. unfold lenZ in *. rewrite app_length. lia.
  - destruct (stuck (x :: s)) as (k & K & V); [discriminate|exact S|]. rewrite V in H. injection H as <-.
    exists [], (x :: s). split; [reflexivity|]. split; [exists []; constructor|]. split; [discriminate|]. split; [exact S|].
    cbn [fst snd length]. split; [lia|exact K].
Qed.
Theorem broken_spec s e : utf8_broken s e <-> utf8_validate 0 s = Some e.
Proof.
  destruct e as [o k]. split; intros H.
  - apply (broken_validate _ _ 0) in H. exact H.
  - apply (validate_broken (length s)) in H; [|lia]. cbn [fst snd] in H. now rewrite Z.sub_0_r in H.
Qed.
