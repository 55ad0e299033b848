(** * Proofs: an error in a situation has one message *)

From Coq Require Import ZArith List Bool Lia Sorted.
From Verif Require Import Base F32 NetTypes Errors Body Data Display SpecDecimal JsonLogic SpecBasic HierarchyProofs SpecNet
  TableProofs CacheProofs SpecFrames FrameFacts SpecDisplay DisplayProofs.
Open Scope Z_scope.
#[local] Opaque PARENT_CLASSES SPAWN_STATS ATTRIBUTES.

Lemma list_of_fun P a b : SpecDisplay.list_of P a -> SpecDisplay.list_of P b -> a = b.
Proof.
  intros [A1 A2] [B1 B2]. assert (E : forall n, In n a <-> In n b) by (intros n; now rewrite A2, B2). clear A2 B2.
  revert b B1 E. unfold ascending in *. induction A1 as [|x a S IH F]; intros b B1 E.
  - destruct b as [|y b]; auto. destruct (proj2 (E y)). now left.
  - destruct B1 as [|y b S' F']; [destruct (proj1 (E x)); now left|]. rewrite Forall_forall in F, F'.
    assert (x = y) as <-.
    { destruct (proj1 (E x) (or_introl eq_refl)) as [->|Hx]; auto. destruct (proj2 (E y) (or_introl eq_refl)) as [->|Hy]; auto.
      apply lex_antisym; [apply F, Hy|apply F', Hx]. }
    f_equal. apply IH; auto. intros n. split; intros Hn.
    + destruct (proj1 (E n) (or_intror Hn)) as [<-|]; auto. destruct (F _ Hn) as [_ N]. congruence.
    + destruct (proj2 (E n) (or_intror Hn)) as [<-|]; auto. destruct (F' _ Hn) as [_ N]. congruence.
Qed.

(** ** Decimal notation *)

Lemma number_range ds : are_digits ds -> 0 <= digits_number ds < 10 ^ Z.of_nat (length ds).
Proof.
  intros H. induction H as [|d ds Hd _ IH]; cbn [digits_number length]; [lia|].
  rewrite Nat2Z.inj_succ, Z.pow_succ_r by lia. nia.
Qed.
Lemma number_lower ds : are_digits ds -> no_leading_zero ds -> (2 <= length ds)%nat ->
  10 ^ (Z.of_nat (length ds) - 1) <= digits_number ds.
Proof.
  intros A N H. destruct ds as [|d [|d' ds]]; cbn [length] in H; try lia. cbn [no_leading_zero] in N.
  inversion A as [|? ? Hd A']; subst. apply number_range in A'. set (t := d' :: ds) in *. cbn [digits_number length].
  replace (Z.of_nat (S (length t)) - 1) with (Z.of_nat (length t)) by lia.
  assert (0 < 10 ^ Z.of_nat (length t)) by (apply Z.pow_pos_nonneg; lia). nia.
Qed.
Lemma number_inj ds : forall es, length ds = length es -> are_digits ds -> are_digits es ->
  digits_number ds = digits_number es -> ds = es.
Proof.
  induction ds as [|d ds IH]; intros [|e es] Ln A B E; try discriminate; auto.
  inversion A as [|? ? Hd A']; inversion B as [|? ? He B']; subst. injection Ln as Ln. cbn [digits_number] in E.
  pose proof (number_range _ A') as R1. pose proof (number_range _ B') as R2. rewrite Ln in *.
  set (k := 10 ^ Z.of_nat (length es)) in *. assert (d = e) by nia. subst. f_equal. apply IH; auto. lia.
Qed.
Lemma number_length ds es : are_digits ds -> are_digits es -> no_leading_zero ds -> no_leading_zero es ->
  digits_number ds = digits_number es -> (length ds <= length es)%nat.
Proof.
  intros A B N M E. destruct (le_lt_dec (length ds) (length es)) as [H|H]; auto. exfalso.
  assert (1 <= length es)%nat by (destruct es; cbn in *; [tauto|lia]).
  pose proof (number_lower ds A N ltac:(lia)) as Q. pose proof (number_range es B) as R.
  assert (10 ^ Z.of_nat (length es) <= 10 ^ (Z.of_nat (length ds) - 1)) by (apply Z.pow_le_mono_r; lia). lia.
Qed.

Lemma decimal_fun x s t : decimal x s -> decimal x t -> s = t.
Proof.
  intros (ds & a & A & N & D & E & ->) (es & b & B & M & D' & E' & ->).
  assert (ds = es) as <-.
  { apply number_inj; auto; [|congruence]. apply Nat.le_antisymm; apply number_length; auto; congruence. }
  rewrite (ascii_digit_unique _ _ A D), (ascii_digit_unique _ _ A D'). reflexivity.
Qed.

Lemma reads_fun l t t' : reads l t -> reads l t' -> t = t'.
Proof.
  intros H. revert t'. induction H as [|w l t _ IH|x d l t D _ IH|s l t _ IH]; intros t' H'; inversion H'; subst; auto; f_equal; auto.
  eapply decimal_fun; eauto.
Qed.

Lemma at_fun objects i n m : object_at objects i n -> object_at objects i m -> n = m.
Proof. intros [_ H] [_ H']. congruence. Qed.
Lemma spawnable_fun objects i n m : spawnable objects i n -> spawnable objects i m -> n = m.
Proof. intros H H'. eapply at_fun; eapply spawnable_at; eauto. Qed.
Lemma tag_fun n t t' : In (n, t) ATTRIBUTES -> In (n, t') ATTRIBUTES -> t = t'.
Proof.
  intros H H'. assert (K : kind_of n t) by (left; auto). assert (K' : kind_of n t') by (left; auto).
  apply kind_of_spec in K, K'. congruence.
Qed.
Lemma last_fun {A} (a b : list A) x y : a ++ [x] = b ++ [y] -> x = y.
Proof. intros H. now apply app_inj_tail in H. Qed.

Section Unique.
Context (show_f32 : f32 -> str) (debug_attribute : attribute -> str).
Context (objects : list str) (L : lenZ objects <= 2 ^ 31) (caches : list class_net_cache).

Lemma names_fun s l l' : names_for objects caches s l -> names_for objects caches s l' -> l = l'.
Proof.
  intros (a & b & H1 & H2 & ->) (a' & b' & H1' & H2' & ->).
  rewrite (list_of_fun _ _ _ H1 H1'), (list_of_fun _ _ _ H2 H2'). reflexivity.
Qed.

Lemma detail_fun x l l' : detail objects caches x l -> detail objects caches x l' -> l = l'.
Proof.
  intros H H'. destruct H as [a o n H|a o s cls l H1 H2 H3|a o s cls p n H1 H2 H3 H4|a o s x cls p n tag l H1 H2 H3 H4 H5|x N1 N2 N3];
    inversion H'; subst; try (exfalso; eapply N1; reflexivity); try (exfalso; eapply N2; reflexivity);
    try (exfalso; eapply N3; reflexivity); auto;
    repeat match goal with
    | H1 : spawnable objects ?o ?c, H2 : spawnable objects ?o ?d |- _ =>
        first [constr_eq c d; fail 1|pose proof (spawnable_fun _ _ _ _ H1 H2); subst]; clear H2
    | H1 : resolves objects caches ?c ?s ?p, H2 : resolves objects caches ?c ?s ?q |- _ =>
        first [constr_eq p q; fail 1|pose proof (resolves_fun _ _ _ _ _ _ L H1 H2); subst]; clear H2
    | H1 : object_at objects ?o ?c, H2 : object_at objects ?o ?d |- _ =>
        first [constr_eq c d; fail 1|pose proof (at_fun _ _ _ _ H1 H2); subst]; clear H2
    | H1 : In (?n, ?t) ATTRIBUTES, H2 : In (?n, ?u) ATTRIBUTES |- _ =>
        first [constr_eq t u; fail 1|pose proof (tag_fun _ _ _ H1 H2); subst]; clear H2
    | H1 : names_for objects caches ?s ?l, H2 : names_for objects caches ?s ?m |- _ =>
        first [constr_eq l m; fail 1|pose proof (names_fun _ _ _ H1 H2); subst]; clear H2
    end; auto.
  all: exfalso; first [solve [eauto]|match goal with H : forall _, _ |- _ => solve [eapply H; first [reflexivity|eauto]] end].

Qed.

Section Situation.
Context (c : frame_context) (ND : NoDup (map fst (fc_actors c))).

Lemma actor_fun id l l' : actor_part objects c id l -> actor_part objects c id l' -> l = l'.
Proof.
  intros [obj n H1 H2|N] [obj' n' H1' H2'|N']; auto; try (exfalso; eauto; fail); [|exfalso; eapply N'; eauto|exfalso; eapply N; eauto].
  apply (MapProofs.map_get_in id) in H1; auto. apply (MapProofs.map_get_in id) in H1'; auto.
  assert (obj = obj') as <- by congruence. now rewrite (at_fun _ _ _ _ H2 H2').
Qed.
Lemma update_fun u l l' : update_part debug_attribute objects c u l -> update_part debug_attribute objects c u l' -> l = l'.
Proof.
  intros [k n H1 H2] [k' n' H1' H2']. now rewrite (actor_fun _ _ _ H1 H1'), (at_fun _ _ _ _ H2 H2').
Qed.
Lemma new_fun a l l' : new_part objects a l -> new_part objects a l' -> l = l'.
Proof. intros [n H] [n' H']. now rewrite (at_fun _ _ _ _ H H'). Qed.
Lemma last_part_fun us ns l l' : last_part debug_attribute objects c us ns l -> last_part debug_attribute objects c us ns l' -> l = l'.
Proof.
  intros [us1 u k E H|ns1 a k E1 E2 H] [us2 u' k' E' H'|ns2 a' k' E1' E2' H'].
  - rewrite E in E'. apply last_fun in E' as <-. eapply update_fun; eauto.
  - rewrite E1' in E. destruct us1; discriminate.
  - rewrite E1 in E'. destruct us2; discriminate.
  - rewrite E2 in E2'. apply last_fun in E2' as <-. eapply new_fun; eauto.
Qed.
Lemma last_part_some us ns l : last_part debug_attribute objects c us ns l -> ~ (us = [] /\ ns = []).
Proof.
  intros [us' u k E _|ns' a k E1 E2 _] [-> ->]; [destruct us'|destruct ns']; discriminate.
Qed.

Lemma split_fun {A} (Q : A -> Prop) a x b a' x' b' : a ++ x :: b = a' ++ x' :: b' ->
  ~ Q x -> ~ Q x' -> (forall y, In y b -> Q y) -> (forall y, In y b' -> Q y) -> a = a' /\ x = x'.
Proof.
  revert a'. induction a as [|y a IH]; intros [|y' a'] E N N' H H'; cbn [app] in E; injection E as E1 E2; subst; auto.
  - exfalso. apply N', H, in_or_app. cbn. auto.
  - exfalso. apply N, H', in_or_app. cbn. auto.
  - destruct (IH a' E2) as [-> ->]; auto.
Qed.

Lemma current_fun l l' : current_part show_f32 debug_attribute objects c l -> current_part show_f32 debug_attribute objects c l' -> l = l'.
Proof.
  intros [k H|fs f fs' k E1 E2 E3 N H|E1 E2 N] [k' H'|gs g gs' k' E1' E2' E3' N' H'|E1' E2' N']; auto.
  - eapply last_part_fun; eauto.
  - destruct (last_part_some _ _ _ H). auto.
  - destruct (last_part_some _ _ _ H). auto.
  - destruct (last_part_some _ _ _ H'). auto.
  - rewrite E3 in E3'.
    apply (split_fun (fun g => f_updated_actors g = [] /\ f_new_actors g = [])) in E3' as [<- <-]; auto;
      try (eapply last_part_some; eauto; fail).
    now rewrite (last_part_fun _ _ _ _ H H').
  - exfalso. eapply last_part_some; [exact H|]. apply N'. rewrite E3. apply in_or_app. cbn. auto.
  - destruct (last_part_some _ _ _ H'). auto.
  - exfalso. eapply last_part_some; [exact H'|]. apply N. rewrite E3'. apply in_or_app. cbn. auto.
Qed.

Lemma situation_fun l l' : situation show_f32 debug_attribute objects c l -> situation show_f32 debug_attribute objects c l' -> l = l'.
Proof.
  intros (t & d & k & T1 & C1 & ->) (t' & d' & k' & T2 & C2 & ->). rewrite (current_fun _ _ C1 C2).
  assert (t = t' /\ d = d') as [<- <-]; auto.
  destruct T1 as [(E & -> & ->)|(fs & f & E & -> & ->)], T2 as [(E' & -> & ->)|(fs' & f' & E' & -> & ->)]; auto.
  - rewrite E in E'. destruct fs'; discriminate.
  - rewrite E in E'. destruct fs; discriminate.
  - rewrite E in E'. apply last_fun in E' as <-. auto.
Qed.

Lemma message_fun x l l' t t' : frame_error_message show_f32 debug_attribute objects caches c x l ->
  frame_error_message show_f32 debug_attribute objects caches c x l' -> reads l t -> reads l' t' -> t = t'.
Proof.
  intros (a & b & D & S & ->) (a' & b' & D' & S' & ->). rewrite (detail_fun _ _ _ D D'), (situation_fun _ _ S S'). apply reads_fun.
Qed.

End Situation.
End Unique.
