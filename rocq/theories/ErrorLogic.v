(** * Proof rules for the errors of the frame decoder

    [ferr]: when the computation fails, the error and the visible state after
    the failure stand in a relation to the bits and the visible state before. *)

From Coq Require Import ZArith List Bool Lia ZifyBool ZifyNat.
From Verif Require Import Base NetTypes SegArray Errors BitReader NetModels Attributes ObjectIndex FrameDecoder
  BitLemmas Wire ReaderLogic LeafProofs AttrProofs FrameLogic.
Open Scope Z_scope.

Definition failure : Type := vis_state -> bits -> frame_error -> vis_state -> Prop.

Section Logic.
Context (I : vis_state -> Prop).

Definition ferr {A} (N K : nat) (m : fcomp A) (R : failure) : Prop :=
  forall s, fwf I s -> (length (fbits s) < N)%nat -> (K <= length (lk (fs_r s)))%nat ->
    match m s with
    | (Err e, t) => R (vis s) (fbits s) e (vis t)
    | _ => True
    end.

Lemma ferr_imp {A} N K (m : fcomp A) (R Q : failure) : ferr N K m R ->
  (forall x i e y, I x -> (length i < N)%nat -> R x i e y -> Q x i e y) -> ferr N K m Q.
Proof.
  intros H HQ s W L K0. specialize (H s W L K0). destruct (m s) as [[v|e|p] t]; auto.
  apply HQ; auto. apply W.
Qed.

Lemma ferr_weaken {A} N K N0 K0 (m : fcomp A) R : ferr N K m R -> (N0 <= N)%nat -> (K <= K0)%nat ->
  ferr N0 K0 m R.
Proof. intros H A1 A2 s W L K1. apply H; auto; lia. Qed.

Lemma ferr_ext {A} N K (m m' : fcomp A) R : (forall s, m s = m' s) -> ferr N K m R -> ferr N K m' R.
Proof. intros E H s W L K0. rewrite <- E. now apply H. Qed.

(** computations that do not fail *)
Definition no_fail : failure := fun _ _ _ _ => False.

Lemma ferr_ret {A} N K (a : A) : ferr N K (ret a) no_fail.
Proof. intros s W L K0. exact Logic.I. Qed.

Lemma ferr_mod N K (f : fstate -> fstate) : ferr N K (fun s => (Ok tt, f s)) no_fail.
Proof. intros s W L K0. exact Logic.I. Qed.

Lemma ferr_fail {A} N K e : ferr N K (@fail _ _ A e) (fun x _ e' y => e' = e /\ y = x).
Proof. intros s W L K0. cbn. auto. Qed.

Lemma ferr_accp {A} N K K' (m : rd frame_error A) P : accp K m P K' -> ferr N K (on_reader m) no_fail.
Proof.
  intros H s [W1 W2] L K0. unfold on_reader. destruct (H (fs_r s) W1 K0) as (v & r & E & _). rewrite E. exact Logic.I.
Qed.

(** the first part fails, or it succeeds and the second part fails *)
Lemma ferr_bind {A C} N K N1 K1 (m : fcomp A) (k : A -> fcomp C) P R Q :
  facc I N K m P N1 K1 -> ferr N K m R ->
  (forall x i a y o, I x -> P x i a y o -> ferr N1 K1 (k a) (Q a)) ->
  ferr N K (bind m k) (fun x i e y => R x i e y \/ exists a z j, P x i a z j /\ I z /\ Q a z j e y).
Proof.
  intros Hm He Hk s W L K0. unfold bind. specialize (Hm s W L K0). specialize (He s W L K0).
  destruct (m s) as [[a|e|p] t]; auto.
  destruct Hm as (V & Le & L1 & K3 & Hm).
  assert (Pa : P (vis s) (fbits s) a (vis t) (fbits t)) by (apply Hm; auto).
  specialize (Hk _ _ _ _ _ (proj2 W) Pa t V L1 K3).
  destruct (k a t) as [[c|e|p] u]; auto. right. exists a, (vis t), (fbits t). split; auto. split; auto. apply V.
Qed.

Lemma ferr_reader {A} N K what (m : rd unit A) P : acc m P ->
  ferr N K (f_not_enough what m) (fun x i e y => e = FNotEnoughDataFor what /\ y = x /\ forall v o, ~ P i v o).
Proof.
  intros H s [W1 W2] L K0. unfold f_not_enough, on_reader, ok_or, map_err. specialize (H (fs_r s) W1).
  destruct (m (fs_r s)) as [[v|e|p] r]; cbn; auto. destruct H as (V & Sh & H). auto.
Qed.

Lemma ferr_need {A C} N K (err : frame_error) (a : option A) (k : A -> fcomp C) (Q : A -> failure) :
  (forall v, a = Some v -> ferr N K (k v) (Q v)) ->
  ferr N K (bind (need err a) k)
    (fun x i e y => match a with Some v => Q v x i e y | None => e = err /\ y = x end).
Proof.
  intros H. destruct a as [v|]; cbn [need].
  - eapply ferr_ext; [|apply H; reflexivity]. reflexivity.
  - eapply ferr_ext; [|apply ferr_fail]. reflexivity.
Qed.

Lemma ferr_get {A C} N K (get : vis_state -> A) (k : A -> fcomp C) (Q : A -> failure) :
  (forall x, I x -> ferr N K (k (get x)) (Q (get x))) ->
  ferr N K (bind (fun s => (Ok (get (vis s)), s)) k) (fun x i e y => Q (get x) x i e y).
Proof. intros Hk s W L K0. unfold bind. apply (Hk (vis s) (proj2 W) s W L K0). Qed.

Lemma ferr_guard {A} (B : bitter) (HB : bitter_ok B) N K c err (f : fcomp A) R :
  (c <= 56)%nat -> ferr N c f R ->
  ferr N K (bind (on_reader (refill B)) (fun _ => bind (on_reader lookahead_bits) (fun la =>
         if la <? Z.of_nat c then fail err else f)))
    (fun x i e y => (length i < c)%nat /\ e = err /\ y = x \/ (c <= length i)%nat /\ R x i e y).
Proof.
  intros C Hf s [W1 W2] L K0. unfold bind at 1, on_reader at 1.
  destruct (refill_spec B HB (E:=frame_error) (fs_r s) W1) as (r & E1 & V & F & _ & G). rewrite E1.
  unfold bind, on_reader, lookahead_bits, lenZ. cbn [set_r fs_r].
  assert (Fb : fbits (set_r r s) = fbits s) by exact F.
  change (set_r r (set_r r s)) with (set_r r s).
  destruct (Z.ltb_spec (Z.of_nat (length (lk r))) (Z.of_nat c)) as [Q|Q].
  - unfold fail. left. split; auto. destruct G as [G|G]; [lia|]. rewrite <- Fb. unfold fbits, flat. cbn [set_r fs_r].
    rewrite G, app_length. simpl. lia.
  - specialize (Hf (set_r r s) (conj V W2) ltac:(rewrite Fb; lia) ltac:(cbn [set_r fs_r]; lia)).
    destruct (f (set_r r s)) as [[v|e|p] t]; auto. rewrite vis_set_r, Fb in Hf. right. split; auto.
    rewrite <- Fb. unfold fbits, flat. cbn [set_r fs_r]. rewrite app_length. lia.
Qed.

Lemma ferr_guard_fails {A} (B : bitter) (HB : bitter_ok B) N K c err (f : fcomp A) : 64 <= c ->
  ferr N K (bind (on_reader (refill B)) (fun _ => bind (on_reader lookahead_bits) (fun la =>
         if la <? c then fail err else f))) (fun x i e y => e = err /\ y = x).
Proof.
  intros C s [W1 W2] L K0. destruct (guard_fails B HB c err f s W1 C) as (t & -> & Wt & Vt & Ft). auto.
Qed.

End Logic.

(** ** Only the tag for unknown attributes is not implemented *)

Definition implemented {A} (m : ard A) : Prop := forall r s, m r <> (Err AUnimplemented, s).

Lemma impl_bind {A C} (m : ard A) (k : A -> ard C) : implemented m -> (forall a, implemented (k a)) -> implemented (bind m k).
Proof.
  intros Hm Hk r s. unfold bind. specialize (Hm r). destruct (m r) as [[a|e|p] t]; [apply Hk| |discriminate].
  intros E. apply (Hm t). congruence.
Qed.
Lemma impl_ret {A} (a : A) : implemented (ret a).
Proof. intros r s. discriminate. Qed.
Lemma impl_panics {A} p : implemented (panics p : ard A).
Proof. intros r s. discriminate. Qed.
Lemma impl_fmap {A C} (f : A -> C) (m : ard A) : implemented m -> implemented (fmap f m).
Proof. intros H. apply impl_bind; auto. intros. apply impl_ret. Qed.
Lemma impl_not_enough {A} what (m : rd unit A) : implemented (not_enough what m).
Proof. intros r s. unfold not_enough, ok_or, map_err. destruct (m r) as [[a|e|p] t]; discriminate. Qed.
Lemma impl_ok_or {A} n (m : rd unit A) : implemented (ok_or (ATooBigString n) m).
Proof. intros r s. unfold ok_or, map_err. destruct (m r) as [[a|e|p] t]; discriminate. Qed.
Lemma impl_too_big {A} n : implemented (fail (ATooBigString n) : ard A).
Proof. intros r s. discriminate. Qed.
Lemma impl_remote {A} n : implemented (fail (AUnrecognizedRemoteId n) : ard A).
Proof. intros r s. discriminate. Qed.
Lemma impl_slice n : implemented (buf_slice n : ard (list byte)).
Proof. intros r s. unfold buf_slice. destruct (take_list n (buf r)) as [[h t]|]; discriminate. Qed.
Lemma impl_len : implemented (buf_len : ard Z).
Proof. intros r s. discriminate. Qed.

Ltac impl := repeat lazymatch goal with
  | |- implemented (bind _ _) => apply impl_bind; [|intros ?]
  | |- implemented (ret _) => apply impl_ret
  | |- implemented (panics _) => apply impl_panics
  | |- implemented (fmap _ _) => apply impl_fmap
  | |- implemented (not_enough _ _) => apply impl_not_enough
  | |- implemented (ok_or _ _) => apply impl_ok_or
  | |- implemented (fail (ATooBigString _)) => apply impl_too_big
  | |- implemented (fail (AUnrecognizedRemoteId _)) => apply impl_remote
  | |- implemented (buf_slice _) => apply impl_slice
  | |- implemented buf_len => apply impl_len
  | |- implemented (if ?b then _ else _) => destruct b
  end.

Lemma impl_text B : implemented (decode_text B).
Proof. unfold decode_text, text_bytes. impl. Qed.
Lemma impl_unique_tail B net sys : implemented (decode_unique_id_with_system_id B net sys).
Proof. unfold decode_unique_id_with_system_id, decode_ps4, decode_switch, decode_psynet. impl; apply impl_text. Qed.
Lemma impl_name B fuel : forall p, implemented (reservation_name B fuel p).
Proof. induction fuel as [|fuel IH]; intros p; cbn [reservation_name]; impl; auto. Qed.

Lemma impl_attribute B D tag : tag <> TNotImplemented -> implemented (decode_attribute B D tag).
Proof.
  intros H. destruct tag; try congruence;
  unfold decode_attribute, decode_uncommon, decode_rep_stat_title, decode_impulse, decode_replicated_boost,
    decode_team_loadout, decode_pickup, decode_pickup_new, decode_string, decode_unique_id_attr, decode_reservation,
    decode_party_leader, decode_private_match_settings, decode_logo_data, decode_rotation,
    decode_qword_string, decode_qword, decode_string, decode_unique_id;
  try (solve [apply impl_not_enough]); impl;
  first [apply impl_text|apply impl_unique_tail|apply impl_name].
Qed.
