(** * The width of [usize]: attributes do not depend on it *)

From Coq Require Import ZArith List Bool Lia.
From Verif Require Import Base F32 Text NetTypes Errors BitReader NetModels Attributes SpecBasic Width
  RecordProofs WidthCore.
Import ListNotations.
Open Scope Z_scope.

(** the same function *)
Definition peq {S E A} (m' m : comp S E A) : Prop := forall s, m' s = m s.

Section Logic.
Context {S : Type}.

Lemma peq_refl {E A} (m : comp S E A) : peq m m.
Proof. intros s. reflexivity. Qed.

Lemma peq_bind {E A C} (m' m : comp S E A) (k' k : A -> comp S E C) :
  peq m' m -> (forall a, peq (k' a) (k a)) -> peq (bind m' k') (bind m k).
Proof. intros H K s. unfold bind. rewrite H. destruct (m s) as [[a|e|p] t]; auto. apply K. Qed.

Lemma peq_fmap {E A C} (f : A -> C) (m' m : comp S E A) : peq m' m -> peq (fmap f m') (fmap f m).
Proof. intros H. apply peq_bind; [exact H|]. intros a. apply peq_refl. Qed.

Lemma peq_map_err {E F A} (f : S -> E -> F) (m' m : comp S E A) : peq m' m -> peq (map_err f m') (map_err f m).
Proof. intros H s. unfold map_err. now rewrite H. Qed.
End Logic.

Lemma peq_repeat {A} n (f' f : rd unit A) : peq f' f -> peq (rd_repeat n f') (rd_repeat n f).
Proof.
  intros H. induction n as [|n IH]; cbn [rd_repeat]; [apply peq_refl|].
  apply peq_bind; [exact H|]. intros x. apply peq_bind; [exact IH|]. intros xs. apply peq_refl.
Qed.

Section Width.
Context (w : Z) (W : 32 <= w <= 64) (B : bitter).

Ltac same := first
  [ apply peq_refl
  | assumption
  | apply peq_bind; [|intros ?]
  | apply peq_fmap
  | apply peq_map_err
  | apply peq_repeat
  | match goal with |- peq (if ?b then _ else _) _ => destruct b end ].

Lemma text_same : peq (decode_text_w w B) (decode_text B).
Proof.
  intros s. unfold decode_text_w, decode_text, not_enough, ok_or, bind at 1 4, map_err.
  assert (R : match fst (read_i32 B s) with Ok n => is_i32 n | _ => True end).
  { unfold read_i32, fmap, bind. destruct (read_bits B 32 s) as [[n|e|p] t]; cbn; auto. apply as_i32_range. }
  destruct (read_i32 B s) as [[n|e|p] t]; try reflexivity. cbn [fst] in R.
  destruct (n =? 0); [reflexivity|]. destruct (Z.ltb_spec n 0) as [L|L].
  - destruct (fits_i32 (n * -2)) eqn:F; [|reflexivity].
    assert (0 <= n * -2 < 2 ^ 31) by (unfold fits_i32 in F; lia).
    rewrite (usize_small w W) by lia. reflexivity.
  - destruct R. rewrite (usize_small w W) by lia. reflexivity.
Qed.

Lemma product_value_same P i : peq (product_value_decode_w w B P i) (product_value_decode B P i).
Proof. unfold product_value_decode_w, product_value_decode. pose proof text_same. repeat same. Qed.

Lemma product_same D : peq (decode_product_w w B D) (decode_product B D).
Proof.
  unfold decode_product_w, decode_product. pose proof (product_value_same (ad_product D)) as H.
  repeat first [ same | apply H ].
Qed.

Lemma online_same D : peq (inner_decode_online_loadout_w w B D) (inner_decode_online_loadout B D).
Proof.
  unfold inner_decode_online_loadout_w, inner_decode_online_loadout. pose proof (product_same D).
  repeat same.
Qed.

Lemma system_same v i : peq (decode_unique_id_with_system_id_w w B v i) (decode_unique_id_with_system_id B v i).
Proof.
  unfold decode_unique_id_with_system_id_w, decode_unique_id_with_system_id. pose proof text_same.
  repeat same.
Qed.

Lemma unique_same v : peq (decode_unique_id_w w B v) (decode_unique_id B v).
Proof.
  unfold decode_unique_id_w, decode_unique_id. same; [same|]. apply system_same.
Qed.

Lemma uncommon_same D tag : peq (decode_uncommon_w w B D tag) (decode_uncommon B D tag).
Proof.
  pose proof text_same. pose proof unique_same. pose proof system_same. pose proof (online_same D).
  destruct tag; try apply peq_refl; cbn [decode_uncommon_w decode_uncommon];
    unfold decode_qword_string_w, decode_qword_string, decode_string_w, decode_string,
      decode_unique_id_attr_w, decode_unique_id_attr, decode_reservation_w, decode_reservation,
      decode_party_leader_w, decode_party_leader, decode_private_match_settings_w,
      decode_private_match_settings, decode_loadout_online_w, decode_loadout_online,
      decode_loadouts_online_w, decode_loadouts_online, decode_rep_stat_title_w, decode_rep_stat_title,
      not_enough, ok_or;
    repeat first [ same | match goal with H : _ |- _ => apply H end ].
Qed.

Lemma attribute_same D tag : peq (decode_attribute_w w B D tag) (decode_attribute B D tag).
Proof. destruct tag; try apply peq_refl; apply uncommon_same. Qed.

End Width.
