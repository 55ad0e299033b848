(** * Proofs: attribute decoding does not depend on buffering

    Values, errors and the bits left over are the same whatever the buffering
    policy, the part of the stream already buffered and the contents of the
    scratch buffer. *)

From Coq Require Import ZArith List Bool Lia ZifyBool ZifyNat.
From Verif Require Import Base Text F32 NetTypes Errors BitReader NetModels Attributes
  SpecText TextProofs BitLemmas Wire ReaderLogic LeafProofs VectorProofs TextWireProofs AttrProofs.
Open Scope Z_scope.

(** computations whose only error is [e] *)
Definition only_err {E A} (e : E) (m : rd E A) : Prop :=
  forall r e' s, m r = (Err e', s) -> e' = e.

Lemma only_ok_or {E A} (e : E) (m : rd unit A) : only_err e (ok_or e m).
Proof.
  intros r e' s. unfold ok_or, map_err. destruct (m r) as [[a|u|p] t]; congruence.
Qed.

Lemma acc_same_err {E A} (e : E) (m1 m2 : rd E A) P :
  acc m1 P -> acc m2 P -> only_err e m1 -> only_err e m2 -> same m1 m2.
Proof.
  intros H1 H2 O1 O2 r1 r2 W1 W2 F. specialize (H1 r1 W1). specialize (H2 r2 W2).
  specialize (O1 r1). specialize (O2 r2).
  destruct (m1 r1) as [o1 s1]. destruct (m2 r2) as [o2 s2].
  destruct H1 as (V1 & L1 & R1). destruct H2 as (V2 & L2 & R2). rewrite <- F in *.
  destruct o1 as [v1|e1|]; [| |tauto]; (destruct o2 as [v2|e2|]; [| |tauto]).
  - assert (v1 = v2 /\ flat s1 = flat s2) as [-> G] by (apply R2, R1; auto).
    exists (Ok v2), s1, s2. intuition.
  - exfalso. apply (R2 v1 (flat s1)), R1; auto.
  - exfalso. apply (R1 v2 (flat s2)), R2; auto.
  - rewrite (O1 _ _ eq_refl), (O2 _ _ eq_refl). exists (Err e), s1, s2. intuition.
Qed.

Section Same.
Context (B1 B2 : bitter) (H1 : bitter_ok B1) (H2 : bitter_ok B2).

Lemma same_get_bytes n : (n <= 1024)%nat -> same (get_bytes B1 n) (get_bytes B2 n).
Proof. intros. eapply acc_same; apply acc_get_bytes; auto. Qed.

Lemma same_text_bytes size bytes : same (text_bytes B1 size bytes) (text_bytes B2 size bytes).
Proof.
  eapply same_ext; [apply text_bytes_eq; auto|apply text_bytes_eq; auto|]. unfold text_bytes'.
  destruct (Z.ltb_spec 1024 bytes); [apply same_fail|]. apply same_ok_or, same_get_bytes. lia.
Qed.

Ltac leafs := first
  [ eapply acc_same; (apply acc_read_bit; assumption) | eapply acc_same; (apply acc_read_u8; assumption)
  | eapply acc_same; (apply acc_read_u32; assumption) | eapply acc_same; (apply acc_read_u64; assumption)
  | eapply acc_same; (apply acc_read_f32; assumption) | eapply acc_same; (apply acc_read_i8; assumption)
  | eapply acc_same; (apply acc_read_i32; assumption) | eapply acc_same; (apply acc_read_i64; assumption)
  | eapply acc_same; (apply acc_read_bits; assumption) | eapply acc_same; (apply acc_rotation; assumption)
  | eapply acc_same; (apply acc_loadout; assumption)
  | eapply acc_same; (apply acc_if_get; [assumption|apply acc_read_i32; assumption]) ].
Ltac steps := repeat lazymatch goal with
  | |- same (not_enough _ _) _ => apply same_not_enough
  | |- same (ok_or _ _) _ => apply same_ok_or
  | |- same (bind _ _) _ => apply same_bind; [|intros ?]
  | |- same (ret _) _ => apply same_ret
  | |- same (fail _) _ => apply same_fail
  | |- same (fmap _ _) _ => apply same_fmap
  | |- same (get_bytes _ _) _ => apply same_get_bytes; lia
  | |- same (if ?b then _ else _) _ => destruct b
  | |- _ => leafs
  end.

Lemma same_text : same (decode_text B1) (decode_text B2).
Proof.
  unfold decode_text. steps; try apply same_text_bytes.
Qed.

Lemma same_ps4 net : same (decode_ps4 B1 net) (decode_ps4 B2 net).
Proof.
  eapply same_ext; [apply decode_ps4_eq; auto|apply decode_ps4_eq; auto|]. unfold decode_ps4'.
  destruct (1 <=? net); steps.
Qed.

Lemma same_switch : same (decode_switch B1) (decode_switch B2).
Proof.
  eapply same_ext; [apply decode_switch_eq; auto|apply decode_switch_eq; auto|]. unfold decode_switch'. steps.
Qed.

Lemma same_psynet net : same (decode_psynet B1 net) (decode_psynet B2 net).
Proof.
  eapply same_ext; [apply decode_psynet_eq; auto|apply decode_psynet_eq; auto|]. unfold decode_psynet'. steps.
Qed.

Lemma same_unique_tail net sys :
  same (decode_unique_id_with_system_id B1 net sys) (decode_unique_id_with_system_id B2 net sys).
Proof.
  unfold decode_unique_id_with_system_id. apply same_bind; [|intros rid; steps].
  destruct (sys =? 0); [steps|]. destruct (sys =? 1); [steps|].
  destruct (sys =? 2); [apply same_ps4|]. destruct (sys =? 4); [steps|].
  destruct (sys =? 5); [steps|]. destruct (sys =? 6); [apply same_switch|].
  destruct (sys =? 7); [apply same_psynet|].
  destruct (sys =? 11); [apply same_fmap, same_text|apply same_fail].
Qed.

Lemma same_unique net : same (decode_unique_id B1 net) (decode_unique_id B2 net).
Proof. unfold decode_unique_id. apply same_bind; [steps|]. intros. apply same_unique_tail. Qed.

Lemma same_reservation_name fuel p :
  255 - lenZ p < Z.of_nat fuel ->
  same (reservation_name B1 fuel p) (reservation_name B2 fuel p).
Proof.
  revert p; induction fuel as [|fuel IH]; intros p Hf; cbn [reservation_name];
    destruct (Z.ltb_spec (lenZ p) 255); try lia; try apply same_ret.
  apply same_bind; [steps|]. intros c. destruct (c =? 0); [apply same_ret|].
  apply IH. rewrite lenZ_app. pose proof (utf8_char_len c). lia.
Qed.

Lemma same_attribute D tag : same (decode_attribute B1 D tag) (decode_attribute B2 D tag).
Proof.
  destruct tag;
  try (solve [eapply acc_same_err; [apply acc_attribute; assumption|apply acc_attribute; assumption
                                   |apply only_ok_or|apply only_ok_or]]);
  unfold decode_attribute, decode_uncommon, decode_rep_stat_title, decode_impulse,
    decode_replicated_boost, decode_team_loadout, decode_pickup, decode_pickup_new,
    decode_string, decode_unique_id_attr, decode_reservation, decode_party_leader,
    decode_private_match_settings, decode_logo_data, decode_rotation, decode_not_implemented,
    decode_qword_string, decode_qword;
  repeat lazymatch goal with
  | |- same (decode_text _) _ => apply same_text
  | |- same (decode_string _) _ => unfold decode_string
  | |- same (decode_unique_id _ _) _ => apply same_unique
  | |- same (decode_unique_id_with_system_id _ _ _) _ => apply same_unique_tail
  | |- same (reservation_name _ _ _) _ => apply same_reservation_name; unfold lenZ; simpl; lia
  | |- same (if ?b then _ else _) _ => destruct b
  | |- same (bind _ _) _ => apply same_bind; [|intros ?]
  | |- same (fmap _ _) _ => apply same_fmap
  | |- _ => steps
  end.
Qed.

Lemma same_trajectory sp net :
  same (trajectory_from_spawn B1 sp net) (trajectory_from_spawn B2 sp net).
Proof. eapply acc_same; apply acc_trajectory; auto. Qed.

End Same.
