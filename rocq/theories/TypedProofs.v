(** * Proofs: decoded frames are values of their Rust types *)

From Coq Require Import ZArith List Bool Lia.
From Verif Require Import Base F32 NetTypes SegArray Errors Core Header Body BitReader Attributes Data ObjectIndex
  FrameDecoder Network Parser Wire SpecBasic SpecNet SpecFrames BitLemmas ReaderLogic CacheProofs NetworkProofs SpecCrc SpecFile
  SpecReplay SpecFacts ParseProofs FrameFacts SpecJson.
Open Scope Z_scope.

Definition yields {A} (P : wire A) (T : A -> Prop) : Prop := forall i v o, P i v o -> T v.

Lemma y_uint n (T : Z -> Prop) : (forall x, 0 <= x < 2 ^ Z.of_nat n -> T x) -> yields (w_uint n) T.
Proof. intros H i v o [R _]. apply H, R. Qed.
Lemma y_int32 : yields (w_int 32) is_i32.
Proof. intros i v o [R _]. exact R. Qed.
Lemma y_int64 : yields (w_int 64) is_i64.
Proof. intros i v o [R _]. exact R. Qed.
Lemma y_int8 : yields (w_int 8) is_i8.
Proof. intros i v o [R _]. exact R. Qed.
Lemma y_u64 : yields (w_uint 64) is_u64.
Proof. intros i v o [R _]. exact R. Qed.
Lemma y_u32 : yields (w_uint 32) is_u32.
Proof. intros i v o [R _]. exact R. Qed.
Lemma y_u31 : yields (w_uint 31) is_u32.
Proof. intros i v o [R _]. unfold is_u32. change (2 ^ Z.of_nat 31) with (2 ^ 31) in R. lia. Qed.
Lemma y_u24 : yields (w_uint 24) is_u32.
Proof. intros i v o [R _]. unfold is_u32. change (2 ^ Z.of_nat 24) with (2 ^ 24) in R. lia. Qed.
Lemma y_u14 : yields (w_uint 14) is_u16.
Proof. intros i v o [R _]. unfold is_u16. change (2 ^ Z.of_nat 14) with (2 ^ 14) in R. lia. Qed.
Lemma y_u11 : yields (w_uint 11) is_u16.
Proof. intros i v o [R _]. unfold is_u16. change (2 ^ Z.of_nat 11) with (2 ^ 11) in R. lia. Qed.
Lemma y_u8 : yields (w_uint 8) is_u8.
Proof. intros i v o [R _]. exact R. Qed.
Lemma y_u6 : yields (w_uint 6) is_u8.
Proof. intros i v o [R _]. unfold is_u8. change (2 ^ Z.of_nat 6) with 64 in R. lia. Qed.
Lemma y_u3 : yields (w_uint 3) is_u32.
Proof. intros i v o [R _]. unfold is_u32. change (2 ^ Z.of_nat 3) with 8 in R. lia. Qed.
Lemma y_u2 : yields (w_uint 2) is_u8.
Proof. intros i v o [R _]. unfold is_u8. change (2 ^ Z.of_nat 2) with 4 in R. lia. Qed.
Lemma y_b14 : yields (w_bounded 14) is_u32.
Proof. intros i v o [R _]. unfold is_u32. lia. Qed.

Lemma y_opt {A} (P : wire A) T : yields P T -> yields (w_opt P) (all_opt T).
Proof.
  intros H i v o (b & m & _ & K). destruct b; [destruct K as (x & Hx & ->); apply (H _ _ _ Hx)|].
  destruct K as [-> _]. exact I.
Qed.
Lemma y_when {A} c (P : wire A) T : yields P T -> yields (w_when c P) (all_opt T).
Proof.
  intros H i v o K. destruct c; [destruct K as (x & Hx & ->); apply (H _ _ _ Hx)|].
  destruct K as [-> _]. exact I.
Qed.
Lemma y_times {A} n (P : wire A) T : yields P T -> yields (w_times n P) (all_vec T).
Proof.
  intros H. induction n as [|n IH]; intros i v o K.
  - destruct K as [-> _]. constructor.
  - destruct K as (x & m & Hx & xs & m' & Hs & -> & _). constructor; [apply (H _ _ _ Hx)|apply (IH _ _ _ Hs)].
Qed.

Create HintDb yl.
#[local] Hint Resolve y_int32 y_int64 y_int8 y_u64 y_u32 y_u31 y_u24 y_u14 y_u11 y_u8 y_u6 y_u3 y_u2 y_b14
  y_opt y_when y_times : yl.

(** open a format *)
Ltac w_open := repeat match goal with
  | H : context [if ?b then _ else _] |- _ => destruct b
  | H : w_map _ _ _ _ _ |- _ => destruct H as (? & ? & ?)
  | H : w_bind _ _ _ _ _ |- _ => destruct H as (? & ? & ? & H)
  | H : w_ret _ _ _ _ |- _ => destruct H
  | H : w_none _ _ _ |- _ => destruct H
  end; subst.
(** the range of what was read *)
Ltac w_close := repeat match goal with |- _ /\ _ => split end; try exact I; try match goal with
  | H : ?P ?i ?v ?o |- ?T ?v =>
      let R := fresh in (assert (R : yields P T) by (solve [eauto with yl])); exact (R _ _ _ H)
  end.

Lemma y_vec3i net : yields (w_vec3i net) typed_vector3i.
Proof.
  intros i v o (s & m & [Rs _] & H). unfold w_component in H. w_open. unfold vec_bound in Rs.
  assert (C : forall x i o, w_uint (Z.to_nat (s + 2)) i x o -> is_i32 (x - 2 ^ (s + 1))).
  { intros x i' o' [R _]. rewrite Z2Nat.id in R by lia.
    assert (s <= 21) by (destruct (net <? 7); lia).
    assert (2 ^ (s + 2) <= 2 ^ 23) by (apply Z.pow_le_mono_r; lia).
    assert (0 < 2 ^ (s + 1) <= 2 ^ 22) by (split; [apply Z.pow_pos_nonneg; lia|apply Z.pow_le_mono_r; lia]).
    unfold is_i32. lia. }
  repeat split; eapply C; eauto.
Qed.
Lemma y_rotation : yields w_rotation typed_rotation.
Proof. intros i v o H. unfold w_rotation in H. w_open. cbn [typed_rotation]. w_close. Qed.
#[local] Hint Resolve y_vec3i y_rotation : yl.
Lemma y_trajectory sp net : yields (w_trajectory sp net) typed_trajectory.
Proof.
  intros i v o H. destruct sp; unfold w_trajectory in H; w_open; cbn [typed_trajectory all_opt]; w_close.
Qed.
Lemma y_active : yields w_active typed_active_actor.
Proof. intros i v o H. unfold w_active in H. w_open. cbn [typed_active_actor]. w_close. Qed.
Lemma y_explosion net : yields (w_explosion net) typed_explosion.
Proof. intros i v o H. unfold w_explosion in H. w_open. cbn [typed_explosion]. w_close. Qed.
Lemma y_loadout : yields w_loadout typed_loadout.
Proof. intros i v o H. unfold w_loadout, w_u32 in H. w_open. cbn [typed_loadout]. w_close. Qed.
Lemma y_product_value P obj : yields (w_product_value P obj) typed_product_value.
Proof.
  intros i v o H. unfold w_product_value in H. w_open; cbn [typed_product_value]; w_close.
  match goal with H : w_opt _ _ ?c _ |- _ => apply (y_opt _ _ y_u31) in H; destruct c; [exact H|exact I] end.
Qed.
#[local] Hint Resolve y_product_value : yl.
Lemma y_product P : yields (w_product P) typed_product.
Proof. intros i v o H. unfold w_product in H. w_open. cbn [typed_product]. w_close. Qed.
#[local] Hint Resolve y_product : yl.
Lemma y_online P : yields (w_online P) (all_vec (all_vec typed_product)).
Proof.
  intros i v o (n & m & _ & H). eapply (y_times _ _ _); [|exact H].
  intros i' v' o' (n' & m' & _ & H'). eapply y_times; [|exact H']. eauto with yl.
Qed.
Lemma y_remote net sys : yields (w_remote net sys) typed_remote_id.
Proof.
  intros i v o H. unfold w_remote in H.
  repeat match type of H with context [match ?x with _ => _ end] => destruct x end; w_open; cbn [typed_remote_id]; w_close.
Qed.
#[local] Hint Resolve y_active y_explosion y_loadout y_online y_remote : yl.
Lemma y_unique_tail net sys : is_u8 sys -> yields (w_unique_tail net sys) typed_unique_id.
Proof. intros S i v o H. unfold w_unique_tail in H. w_open. cbn [typed_unique_id]. split; [exact S|]. w_close. Qed.
Lemma y_unique net : yields (w_unique net) typed_unique_id.
Proof. intros i v o (sys & m & Hs & H). apply y_u8 in Hs. eapply y_unique_tail; eauto. Qed.
#[local] Hint Resolve y_unique : yl.

Lemma y_attribute D tag : yields (w_attribute D tag) typed_attribute.
Proof.
  intros i v o H. destruct tag; cbn [w_attribute] in H; unfold w_u32 in H; w_open; cbn [typed_attribute]; try exact I;
    cbn [typed_applied_damage typed_damage_state typed_club_colors typed_demolish typed_demolish_fx typed_demolish_extended
      typed_extended_explosion typed_team_loadout typed_music_stinger typed_pickup typed_pickup_new typed_welded
      typed_team_paint typed_reservation typed_private_match typed_loadouts_online typed_stat_event typed_rep_stat_title
      typed_pickup_info typed_impulse typed_replicated_boost typed_logo_data]; w_close.
  - unfold is_u8. lia.
  - unfold is_u8. lia.
  - cbn [all_opt]. match goal with H : w_uint 8 _ _ _ |- _ => apply y_u8 in H; eapply y_unique_tail; eauto end.
Qed.

(** ** Frames of an accepted file *)

Lemma env_channels h b e : env_of h b e -> e_max_channels e < 2 ^ 32.
Proof.
  intros (? & ? & ? & ? & ? & ? & ? & ? & ? & _ & _ & _ & _ & _ & _ & _ & _ & _ & ->). cbn [e_max_channels].
  apply Z.mod_pos_bound. lia.
Qed.

Lemma y_actor_id e : e_max_channels e < 2 ^ 32 -> yields (w_actor_id e) is_i32.
Proof.
  intros H i v o (x & [R _] & ->). unfold signed32, is_i32. destruct (Z.ltb_spec x (2 ^ 31)); lia.
Qed.

Lemma y_new e id : is_i32 id -> yields (w_new e id) typed_new_actor.
Proof.
  intros Hid i v o (name & i1 & b & i2 & obj & i3 & cls & sp & t & H1 & _ & H3 & _ & _ & H4 & ->).
  cbn [typed_new_actor]. split; [exact Hid|]. split; [eapply y_when; [exact y_int32|exact H1]|].
  split; [apply (y_int32 _ _ _ H3)|]. apply (y_trajectory _ _ _ _ _ H4).
Qed.

Lemma y_update e id cls : is_i32 id -> net_cache_ok (e_caches e) -> yields (w_update e id cls) typed_updated_attribute.
Proof.
  intros Hid CI i v o (bound & s & i1 & p & pname & tag & a & _ & _ & (ids & _ & Hf) & _ & _ & Ha & ->).
  assert (M : exists k, mention (e_caches e) s k p).
  { destruct Hf as (pre & k & post & _ & Hm & _). exists k. exact Hm. }
  destruct M as (k & bf & af & El & Es & _).
  assert (Hp : In p (listed (e_caches e) k)) by (rewrite El; apply in_or_app; right; left; reflexivity).
  apply in_flat_map in Hp as (c & Hc & Hp). apply filter_In in Hc as [Hc _].
  unfold net_cache_ok in CI. rewrite Forall_forall in CI. specialize (CI _ Hc). rewrite Forall_forall in CI.
  destruct (CI _ Hp) as [Ho Hs]. cbn [typed_updated_attribute].
  split; [exact Hid|]. split; [rewrite <- Es; exact Hs|]. split; [exact Ho|]. apply (y_attribute _ _ _ _ _ Ha).
Qed.

Lemma y_many {A} (P : wire A) T : yields P T -> yields (w_many P) (all_vec T).
Proof. intros H i v o K. induction K; constructor; eauto. Qed.

Definition typed_record (r : record) : Prop :=
  match r with
  | RNew a => typed_new_actor a
  | RDelete id => is_i32 id
  | RUpdate _ us => all_vec typed_updated_attribute us
  end.

Lemma y_record e h : e_max_channels e < 2 ^ 32 -> net_cache_ok (e_caches e) -> yields (w_record e h) typed_record.
Proof.
  intros Hm CI i r o (id & i1 & Hid & H). apply y_actor_id in Hid; [|exact Hm]. destruct r as [a|k|k us]; cbn [typed_record].
  - destruct H as (i2 & _ & H). eapply y_new; eauto.
  - destruct H as [-> _]. exact Hid.
  - destruct H as (-> & i2 & obj & cls & _ & _ & _ & H). eapply y_many; [|exact H]. apply y_update; assumption.
Qed.

Lemma y_records e h i rs o : e_max_channels e < 2 ^ 32 -> net_cache_ok (e_caches e) -> w_records e h i rs o ->
  Forall typed_record rs.
Proof. intros Hm CI H. induction H; constructor; auto. eapply y_record; eauto. Qed.

Lemma forall_flat {A C} (f : A -> list C) (P : A -> Prop) (Q : C -> Prop) l :
  (forall x, P x -> Forall Q (f x)) -> Forall P l -> Forall Q (flat_map f l).
Proof. intros H K. induction K; cbn [flat_map]; [constructor|]. apply Forall_app. auto. Qed.

Lemma typed_frame_of t d rs : Forall typed_record rs -> typed_frame (frame_of t d rs).
Proof.
  intros H. cbn [frame_of typed_frame].
  split; [|split]; (eapply forall_flat; [|exact H]); intros [a|k|k us] K; cbn [new_of deleted_of updated_of typed_record] in *;
    try solve [constructor]; try (constructor; [exact K|constructor]). exact K.
Qed.

Section Files.
Context (B : bitter) (HB : bitter_ok B) (ho : hash_order) (Hho : hash_order_ok ho).

Lemma frames_typed c n data r fs : lenZ data < 2 ^ 31 -> parse_with B ho c n data = Ok r -> r_network_frames r = Some fs ->
  Forall typed_frame fs.
Proof.
  intros L E Ef. apply Forall_forall. intros f Hin. apply in_split in Hin as (a & b & Es).
  destruct (frame_source B HB ho Hho c n data r fs L E Ef _ _ _ Es)
    as (h & bd & rest & e & xa & [[t d] rs] & xb & j & m & F & Er & He & _ & -> & _ & Hf & _).
  destruct Hf as (i1 & i2 & _ & _ & _ & _ & _ & Hr). apply typed_frame_of.
  pose proof (env_channels _ _ _ He) as Hm. pose proof (nr_caches _ _ (file_ready _ _ _ _ F)) as CI.
  eapply y_records; [exact Hm| |exact Hr].
  destruct He as (? & ? & ? & ? & ? & ? & ? & ? & ? & _ & _ & _ & _ & _ & _ & _ & _ & _ & ->). exact CI.
Qed.

End Files.
