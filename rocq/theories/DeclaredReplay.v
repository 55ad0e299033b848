(** * Proofs: replays, for [Debug] and in JSON, are as declared *)

From Coq Require Import ZArith List Bool String Lia.
From Verif Require Import Base F32 NetTypes Errors Core Header Body Attributes BitReader ObjectIndex Network Parser Json JsonNet JsonReplay Debug DebugNet DebugReplay
  SpecBasic SpecFacts SpecJson SpecFile SpecReplay SpecDeclared FileFacts ParseProofs CoreLogic JsonLogic JsonFacts SizeProofs DeclaredProofs.
Import ListNotations.
Open Scope Z_scope.

(** ** Header and body *)

(** what is read is as declared *)
Definition gives {A} (P : form A) (t : type) (d : A -> dbg) (ser : A -> json) : Prop := forall i v o, P i v o -> describes t (d v) (ser v).

Lemma g_i32 : gives f_i32 (Signed 32) DInt ser_i32.
Proof. intros i v o H. apply d_i32, (f_i32_range _ _ _ H). Qed.
Lemma g_list {A} (P : form A) t d ser : gives P t d ser -> gives (f_list P) (Many t) (dbg_vec d) (ser_vec ser).
Proof.
  intros HP i v o (n & m & _ & K). unfold f_counted in K. destruct (_ || _); [destruct K|]. constructor.
  revert m v o K. induction (Z.to_nat n) as [|k IH]; intros m v o K.
  - destruct K as [-> ->]. constructor.
  - destruct K as (x & m' & Hx & xs & m'' & Hxs & -> & ->). cbn [map]. constructor; [eapply HP; eauto|eapply IH; eauto].
Qed.
Lemma g_texts : gives (f_list f_text) (Many Text) (dbg_vec DStr) (ser_vec ser_str).
Proof. apply g_list. intros i v o _. constructor. Qed.

Ltac ranges := repeat match goal with
  | H : f_bind _ _ _ _ _ |- _ => destruct H as (? & ? & ? & H)
  | H : f_ret _ _ _ _ |- _ => destruct H as [-> ->]
  | H : f_i32 _ _ _ |- _ => apply f_i32_range in H
  end.
Lemma g_keyframe : gives f_keyframe (Named "KeyFrame") dbg_key_frame ser_key_frame.
Proof. intros i v o H. unfold f_keyframe in H. ranges. eapply de_struct; [apply is_declared; reflexivity|]. fill. Qed.
Lemma g_debug : gives f_debug (Named "DebugInfo") dbg_debug_info ser_debug_info.
Proof. intros i v o H. unfold f_debug in H. ranges. eapply de_struct; [apply is_declared; reflexivity|]. fill. Qed.
Lemma g_tickmark : gives f_tickmark (Named "TickMark") dbg_tick_mark ser_tick_mark.
Proof. intros i v o H. unfold f_tickmark in H. ranges. eapply de_struct; [apply is_declared; reflexivity|]. fill. Qed.
Lemma g_class_index : gives f_class_index (Named "ClassIndex") dbg_class_index ser_class_index.
Proof. intros i v o H. unfold f_class_index in H. ranges. eapply de_struct; [apply is_declared; reflexivity|]. fill. Qed.
Lemma g_cache_prop : gives f_cache_prop (Named "CacheProp") dbg_cache_prop ser_cache_prop.
Proof. intros i v o H. unfold f_cache_prop in H. ranges. eapply de_struct; [apply is_declared; reflexivity|]. fill. Qed.
Lemma g_net_cache : gives f_net_cache (Named "ClassNetCache") dbg_class_net_cache ser_class_net_cache.
Proof.
  intros i v o H. unfold f_net_cache in H. ranges.
  match goal with H : f_list _ _ _ _ |- _ => apply (g_list _ _ _ _ g_cache_prop) in H end.
  eapply de_struct; [apply is_declared; reflexivity|]. fill.
Qed.

Definition HP : type := Named "HeaderProp".
Definition entry_ok (a : dbg) (b : str * json) : Prop := exists d, a = DTuple [] [DStr (fst b); d] /\ describes HP d (snd b).
Ltac prop_value := eapply de_untagged; [apply is_declared; reflexivity|member|].
Ltac prop_fields := eapply de_untagged_fields; [apply is_declared; reflexivity|member|].
Lemma g_props_all q :
  (forall i ps o, f_props q i ps o -> describes (Entries HP) (dbg_props ps) (ser_props ps)) /\
  (forall k i v o, f_value q k i v o -> describes HP (dbg_header_prop v) (ser_header_prop v)) /\
  (forall n i rows o, f_rows q n i rows o -> Forall2 (describes (Entries HP)) (map dbg_props rows) (map ser_props rows)).
Proof.
  apply f_props_mut.
  - intros i o _. apply de_entries. constructor.
  - intros i key m1 kind m2 ign m3 v m4 rest o _ _ _ _ _ IHv _ IHp. inversion IHp as [| | | | | | | | | | | |t l m F| | | | | | |]; subst.
    apply de_entries. cbn [map]. constructor; [|exact F]. exists (dbg_header_prop v). split; [reflexivity|exact IHv].
  - intros i key m1 m2 ign m3 m4 b m5 rest o _ _ _ _ _ _ _ _ IHp. exact IHp.
  - intros i b l o _. prop_value. constructor.
  - intros i kind m v o _ _ _ _. prop_fields. apply df_cons; [constructor|]. apply df_cons; [|constructor]. apply de_some. constructor.
  - intros i kind o _ _. prop_fields. apply df_cons; [constructor|]. apply df_cons; [|constructor]. apply de_none.
  - intros i n m rows o _ _ _ IH. prop_value. apply de_many. exact IH.
  - intros i x o _. prop_value. apply d_f32.
  - intros i x o H. prop_value. apply d_i32, (f_i32_range _ _ _ H).
  - intros i x o H. prop_value. apply d_u64. destruct H as (l & _ & R & _). exact R.
  - intros i x o _. prop_value. constructor.
  - intros i x o _. prop_value. constructor.
  - intros i name m fields o _ _ IH. prop_fields. apply df_cons; [constructor|]. apply df_cons; [exact IH|constructor].
  - intros i. constructor.
  - intros n i r m rows o _ IHp _ IHr. cbn [map]. constructor; assumption.
Qed.
Lemma g_props q i v o : f_props q i v o -> describes (Entries HP) (dbg_props v) (ser_props v).
Proof. apply (g_props_all q). Qed.

(** ** Replays *)

Section Replay.
Context (B : bitter) (HB : bitter_ok B) (ho : hash_order) (Hho : hash_order_ok ho).

Lemma replay_declared c n data r : lenZ data < 2 ^ 31 -> parse_with B ho c n data = Ok r -> describes (Named "Replay") (dbg_replay r) (ser_replay r).
Proof.
  intros L E.
  assert (Q : describes (Optional (Named "NetworkFrames")) (dbg_opt dbg_network_frames (r_network_frames r))
    (ser_opt (fun fs => JObj [(lit "frames", ser_vec ser_frame fs)]) (r_network_frames r))).
  { destruct (r_network_frames r) as [fs|] eqn:Ef; cbn [dbg_opt ser_opt]; constructor.
    pose proof (proj1 (decoded_frames _ _ _ _ _ _ _ HB Hho L E Ef)) as T.
    eapply de_struct; [apply is_declared; reflexivity|]. apply df_cons; [|constructor]. eapply d_vec; [apply d_frame|exact T]. }
  destruct (parse_ok_file B ho _ _ _ _ L E) as (h & b & rest & (h' & o & Sh & b' & o' & Sb & [= -> ->] & ->) & Er).
  destruct Sh as (s1 & c1 & cov1 & m1 & x1 & (m1' & A1 & A2 & _) & A3 & ->).
  destruct Sb as (s2 & c2 & cov2 & m2 & x2 & (m2' & B1 & B2 & _) & B3 & ->).
  assert (C1 : is_u32 c1) by (destruct A2 as (? & _ & R & _); exact R).
  assert (C2 : is_u32 c2) by (destruct B2 as (? & _ & R & _); exact R).
  apply f_i32_range in A1, B1. clear A2 B2.
  rewrite Er. set (nf := r_network_frames r) in *. clearbody nf. clear Er E.
  unfold f_header in A3. unfold f_body in B3. ranges.
  repeat match goal with
  | H : f_list f_text _ _ _ |- _ => apply g_texts in H
  | H : f_list f_keyframe _ _ _ |- _ => apply (g_list _ _ _ _ g_keyframe) in H
  | H : f_list f_debug _ _ _ |- _ => apply (g_list _ _ _ _ g_debug) in H
  | H : f_list f_tickmark _ _ _ |- _ => apply (g_list _ _ _ _ g_tickmark) in H
  | H : f_list f_class_index _ _ _ |- _ => apply (g_list _ _ _ _ g_class_index) in H
  | H : f_list f_net_cache _ _ _ |- _ => apply (g_list _ _ _ _ g_net_cache) in H
  | H : f_props _ _ _ _ |- _ => apply g_props in H
  end.
  match goal with H : (if ?c then _ else _) ?a ?v ?b |- _ =>
    assert (describes (Optional (Signed 32)) (dbg_opt DInt v) (ser_opt ser_i32 v)) end.
  { match goal with H : (if ?c then _ else _) ?a ?v ?b |- _ => destruct c end.
    - match goal with H : f_such _ _ _ _ _ |- _ => destruct H as (? & H & ->) end. ranges. cbn [dbg_opt ser_opt]. apply de_some. now apply d_i32.
    - ranges. apply de_none. }
  eapply de_struct; [apply is_declared; reflexivity|].
  repeat (apply df_cons; [first [assumption | now apply d_i32 | now apply d_u32 | now constructor]|]). constructor.
Qed.
End Replay.
