(** * Facts: what is decoded and shown *)

From Coq Require Import ZArith List Bool Lia.
From Verif Require Import Base F32 NetTypes Errors Core Header Body BitReader Attributes ObjectIndex FrameDecoder Network Parser Json Wire Display Debug DebugNet
  SpecBasic SpecText SpecNet SpecFrames SpecSize SpecRange SpecJson SpecReplay SpecNan SpecDebug
  SpecReader BitLemmas ParseProofs SendProofs FloatBits DebugLogic DebugProofs DebugTextProofs DebugNetProofs.
Open Scope Z_scope.

(** ** Texts *)

Lemma short_utf8 s : short_text s -> valid_utf8 s.
Proof. intros (cs & U & _). now exists cs. Qed.
Lemma field_utf8 s : field_text s -> valid_utf8 s.
Proof. intros (cs & U & _). now exists cs. Qed.
Lemma local_utf8 s : local_name s -> valid_utf8 s.
Proof. intros (cs & U & _). now exists cs. Qed.
Lemma one_valid s : valid_utf8 s -> Forall valid_utf8 (one_text s).
Proof. intros. repeat constructor; auto. Qed.
Lemma unique_texts net u : unique_range net u -> Forall valid_utf8 (texts_unique_id u).
Proof.
  intros [H _]. destruct u as [sys r l]. cbn [texts_unique_id ui_system_id ui_remote_id] in *. destruct r; cbn [texts_remote_id remote_range] in *;
    first [apply Forall_nil | (apply one_valid; first [apply field_utf8; tauto | apply short_utf8; tauto])].
Qed.
Lemma name_texts u n : name_range u n -> Forall valid_utf8 (opt_texts one_text n).
Proof.
  destruct n as [s|]; [|constructor]. cbn [name_range opt_texts]. intros H. apply one_valid. destruct (_ =? 0); [now apply local_utf8|now apply short_utf8].
Qed.
Lemma product_texts P p : product_range P p -> Forall valid_utf8 (texts_product p).
Proof.
  intros [_ H]. destruct p as [u o v]. cbn [texts_product pr_value pr_object_ind] in *. unfold value_range in H. cbv zeta in H.
  destruct v; cbn [texts_product_value]; try apply Forall_nil; apply one_valid.
  repeat match goal with H : if ?b then _ else _ |- _ => destruct b end; try contradiction; try discriminate. now apply short_utf8.
Qed.
Lemma online_texts P l : online_range P l -> Forall valid_utf8 (vec_texts (vec_texts texts_product) l).
Proof.
  intros [_ H]. unfold vec_texts. rewrite Forall_flat_map. revert H. apply Forall_impl. intros ps [_ H]. rewrite Forall_flat_map.
  revert H. apply Forall_impl. apply product_texts.
Qed.
Lemma attribute_texts D tag a : attribute_range D tag a -> Forall valid_utf8 (texts_attribute a).
Proof.
  intros H. destruct a; cbn [texts_attribute]; try apply Forall_nil; destruct tag; cbn [attribute_range] in H; try contradiction.
  - now apply one_valid, short_utf8.
  - now apply one_valid, short_utf8.
  - now apply (unique_texts (v_net (ad_version D))).
  - destruct x. cbn in H. destruct H as (_ & H1 & H2 & _). apply Forall_app. split; [eapply unique_texts; exact H1|eapply name_texts; exact H2].
  - destruct x as [u|]; [|constructor]. cbn in H. eapply unique_texts; exact (proj2 H).
  - destruct x. cbn in H. destruct H as (H1 & _ & _ & H2 & H3). repeat (apply Forall_app; split); now apply one_valid, short_utf8.
  - eapply online_texts; exact H.
  - destruct x. cbn in H. destruct H as (H1 & H2). apply Forall_app. split; eapply online_texts; eassumption.
  - destruct x. cbn in H. now apply one_valid, short_utf8.
Qed.

Lemma frames_texts e : forall fs h, frames_range e h fs -> Forall valid_utf8 (flat_map texts_frame (map to_frame fs)).
Proof.
  assert (R : forall rs h, records_range e h rs ->
    Forall valid_utf8 (flat_map (fun r => match r with RUpdate _ us => vec_texts texts_updated_attribute us | _ => [] end) rs)).
  { induction rs as [|r rs IH]; intros h H; [constructor|]. destruct H as [H1 H2]. cbn [flat_map]. apply Forall_app. split; [|eapply IH; exact H2].
    destruct r as [a|id|id us]; try constructor. destruct H1 as (_ & obj & cls & _ & _ & F). unfold vec_texts. clear H2.
    induction F as [|u us Hu F IHu]; [constructor|]. cbn [flat_map]. apply Forall_app. split; [|exact IHu].
    destruct u. destruct Hu as (_ & bound & p & name & tag & _ & _ & _ & _ & _ & _ & Ha). eapply attribute_texts; exact Ha. }
  induction fs as [|[[t d] rs] fs IH]; intros h H; [constructor|]. destruct H as (Ht & Hd & _ & _ & _ & Hr & Hf).
  cbn [map flat_map]. apply Forall_app. split; [|eapply IH; exact Hf].
  cbn [to_frame frame_of texts_frame]. unfold vec_texts. rewrite flat_map_flat. apply R in Hr. unfold vec_texts in Hr.
  replace (flat_map _ rs) with (flat_map (fun r => match r with RUpdate _ us => flat_map texts_updated_attribute us | _ => [] end) rs); [exact Hr|].
  apply flat_map_ext. intros [a|id|id us]; reflexivity.
Qed.

(** ** Values *)

Lemma attribute_ok D tag a : attribute_range D tag a -> ok_dbg (dbg_attribute a).
Proof. intros H. apply ok_attribute; [eapply bits_attribute; exact H|eapply attribute_texts; exact H]. Qed.

Section Decoded.
Context (B : bitter) (HB : bitter_ok B).

Theorem attribute_shown shown D tag r a r' : reader_ok r -> decode_attribute B D tag r = (Ok a, r') ->
  literal (dbg_attribute a) (debug_text shown (dbg_attribute a)) /\ visible (debug_text shown (dbg_attribute a)).
Proof.
  intros R E. assert (L : literal (dbg_attribute a) (debug_text shown (dbg_attribute a))).
  { apply debug_literal. apply (attribute_ok D tag). exact (decoded_range B D tag r a r' HB R E). }
  split; [exact L|]. now apply (proj1 literal_visible (dbg_attribute a)).
Qed.

Theorem attribute_determined shown D tag r a r' D' tag' s b s' : reader_ok r -> reader_ok s ->
  decode_attribute B D tag r = (Ok a, r') -> decode_attribute B D' tag' s = (Ok b, s') ->
  debug_text shown (dbg_attribute a) = debug_text shown (dbg_attribute b) <-> one_nan_attribute a = one_nan_attribute b.
Proof.
  intros R R' E E'. rewrite debug_same.
  - rewrite <- !(nan_attribute _). split; [apply inj_attribute|congruence].
  - apply (attribute_ok D tag). exact (decoded_range B D tag r a r' HB R E).
  - apply (attribute_ok D' tag'). exact (decoded_range B D' tag' s b s' HB R' E').
Qed.

Context (ho : hash_order) (Hho : hash_order_ok ho).

Lemma frames_ok c n data r fs : lenZ data < 2 ^ 31 -> parse_with B ho c n data = Ok r -> r_network_frames r = Some fs -> Forall (fun f => ok_dbg (dbg_frame f)) fs.
Proof.
  intros L E Ef. destruct (frames_in_range B HB ho Hho _ _ _ _ _ L E Ef) as (h & b & rest & e & xs & _ & _ & -> & R).
  pose proof (bits_frames _ _ _ R) as Fl. pose proof (frames_texts _ _ _ R) as Tx. rewrite Forall_flat_map in Fl, Tx. rewrite Forall_forall in *.
  intros f Hf. apply ok_frame; auto.
Qed.

Theorem frames_shown shown c n data r fs f : lenZ data < 2 ^ 31 -> parse_with B ho c n data = Ok r -> r_network_frames r = Some fs -> In f fs ->
  literal (dbg_frame f) (debug_text shown (dbg_frame f)) /\ visible (debug_text shown (dbg_frame f)).
Proof.
  intros L E Ef Hf. pose proof (frames_ok _ _ _ _ _ L E Ef) as O. rewrite Forall_forall in O.
  assert (K : literal (dbg_frame f) (debug_text shown (dbg_frame f))) by (apply debug_literal; auto).
  split; [exact K|]. now apply (proj1 literal_visible (dbg_frame f)).
Qed.

Theorem frames_determined shown c n data r fs f c' n' data' r' fs' f' : lenZ data < 2 ^ 31 -> lenZ data' < 2 ^ 31 ->
  parse_with B ho c n data = Ok r -> parse_with B ho c' n' data' = Ok r' ->
  r_network_frames r = Some fs -> r_network_frames r' = Some fs' -> In f fs -> In f' fs' ->
  debug_text shown (dbg_frame f) = debug_text shown (dbg_frame f') <-> one_nan_frame f = one_nan_frame f'.
Proof.
  intros L L' E E' Ef Ef' Hf Hf'. pose proof (frames_ok _ _ _ _ _ L E Ef) as O. pose proof (frames_ok _ _ _ _ _ L' E' Ef') as O'. rewrite Forall_forall in O, O'.
  rewrite debug_same by auto. rewrite <- !(nan_frame _). split; [apply inj_frame|congruence].
Qed.
End Decoded.

(** ** Where a new actor is: the texts of Display.v *)

Lemma show_int x : Z.abs x < 2 ^ 31 -> show x = JsonText.int_text x.
Proof.
  intros H. assert (2 ^ 31 < 10 ^ 20) by reflexivity.
  apply (DisplayUnique.decimal_fun x); [apply JsonLogic.display_decimal; lia|apply NumberTextProofs.int_text_decimal].
Qed.
Lemma location_shown shown v : Forall (fun x => Z.abs x < 2 ^ 31) [v3i_x v; v3i_y v; v3i_z v] ->
  debug_location (Some v) = debug_text shown (dbg_opt dbg_vector3i (Some v)).
Proof.
  intros H. rewrite !Forall_cons_iff in H. destruct H as (Hx & Hy & Hz & _). unfold debug_location. rewrite !show_int by assumption.
  destruct v as [x y z]. cbn -[JsonText.int_text]. repeat (rewrite <- ?app_assoc; cbn [app]). reflexivity.
Qed.
Lemma opt_shown shown o : if_any (fun x => Z.abs x < 2 ^ 31) o -> debug_opt_i8 o = debug_text shown (dbg_opt DInt o).
Proof.
  destruct o as [x|]; [|reflexivity]. cbn [if_any]. intros H. unfold debug_opt_i8. rewrite show_int by assumption. reflexivity.
Qed.
Lemma rotation_shown shown r : if_any (fun x => Z.abs x < 2 ^ 31) (r_yaw r) -> if_any (fun x => Z.abs x < 2 ^ 31) (r_pitch r) ->
  if_any (fun x => Z.abs x < 2 ^ 31) (r_roll r) -> debug_rotation (Some r) = debug_text shown (dbg_opt dbg_rotation (Some r)).
Proof.
  intros H1 H2 H3. unfold debug_rotation. rewrite !(opt_shown shown) by assumption. destruct r as [y p r]. cbn [r_yaw r_pitch r_roll].
  cbn [dbg_opt dbg_rotation]. set (a := dbg_opt DInt y). set (b := dbg_opt DInt p). set (c := dbg_opt DInt r).
  clearbody a b c. cbn. repeat (rewrite <- ?app_assoc; cbn [app]). reflexivity.
Qed.
