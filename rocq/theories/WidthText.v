(** * The width of [usize]: error messages *)

From Coq Require Import ZArith List Bool Lia.
From Verif Require Import Base F32 Text NetTypes SegArray Errors Core Header Body BitReader
  NetModels Attributes Data ObjectIndex FrameDecoder Network Crc Parser Display SpecBasic SpecReplay SpecWidth Width
  WidthCore WidthNet WidthProofs.
Import ListNotations.
Open Scope Z_scope.
#[local] Opaque ATTRIBUTES.

Section Width.
Context (w : Z) (W : 32 <= w <= 64) (show_f32 : f32 -> str) (debug_attribute : attribute -> str).

Section Context_.
Context (c : frame_context) (C : ctx_fine c).

Lemma objects_w id : is_i32 id -> getZ (as_usize_w w id) (fc_objects (narrow_context w c)) = getZ (as_usize id) (fc_objects c).
Proof. intros H. destruct C. cbn [narrow_context fc_objects]. now rewrite (getZ_w w W). Qed.

Lemma ind_w id : is_i32 id -> object_ind_to_string_w w (narrow_context w c) id = object_ind_to_string c id.
Proof. intros H. unfold object_ind_to_string_w, object_ind_to_string. now rewrite objects_w. Qed.

Lemma new_w a : new_fine a -> display_new_actor_w w (narrow_context w c) a = display_new_actor c a.
Proof. intros H. unfold display_new_actor_w, display_new_actor. now rewrite ind_w. Qed.

Lemma update_w u : upd_fine u ->
  display_update_w w debug_attribute (narrow_context w c) u = display_update debug_attribute c u.
Proof.
  intros H. unfold display_update_w, display_update. rewrite (ind_w (u_object_id u)) by exact H.
  change (fc_actors (narrow_context w c)) with (fc_actors c).
  destruct (map_get (u_actor_id u) (fc_actors c)) as [obj|] eqn:E; [|reflexivity].
  destruct (map_get_forall _ _ _ _ (cf_actors c C) E) as [j Hj]. cbn [snd] in Hj. now rewrite (ind_w obj).
Qed.

Lemma last_forall {A} (P : A -> Prop) l x : Forall P l -> last_of l = Some x -> P x.
Proof.
  intros H E. unfold last_of in E. destruct (rev l) as [|y t] eqn:R; [discriminate|]. injection E as ->.
  apply Forall_rev in H. rewrite R in H. now inversion H.
Qed.

Lemma enumerate_forall {A} (P : A -> Prop) l : forall i, Forall P l -> Forall (fun p => P (snd p)) (enumerate i l).
Proof. induction l as [|x l IH]; intros i H; cbn [enumerate]; [constructor|]. inversion H; subst. constructor; auto. Qed.

Lemma display_context_w_eq :
  display_context_w w show_f32 debug_attribute (narrow_context w c) = display_context show_f32 debug_attribute c.
Proof.
  unfold display_context_w, display_context.
  change (fc_frames (narrow_context w c)) with (fc_frames c).
  change (fc_updated_actors (narrow_context w c)) with (fc_updated_actors c).
  change (fc_new_actors (narrow_context w c)) with (fc_new_actors c).
  change (most_recent_frame_with_data (narrow_context w c)) with (most_recent_frame_with_data c).
  cbv zeta. repeat match goal with |- say _ = say _ => f_equal | |- cons _ _ = cons _ _ => f_equal end.
  destruct (last_of (fc_updated_actors c)) as [u|] eqn:E1.
  { apply update_w. exact (last_forall _ _ _ (cf_updated c C) E1). }
  destruct (last_of (fc_new_actors c)) as [a|] eqn:E2.
  { apply new_w. exact (last_forall _ _ _ (cf_new c C) E2). }
  repeat match goal with |- say _ = say _ => f_equal | |- cons _ _ = cons _ _ => f_equal end.
  destruct (most_recent_frame_with_data c) as [[i f]|] eqn:E3; [|reflexivity].
  assert (Hf : frame_fine f).
  { unfold most_recent_frame_with_data in E3. apply find_some in E3 as [Hin _]. apply in_rev in Hin.
    pose proof (enumerate_forall frame_fine (fc_frames c) 0 (cf_frames c C)) as H. rewrite Forall_forall in H.
    exact (H _ Hin). }
  destruct Hf as [Hn Hu].
  repeat match goal with |- say _ = say _ => f_equal | |- cons _ _ = cons _ _ => f_equal end.
  destruct (last_of (f_updated_actors f)) as [u|] eqn:E4.
  { apply update_w. exact (last_forall _ _ _ Hu E4). }
  destruct (last_of (f_new_actors f)) as [a|] eqn:E5; [|reflexivity].
  apply new_w. exact (last_forall _ _ _ Hn E5).
Qed.

Lemma seg_get_narrow ci stream : cache_fine ci -> is_i32 stream ->
  seg_get_w w stream (ci_attributes (narrow_cache w ci)) = seg_get stream (ci_attributes ci).
Proof.
  intros H S. cbn [narrow_cache ci_attributes]. rewrite (narrow_attributes_eq w), (seg_get_w_map w W oid attr_ok) by assumption.
  destruct (seg_get stream (ci_attributes ci)); reflexivity.
Qed.

Lemma attribute_of_w_eq obj stream : is_i32 obj -> is_i32 stream ->
  attribute_of_w w (narrow_context w c) obj stream = attribute_of c obj stream /\
  match attribute_of c obj stream with Some a => attr_ok a | None => True end.
Proof.
  intros H S. destruct (cf_table c C) as [T1 T2]. unfold attribute_of_w, attribute_of, narrow_context. cbn [fc_object_attributes].
  rewrite (getZ_w w W) by (rewrite ?lenZ_map; assumption). rewrite map_getZ.
  destruct (getZ (as_usize obj) (fc_object_attributes c)) as [[ci|]|] eqn:E; cbn [option_map]; auto.
  assert (F : cache_fine ci) by exact (getZ_forall _ _ _ _ T1 E).
  split; [now apply seg_get_narrow|]. destruct (seg_get stream (ci_attributes ci)) eqn:G; [|exact Logic.I].
  exact (seg_get_ok _ _ _ _ F G).
Qed.

Lemma names_w stream : is_i32 stream -> names_with_stream_w w (narrow_context w c) stream = names_with_stream c stream.
Proof.
  intros S. destruct (cf_table c C) as [T1 _]. unfold names_with_stream_w, names_with_stream. do 2 f_equal.
  unfold narrow_context at 2. cbn [fc_object_attributes]. revert T1. generalize (fc_object_attributes c).
  induction 1 as [|[ci|] l Hx _ IH]; cbn [map filter_map option_map]; [reflexivity| |exact IH].
  rewrite seg_get_narrow by assumption. destruct (seg_get stream (ci_attributes ci)) as [a|] eqn:G; [|exact IH].
  cbn [filter_map]. rewrite objects_w by exact (seg_get_ok _ _ _ _ Hx G).
  destruct (getZ (as_usize (oa_object_id a)) (fc_objects c)); [now rewrite IH|exact IH].
Qed.

Lemma contextualize_attribute_w_eq obj stream : is_i32 obj -> is_i32 stream ->
  contextualize_attribute_w w (narrow_context w c) obj stream = contextualize_attribute c obj stream.
Proof.
  intros H S. unfold contextualize_attribute_w, contextualize_attribute, display_names_w, display_names.
  rewrite objects_w, names_w by assumption. destruct (attribute_of_w_eq obj stream H S) as [E A]. rewrite E.
  destruct (attribute_of c obj stream) as [a|]; [|reflexivity]. destruct (oa_attribute a); try reflexivity.
  now rewrite objects_w.
Qed.

Lemma contextualize_w_eq e : ferr_ok e -> contextualize_w w (narrow_context w c) e = contextualize c e.
Proof.
  intros H. destruct e; try reflexivity; cbn [contextualize_w contextualize ferr_ok] in *.
  - now rewrite objects_w.
  - destruct H. now apply contextualize_attribute_w_eq.
  - destruct H. now apply contextualize_attribute_w_eq.
Qed.

End Context_.

Lemma network_text e : net_fine e ->
  display_network_error_w w show_f32 debug_attribute (narrow_network_error w e) = display_network_error show_f32 debug_attribute e.
Proof.
  destruct e; try reflexivity. intros [H C]. cbn [narrow_network_error display_network_error_w display_network_error].
  rewrite display_context_w_eq, contextualize_w_eq by assumption. reflexivity.
Qed.

Lemma text_w e : efine net_fine e -> match list_size e with Some n => n < 2 ^ w | None => True end ->
  display_parse_error_w w show_f32 debug_attribute (narrow_error w e) = display_parse_error show_f32 debug_attribute e.
Proof.
  induction e; intros F L; cbn [narrow_error display_parse_error_w display_parse_error list_size efine] in *; try reflexivity.
  - rewrite IHe by assumption. reflexivity.
  - rewrite Z.mod_small by lia. reflexivity.
  - now apply network_text.
Qed.

Lemma message_same B ho c n data e : hash_order_ok ho -> lenZ data < 2 ^ 31 -> parse_with B ho c n data = Err e ->
  match list_size e with Some k => k < 2 ^ w | None => True end ->
  exists e', parse_with_w w B ho c n data = Err e' /\
    display_parse_error_w w show_f32 debug_attribute e' = display_parse_error show_f32 debug_attribute e.
Proof.
  intros Ho L E H. exists (narrow_error w e). rewrite (width_same w W B ho Ho c n data L), E. split; [reflexivity|].
  apply text_w; [|exact H]. exact (errors_fine w W B ho Ho c n data e L E).
Qed.

Lemma replay_same B ho c n data r : hash_order_ok ho -> lenZ data < 2 ^ 31 ->
  parse_with_w w B ho c n data = Ok r <-> parse_with B ho c n data = Ok r.
Proof.
  intros Ho L. rewrite (width_same w W B ho Ho c n data L). destruct (parse_with B ho c n data); cbn [narrow_result];
    split; congruence.
Qed.

End Width.

(** ** A file whose list of levels has a negative size *)

Definition negative_list : list byte :=
  [x00; x00; x00; x00] ++ [x00; x00; x00; x00] ++ (* header size and checksum *)
  [x00; x00; x00; x00] ++ [x00; x00; x00; x00] ++ (* version *)
  [x00; x00; x00; x00] ++ (* game type *)
  [x05; x00; x00; x00] ++ lit "None" ++ [x00] ++
  [x00; x00; x00; x00] ++ [x00; x00; x00; x00] ++ (* content size and checksum *)
  [xff; xff; xff; xff].
