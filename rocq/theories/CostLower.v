(** * Proofs: there are at least as many operations as frames and records in them *)

From Coq Require Import ZArith List Bool Lia.
From Verif Require Import Base F32 Text NetTypes SegArray Errors Header Body BitReader NetModels Attributes Data ObjectIndex
  FrameDecoder Network BitLemmas SpecCost Cost CostNet CostBound.
Open Scope Z_scope.

(** [grows mu m w]: what is still to be paid for, [mu], does not grow faster than the counter. *)
Definition grows {S E A} (mu : S -> Z) (m : comp (counted S) E A) (w : A -> Z) : Prop :=
  forall s k, let '(o, (s', k')) := m (s, k) in
    match o with Ok v => k - mu s + w v <= k' - mu s' | _ => k - mu s <= k' - mu s' end.
Notation up mu m := (grows mu m (fun _ => 0)).

Section Grow.
Context {S : Type} (mu : S -> Z).
Lemma up_ret E A (v : A) : grows (E := E) mu (ret v) (fun _ => 0).
Proof. intros s k. cbn. lia. Qed.
Lemma up_fail E A (e : E) : grows (A := A) mu (fail e) (fun _ => 0).
Proof. intros s k. cbn. lia. Qed.
Lemma up_panics E A p : grows (E := E) (A := A) mu (panics p) (fun _ => 0).
Proof. intros s k. cbn. lia. Qed.
Lemma up_bind E A C (m : comp (counted S) E A) (f : A -> comp (counted S) E C) w :
  (forall v, 0 <= w v) -> up mu m -> (forall v, grows mu (f v) w) -> grows mu (bind m f) w.
Proof.
  intros W M K s k. specialize (M s k). unfold bind. destruct (m (s, k)) as [[v|e|p] [s1 k1]]; [|exact M..].
  specialize (K v s1 k1). destruct (f v (s1, k1)) as [[x|e|p] [s2 k2]]; lia.
Qed.
Lemma up_fmap E A C (f : A -> C) (m : comp (counted S) E A) w : grows mu m (fun v => w (f v)) -> grows mu (fmap f m) w.
Proof. intros M s k. specialize (M s k). unfold fmap, bind. destruct (m (s, k)) as [[v|e|p] [s1 k1]]; exact M. Qed.
Lemma up_map_err E F A (f : counted S -> E -> F) (m : comp (counted S) E A) w : grows mu m w -> grows mu (map_err f m) w.
Proof. intros M s k. specialize (M s k). unfold map_err. destruct (m (s, k)) as [[v|e|p] [s1 k1]]; exact M. Qed.
Lemma up_ok_or E A (e : E) (m : comp (counted S) unit A) : up mu m -> up mu (ok_or e m).
Proof. apply up_map_err. Qed.
Lemma up_to_option E A (m : comp (counted S) E A) : up mu m -> up mu (to_option m).
Proof. apply up_map_err. Qed.
Lemma up_attempt E A (m : comp (counted S) unit A) : up mu m -> grows (E := E) mu (attempt m) (fun _ => 0).
Proof. intros M s k. specialize (M s k). unfold attempt. destruct (m (s, k)) as [[v|e|p] [s1 k1]]; lia. Qed.
Lemma up_need E A (e : E) (o : option A) : up mu (need e o).
Proof. destruct o; [apply up_ret|apply up_fail]. Qed.
Lemma up_op E A n (m : comp S E A) : (forall s, mu (snd (m s)) <= mu s + n) -> up mu (op n m).
Proof. intros H s k. unfold op. cbn [fst snd]. specialize (H s). destruct (m s) as [[v|e|p] s1]; cbn [snd] in H; lia. Qed.
End Grow.

(** Nothing is pushed by the bit reader. *)
Definition zero {S : Type} : S -> Z := fun _ => 0.

Lemma up_read_bytes B n : up zero (read_bytes_c B n).
Proof. intros s k. apply up_op. intros r. unfold zero. pose proof (lenZ_nonneg (buf (fst (s, k)))). lia. Qed.
Lemma up_buf_slice E n : grows (E := E) zero (buf_slice_c n) (fun _ => 0).
Proof. intros s k. apply up_op. intros r. unfold zero. pose proof (lenZ_nonneg (buf (fst (s, k)))). lia. Qed.

Ltac up_head t := lazymatch t with ?f _ => up_head f | _ => t end.
Ltac up_go :=
  lazymatch goal with
  | |- grows _ (if ?c then _ else _) _ => destruct c; up_go
  | |- grows _ (match ?c with _ => _ end) _ => destruct c; up_go
  | |- grows _ (bind _ _) _ => apply up_bind; [intros _; apply Z.le_refl|up_go|intros ?; up_go]
  | |- grows _ (fmap _ _) _ => apply up_fmap; cbv beta; up_go
  | |- grows _ (ret _) _ => apply up_ret
  | |- grows _ (fail _) _ => apply up_fail
  | |- grows _ (panics _) _ => apply up_panics
  | |- grows _ (ok_or _ _) _ => apply up_ok_or; up_go
  | |- grows _ (to_option _) _ => apply up_to_option; up_go
  | |- grows _ (attempt _) _ => apply up_attempt; up_go
  | |- grows _ (map_err _ _) _ => apply up_map_err; up_go
  | |- grows _ (need _ _) _ => apply up_need
  | |- grows _ (op _ _) _ => apply up_op; intros; unfold zero; lia
  | |- _ => solve [auto 2 with up nocore] || up_step
  end
with up_step :=
  lazymatch goal with |- grows _ ?a _ => let f := up_head a in unfold f; cbv beta zeta; up_go end.
Create HintDb up.
#[export] Hint Resolve up_read_bytes up_buf_slice : up.

Section Attr.
Context (B : bitter).
Lemma up_vector v : up zero (vector3i_decode_c B v).
Proof. up_go. Qed.
Lemma up_vector_f v : up zero (vector3f_decode_c B v).
Proof. pose proof up_vector. up_go. Qed.
Lemma up_quat : up zero (quat_decode_c B).
Proof. up_go. Qed.
Lemma up_rotation : up zero (rotation_decode_c B).
Proof. up_go. Qed.
Lemma up_text : up zero (decode_text_c B).
Proof. up_go. Qed.
End Attr.
#[export] Hint Resolve up_vector up_vector_f up_quat up_rotation up_text : up.

Lemma up_repeat E A n (f : rd_c E A) : up zero f -> up zero (rd_repeat_c n f).
Proof. intros H. induction n as [|n IH]; cbn [rd_repeat_c]; up_go. Qed.

Section Decoder.
Context (B : bitter) (D : attribute_decoder).
Lemma up_product : up zero (decode_product_c B D).
Proof. up_go. Qed.
Lemma up_products : up zero (inner_decode_online_loadout_c B D).
Proof.
  unfold inner_decode_online_loadout_c. apply up_bind; [intros _; apply Z.le_refl|up_go|]. intros n.
  apply up_repeat. apply up_bind; [intros _; apply Z.le_refl|up_go|]. intros k. apply up_repeat. apply up_product.
Qed.
Lemma up_unique v s : up zero (decode_unique_id_with_system_id_c B v s).
Proof. up_go. Qed.
Lemma up_unique_id v : up zero (decode_unique_id_c B v).
Proof. pose proof up_unique. up_go. Qed.
Lemma up_name fuel : forall s, up zero (reservation_name_c B fuel s).
Proof. induction fuel as [|fuel IH]; intros s; cbn [reservation_name_c]; up_go. Qed.
End Decoder.
#[export] Hint Resolve up_product up_products up_unique up_unique_id up_name : up.

Lemma up_attribute B D t : up zero (decode_attribute_c B D t).
Proof. destruct t; cbn [decode_attribute_c]; up_go. Qed.

(** ** Frames *)

Definition unpaid (s : fstate) : Z := lenZ (fs_new s) + lenZ (fs_deleted s) + lenZ (fs_updated s).

Lemma up_on_reader E A (m : rd_c E A) : up zero m -> up unpaid (on_reader_c m).
Proof.
  intros M s k. unfold on_reader_c. cbn [fst snd]. specialize (M (fs_r s) k). unfold zero in M.
  destruct (m (fs_r s, k)) as [[v|e|p] [r k1]]; unfold unpaid; cbn [set_r fs_new fs_deleted fs_updated]; lia.
Qed.
Lemma up_f_not_enough A w (m : rd_c unit A) : up zero m -> up unpaid (f_not_enough_c w m).
Proof. intros M. apply up_on_reader, up_ok_or, M. Qed.
#[export] Hint Resolve up_attribute : up.

Ltac un := unfold unpaid; cbn [fst snd fs_new fs_deleted fs_updated]; rewrite ?lenZ_app; unfold lenZ; cbn [length]; lia.
Lemma up_insert k v : up unpaid (actors_insert_c k v).
Proof. apply up_op. intros s. unfold actors_insert. un. Qed.
Lemma up_delete k : up unpaid (actors_delete_c k).
Proof. apply up_op. intros s. unfold actors_delete. un. Qed.
Lemma up_get k : up unpaid (actors_get_c k).
Proof. apply up_op. intros s. unfold actors_get. un. Qed.
Lemma up_push_new a : up unpaid (push_new_c a).
Proof. apply up_op. intros s. unfold push_new. un. Qed.
Lemma up_push_deleted a : up unpaid (push_deleted_c a).
Proof. apply up_op. intros s. unfold push_deleted. un. Qed.
Lemma up_push_updated a : up unpaid (push_updated_c a).
Proof. apply up_op. intros s. unfold push_updated. un. Qed.
Lemma up_finish t d : grows unpaid (finish_frame_c t d) frame_size.
Proof.
  intros s k. unfold finish_frame_c, op, finish_frame, unpaid, frame_size.
  cbn [fst snd fs_new fs_deleted fs_updated f_new_actors f_deleted_actors f_updated_actors]. unfold lenZ at 7 8 9. cbn [length]. lia.
Qed.
#[export] Hint Resolve up_insert up_delete up_get up_push_new up_push_deleted up_push_updated : up.

Section Frames.
Context (B : bitter) (ho : hash_order) (F : frame_decoder).

Ltac fu :=
  lazymatch goal with
  | |- grows _ (on_reader_c _) _ => apply up_on_reader; up_go
  | |- grows _ (f_not_enough_c _ _) _ => apply up_f_not_enough; up_go
  | |- grows _ (bind _ _) _ => apply up_bind; [intros _; apply Z.le_refl|fu|intros ?; fu]
  | |- grows _ (fmap _ _) _ => apply up_fmap; cbv beta; fu
  | |- grows _ (map_err _ _) _ => apply up_map_err; fu
  | |- grows _ (if ?c then _ else _) _ => destruct c; fu
  | |- _ => first [assumption|solve [auto 2 with up]|up_go]
  end.

Lemma up_new id : up unpaid (parse_new_actor_c B F id).
Proof. unfold parse_new_actor_c. fu. Qed.
Lemma up_attributes fuel id o ci : up unpaid (attributes_loop_c B F fuel id o ci).
Proof. induction fuel as [|fuel IH]; cbn [attributes_loop_c]; [up_go|]. fu. Qed.
Lemma up_actors afuel fuel : up unpaid (actors_loop_c B F afuel fuel).
Proof.
  pose proof up_new. pose proof up_attributes. induction fuel as [|fuel IH]; cbn [actors_loop_c]; [up_go|]. fu.
Qed.

Definition weight (o : option frame) : Z := match o with Some f => frame_size f | None => 0 end.
Lemma weight_nonneg o : 0 <= weight o.
Proof. destruct o as [f|]; cbn [weight]; [|lia]. unfold frame_size, lenZ. lia. Qed.
Lemma up_frame fuel : grows unpaid (decode_frame_c B F fuel) weight.
Proof.
  unfold decode_frame_c. apply up_bind; [apply weight_nonneg|fu|]. intros t.
  destruct (out_of_range t); [intros s k; cbn; lia|].
  apply up_bind; [apply weight_nonneg|fu|]. intros d. destruct (out_of_range d); [intros s k; cbn; lia|].
  destruct (_ && _); [intros s k; cbn; lia|].
  apply up_bind; [apply weight_nonneg|apply up_actors|]. intros _. apply up_fmap. apply up_finish.
Qed.

Lemma frames_size_app a b : frames_size (a ++ b) = frames_size a + frames_size b.
Proof. induction a as [|f a IH]; cbn [frames_size app]; lia. Qed.

Lemma frames_up fuel n : forall acc s k fs, fst (frames_loop_c B ho F fuel n acc (s, k)) = Ok fs ->
  frames_size acc <= k - unpaid s -> frames_size fs <= snd (frames_loop_c B ho F fuel n acc (s, k)).
Proof.
  assert (P : forall s, 0 <= unpaid s) by (intros s; unfold unpaid, lenZ; lia).
  assert (R : forall l, frames_size (rev l) = frames_size l).
  { induction l as [|f l IH]; [reflexivity|]. cbn [rev frames_size]. rewrite frames_size_app. cbn [frames_size]. lia. }
  induction n as [|n IH]; intros acc s k fs H L; cbn [frames_loop_c fst snd] in *.
  { injection H as <-. rewrite R. specialize (P s). lia. }
  destruct (is_empty (fs_r s)); [cbn [fst snd] in *; injection H as <-; rewrite R; specialize (P s); lia|].
  pose proof (up_frame fuel s k) as U.
  destruct (decode_frame_c B F fuel (s, k)) as [[[f|]|e|p] [s1 k1]]; cbn [fst snd weight] in *; try discriminate H.
  - apply IH; [exact H|]. cbn [frames_size]. lia.
  - injection H as <-. rewrite R. specialize (P s1). lia.
Qed.
Lemma frames_least fuel n : forall acc s k, 0 <= k - unpaid s -> 0 <= snd (frames_loop_c B ho F fuel n acc (s, k)).
Proof.
  assert (P : forall s, 0 <= unpaid s) by (intros s; unfold unpaid, lenZ; lia).
  induction n as [|n IH]; intros acc s k L; cbn [frames_loop_c fst snd]; [specialize (P s); lia|].
  destruct (is_empty (fs_r s)); [specialize (P s); cbn [snd]; lia|].
  pose proof (up_frame fuel s k) as U.
  destruct (decode_frame_c B F fuel (s, k)) as [[o|e|p] [s1 k1]]; [pose proof (weight_nonneg o); destruct o as [f|]|..];
    cbn [fst snd]; specialize (P s1); [apply IH|..]; lia.
Qed.
End Frames.

Theorem network_least B ho h b : 0 <= snd (network_parse_frames_c B ho h b).
Proof.
  unfold network_parse_frames_c. cbv zeta.
  destruct (compute_spawns _ _) as [sp|e|p]; cbn [snd]; try lia.
  destruct (compute_caches _ _ _ _) as [ca|e|p]; cbn [snd]; try lia.
  destruct (num_frames h) as [n|]; cbn [snd]; [|lia]. destruct (_ <? _); cbn [snd]; [lia|]. now apply frames_least.
Qed.
Theorem network_up B ho h b fs : fst (network_parse_frames_c B ho h b) = Ok fs ->
  frames_size fs <= snd (network_parse_frames_c B ho h b).
Proof.
  unfold network_parse_frames_c. cbv zeta.
  destruct (compute_spawns _ _) as [sp|e|p]; cbn [fst snd]; try discriminate.
  destruct (compute_caches _ _ _ _) as [ca|e|p]; cbn [fst snd]; try discriminate.
  destruct (num_frames h) as [n|]; cbn [fst snd]; [|intros [= <-]; reflexivity].
  destruct (_ <? _); cbn [fst snd]; [discriminate|]. intros H. apply frames_up; [exact H|]. reflexivity.
Qed.
