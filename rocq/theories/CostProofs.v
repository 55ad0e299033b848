(** * Proofs: without the counter the copies are the originals *)

From Coq Require Import ZArith List Bool.
From Verif Require Import Base F32 Text NetTypes SegArray Errors BitReader NetModels Attributes Data ObjectIndex FrameDecoder Cost.
Open Scope Z_scope.

Definition erases {S E A} (m' : comp (counted S) E A) (m : comp S E A) : Prop :=
  forall s n, exists n', m' (s, n) = (fst (m s), (snd (m s), n')).

Section Erase.
Context {S : Type}.
Implicit Types E A : Type.

Lemma er_op E A k (m : comp S E A) : erases (op k m) m.
Proof. intros s n. unfold op. cbn [fst snd]. destruct (m s) as [o s']. eexists. reflexivity. Qed.
Lemma er_ret E A (a : A) : erases (S := S) (E := E) (ret a) (ret a).
Proof. intros s n. eexists. reflexivity. Qed.
Lemma er_fail E A (e : E) : erases (S := S) (A := A) (fail e) (fail e).
Proof. intros s n. eexists. reflexivity. Qed.
Lemma er_panics E A p : erases (S := S) (E := E) (A := A) (panics p) (panics p).
Proof. intros s n. eexists. reflexivity. Qed.
Lemma er_bind E A C (m' : comp (counted S) E A) (m : comp S E A) (k' : A -> comp (counted S) E C) k :
  erases m' m -> (forall a, erases (k' a) (k a)) -> erases (bind m' k') (bind m k).
Proof.
  intros M K s n. unfold bind. destruct (M s n) as [n1 ->]. destruct (m s) as [[a|e|p] s1]; cbn [fst snd].
  - apply K.
  - eexists. reflexivity.
  - eexists. reflexivity.
Qed.
Lemma er_fmap E A C (f : A -> C) (m' : comp (counted S) E A) m : erases m' m -> erases (fmap f m') (fmap f m).
Proof. intros M. apply er_bind; [exact M|]. intros a. apply er_ret. Qed.
Lemma er_map_err E F A (f' : counted S -> E -> F) (f : S -> E -> F) (m' : comp (counted S) E A) m :
  (forall s e, f' s e = f (fst s) e) -> erases m' m -> erases (map_err f' m') (map_err f m).
Proof.
  intros Hf M s n. unfold map_err. destruct (M s n) as [n1 ->]. destruct (m s) as [[a|e|p] s1]; cbn [fst snd]; eexists; try reflexivity.
  now rewrite Hf.
Qed.
Lemma er_ok_or E A (e : E) (m' : comp (counted S) unit A) m : erases m' m -> erases (ok_or e m') (ok_or e m).
Proof. now apply er_map_err. Qed.
Lemma er_to_option E A (m' : comp (counted S) E A) m : erases m' m -> erases (to_option m') (to_option m).
Proof. now apply er_map_err. Qed.
Lemma er_attempt E A (m' : comp (counted S) unit A) m : erases m' m -> erases (E := E) (attempt m') (attempt m).
Proof.
  intros M s n. unfold attempt. destruct (M s n) as [n1 ->]. destruct (m s) as [[a|e|p] s1]; cbn [fst snd]; eexists; reflexivity.
Qed.
End Erase.

Lemma er_read_bytes B n : erases (read_bytes_c B n) (read_bytes B n).
Proof. intros s k. apply er_op. Qed.
Lemma er_buf_slice E n : erases (E := E) (buf_slice_c n) (buf_slice n).
Proof. intros s k. apply er_op. Qed.

Ltac er_head t := lazymatch t with ?f _ => er_head f | _ => t end.
Ltac er :=
  lazymatch goal with
  | |- erases (if ?c then _ else _) _ => destruct c; er
  | |- erases (match ?c with _ => _ end) _ => destruct c; er
  | |- erases (bind _ _) _ => apply er_bind; [er|intros ?; er]
  | |- erases (fmap _ _) _ => apply er_fmap; er
  | |- erases (ret _) _ => apply er_ret
  | |- erases (fail _) _ => apply er_fail
  | |- erases (panics _) _ => apply er_panics
  | |- erases (ok_or _ _) _ => apply er_ok_or; er
  | |- erases (to_option _) _ => apply er_to_option; er
  | |- erases (attempt _) _ => apply er_attempt; er
  | |- erases (map_err _ _) _ => apply er_map_err; [reflexivity|er]
  | |- erases (op _ _) _ => apply er_op
  | |- _ => solve [auto 2 with er nocore] || er_step
  end
with er_step :=
  lazymatch goal with
  | |- erases ?a ?b =>
      let f := er_head a in let g := er_head b in
      tryif constr_eq f g then unfold f else (unfold f; try unfold g); cbv beta zeta; er
  end.
Create HintDb er.
#[export] Hint Resolve er_read_bytes er_buf_slice : er.

Section Attr.
Context (B : bitter).

Lemma er_vector v : erases (vector3i_decode_c B v) (vector3i_decode B v).
Proof. er. Qed.
Lemma er_vector_f v : erases (vector3f_decode_c B v) (vector3f_decode B v).
Proof. pose proof er_vector. er. Qed.
Lemma er_quat : erases (quat_decode_c B) (quat_decode B).
Proof. er. Qed.
Lemma er_rotation : erases (rotation_decode_c B) (rotation_decode B).
Proof. er. Qed.
Lemma er_text : erases (decode_text_c B) (decode_text B).
Proof. er. Qed.
End Attr.
#[export] Hint Resolve er_vector er_vector_f er_quat er_rotation er_text : er.

Lemma er_repeat E A n (f' : rd_c E A) (f : rd E A) : erases f' f -> erases (rd_repeat_c n f') (rd_repeat n f).
Proof. intros H. induction n as [|n IH]; cbn [rd_repeat_c rd_repeat]; er. Qed.

Section Decoder.
Context (B : bitter) (D : attribute_decoder).

Lemma er_product : erases (decode_product_c B D) (decode_product B D).
Proof. er. Qed.
Lemma er_products : erases (inner_decode_online_loadout_c B D) (inner_decode_online_loadout B D).
Proof.
  unfold inner_decode_online_loadout_c, inner_decode_online_loadout. apply er_bind; [er|]. intros n.
  apply er_repeat. apply er_bind; [er|]. intros k. apply er_repeat. apply er_product.
Qed.
Lemma er_unique v s : erases (decode_unique_id_with_system_id_c B v s) (decode_unique_id_with_system_id B v s).
Proof. er. Qed.
Lemma er_unique_id v : erases (decode_unique_id_c B v) (decode_unique_id B v).
Proof. pose proof er_unique. er. Qed.
Lemma er_name fuel : forall s, erases (reservation_name_c B fuel s) (reservation_name B fuel s).
Proof. induction fuel as [|fuel IH]; intros s; cbn [reservation_name_c reservation_name]; er. Qed.
End Decoder.
#[export] Hint Resolve er_product er_products er_unique er_unique_id er_name : er.

Lemma er_attribute B D t : erases (decode_attribute_c B D t) (decode_attribute B D t).
Proof. destruct t; cbn [decode_attribute_c decode_attribute]; er. Qed.

Lemma er_on_reader E A (m' : rd_c E A) (m : rd E A) : erases m' m -> erases (on_reader_c m') (on_reader m).
Proof.
  intros M s n. unfold on_reader_c, on_reader. cbn [fst snd]. destruct (M (fs_r s) n) as [n1 ->].
  destruct (m (fs_r s)) as [o r]. eexists. reflexivity.
Qed.
Lemma er_f_not_enough A w (m' : rd_c unit A) m : erases m' m -> erases (f_not_enough_c w m') (f_not_enough w m).
Proof. intros M. apply er_on_reader, er_ok_or, M. Qed.
Lemma er_need S E A (e : E) (o : option A) : erases (S := S) (need e o) (need e o).
Proof. destruct o; [apply er_ret|apply er_fail]. Qed.
#[export] Hint Resolve er_attribute er_on_reader er_f_not_enough er_need : er.

Section Frames.
Context (B : bitter) (ho : hash_order) (F : frame_decoder).

Ltac fr :=
  lazymatch goal with
  | |- erases (on_reader_c _) _ => apply er_on_reader; er
  | |- erases (f_not_enough_c _ _) _ => apply er_f_not_enough; er
  | |- erases (need _ _) _ => apply er_need
  | |- erases (bind _ _) _ => apply er_bind; [fr|intros ?; fr]
  | |- erases (fmap _ _) _ => apply er_fmap; fr
  | |- erases (map_err _ _) _ => apply er_map_err; [reflexivity|fr]
  | |- erases (if ?c then _ else _) _ => destruct c; fr
  | |- _ => first [assumption|er]
  end.

Lemma er_new id : erases (parse_new_actor_c B F id) (parse_new_actor B F id).
Proof. unfold parse_new_actor_c, parse_new_actor. fr. Qed.
Lemma er_attributes fuel id o ci : erases (attributes_loop_c B F fuel id o ci) (attributes_loop B F fuel id o ci).
Proof. induction fuel as [|fuel IH]; cbn [attributes_loop_c attributes_loop]; [er|]. fr. Qed.
Lemma er_actors afuel fuel : erases (actors_loop_c B F afuel fuel) (actors_loop B F afuel fuel).
Proof.
  pose proof er_new. pose proof er_attributes. induction fuel as [|fuel IH]; cbn [actors_loop_c actors_loop]; [er|]. fr.
Qed.
Lemma er_frame fuel : erases (decode_frame_c B F fuel) (decode_frame B F fuel).
Proof. pose proof er_actors. unfold decode_frame_c, decode_frame. fr. Qed.

Lemma er_frames fuel n : forall acc s k, fst (frames_loop_c B ho F fuel n acc (s, k)) = frames_loop B ho F fuel n acc s.
Proof.
  induction n as [|n IH]; intros acc s k; [reflexivity|]. cbn [frames_loop_c frames_loop fst snd].
  destruct (is_empty (fs_r s)); [reflexivity|]. destruct (er_frame fuel s k) as [k1 ->].
  destruct (decode_frame B F fuel s) as [[[f|]|e|p] s1]; cbn [fst snd]; try reflexivity. apply IH.
Qed.
Theorem er_decode : fst (decode_frames_c B ho F) = decode_frames B ho F.
Proof. apply er_frames. Qed.
End Frames.
