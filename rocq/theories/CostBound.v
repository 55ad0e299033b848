(** * Proofs: the number of operations is bounded by the bits used *)

From Coq Require Import ZArith List Bool Lia ZifyBool.
From Verif Require Import Base F32 Text NetTypes SegArray Errors BitReader NetModels Attributes Data ObjectIndex FrameDecoder
  BitLemmas Cost.
Open Scope Z_scope.

(** [pays P m Q q]: started in a good state, [m] ends in a good state, and the counter
    together with four times the remaining bits has grown by some [a] with [Q v a] if
    the result is [v], and by at most [q] if there is none. *)
Section Pays.
Context {S : Type} (good : S -> Prop) (left : S -> Z).

Definition pays {E A} (m : comp (counted S) E A) (Q : A -> Z -> Prop) (q : Z) : Prop :=
  forall s n, good s -> let '(o, (s', n')) := m (s, n) in
    good s' /\ match o with
               | Ok v => exists a, Q v a /\ n' + 4 * left s' <= n + 4 * left s + a
               | _ => n' + 4 * left s' <= n + 4 * left s + q
               end.

Definition fits {E A} (m : comp (counted S) E A) (p q : Z) : Prop := pays m (fun _ a => a <= p) q.

Lemma pays_ret E A (v : A) (Q : A -> Z -> Prop) q : Q v 0 -> pays (E := E) (ret v) Q q.
Proof. intros H s n G. cbn. split; [exact G|]. exists 0. split; [exact H|lia]. Qed.
Lemma pays_fail E A (e : E) (Q : A -> Z -> Prop) q : 0 <= q -> pays (fail e) Q q.
Proof. intros H s n G. cbn. split; [exact G|lia]. Qed.
Lemma pays_panics E A p (Q : A -> Z -> Prop) q : 0 <= q -> pays (E := E) (panics p) Q q.
Proof. intros H s n G. cbn. split; [exact G|lia]. Qed.
Lemma pays_bind E A C (m : comp (counted S) E A) (k : A -> comp (counted S) E C) Q q :
  pays m (fun v a => pays (k v) (fun w b => Q w (a + b)) (q - a)) q -> pays (bind m k) Q q.
Proof.
  intros H s n G. specialize (H s n G). unfold bind. destruct (m (s, n)) as [[v|e|p] [s1 n1]].
  - destruct H as (G1 & a & Hk & L). specialize (Hk s1 n1 G1). destruct (k v (s1, n1)) as [[w|e|p] [s2 n2]].
    + destruct Hk as (G2 & b & Hq & L2). split; [exact G2|]. exists (a + b). split; [exact Hq|lia].
    + destruct Hk as (G2 & L2). split; [exact G2|lia].
    + destruct Hk as (G2 & L2). split; [exact G2|lia].
  - exact H.
  - exact H.
Qed.
Lemma pays_fmap E A C (f : A -> C) (m : comp (counted S) E A) Q q :
  pays m (fun v a => Q (f v) (a + 0)) q -> pays (fmap f m) Q q.
Proof.
  intros H s n G. specialize (H s n G). unfold fmap, bind. destruct (m (s, n)) as [[v|e|p] [s1 n1]]; [|exact H..].
  destruct H as (G1 & a & Hk & L). unfold ret. split; [exact G1|]. exists (a + 0). split; [exact Hk|lia].
Qed.
Lemma pays_map_err E F A (f : counted S -> E -> F) (m : comp (counted S) E A) Q q : pays m Q q -> pays (map_err f m) Q q.
Proof. intros H s n G. specialize (H s n G). unfold map_err. destruct (m (s, n)) as [[v|e|p] [s1 n1]]; exact H. Qed.
Lemma pays_ok_or E A (e : E) (m : comp (counted S) unit A) Q q : pays m Q q -> pays (ok_or e m) Q q.
Proof. apply pays_map_err. Qed.
Lemma pays_to_option E A (m : comp (counted S) E A) Q q : pays m Q q -> pays (to_option m) Q q.
Proof. apply pays_map_err. Qed.
Lemma pays_attempt E A (m : comp (counted S) unit A) (Q : option A -> Z -> Prop) q :
  pays m (fun v a => Q (Some v) a) q -> Q None q -> pays (E := E) (attempt m) Q q.
Proof.
  intros H N s n G. specialize (H s n G). unfold attempt. destruct (m (s, n)) as [[v|e|p] [s1 n1]]; [exact H| |exact H].
  destruct H as [G1 L]. split; [exact G1|]. exists q. split; [exact N|exact L].
Qed.
Lemma pays_need E A (e : E) (o : option A) (Q : A -> Z -> Prop) q : 0 <= q -> (forall v, o = Some v -> Q v 0) -> pays (need e o) Q q.
Proof. intros H1 H2. destruct o as [v|]; [apply pays_ret; auto|now apply pays_fail]. Qed.
Lemma pays_use E A (m : comp (counted S) E A) (Q : A -> Z -> Prop) q p q' : fits m p q' -> q' <= q ->
  (forall v a, a <= p -> Q v a) -> pays m Q q.
Proof.
  intros H Lq HQ s n G. specialize (H s n G). destruct (m (s, n)) as [[v|e|p0] [s1 n1]].
  - destruct H as (G1 & a & Ha & L). split; [exact G1|]. exists a. auto.
  - destruct H as (G1 & L). split; [exact G1|lia].
  - destruct H as (G1 & L). split; [exact G1|lia].
Qed.
Lemma fits_weaken E A (m : comp (counted S) E A) p q p' q' : fits m p q -> p <= p' -> q <= q' -> fits m p' q'.
Proof. intros H Lp Lq. eapply pays_use; eauto. cbn. intros. lia. Qed.
Lemma fits_op E A (m : comp S E A) k p x : k + p <= x ->
  (forall s, good s -> good (snd (m s)) /\
     match fst (m s) with Ok _ => 4 * left (snd (m s)) <= 4 * left s + p | _ => left (snd (m s)) <= left s end) ->
  fits (op k m) x k.
Proof.
  intros Lx H s n G. unfold op. cbn [fst snd]. specialize (H s G). destruct (m s) as [[v|e|p0] s1]; cbn [fst snd] in H; destruct H as [G1 L].
  - split; [exact G1|]. exists (k + p). split; lia.
  - split; [exact G1|lia].
  - split; [exact G1|lia].
Qed.
End Pays.

(** ** The bit reader *)

Definition r_good (r : rs) : Prop := lenZ (buf r) = 1024.
Definition r_left (r : rs) : Z := lenZ (flat r).

Notation rpays := (pays r_good r_left).
Notation rfits := (fits r_good r_left).

Lemma lenZ_app {A} (x y : list A) : lenZ (x ++ y) = lenZ x + lenZ y.
Proof. unfold lenZ. rewrite app_length. lia. Qed.
Lemma lenZ_nonneg {A} (x : list A) : 0 <= lenZ x.
Proof. unfold lenZ. lia. Qed.

Section Reader.
Context (B : bitter) (HB : bitter_ok B).

Lemma f_refill E : fits r_good r_left (E := E) (refill_c B) 1 1.
Proof.
  apply (fits_op _ _ _ _ _ _ 0); [lia|]. intros r G. unfold refill, r_good, r_left, flat in *.
  destruct (bt_refill B (lk r) (rest r)) as [l t] eqn:Eb. cbn [fst snd buf lk rest].
  split; [exact G|]. rewrite (refill_flat B HB _ _ _ _ Eb). lia.
Qed.
Lemma f_lookahead E : fits r_good r_left (E := E) lookahead_bits_c 1 1.
Proof. apply (fits_op _ _ _ _ _ _ 0); [lia|]. intros r G. cbn [lookahead_bits fst snd]. split; [exact G|lia]. Qed.
Lemma f_has_bits E n : fits r_good r_left (E := E) (has_bits_remaining_c n) 1 1.
Proof. apply (fits_op _ _ _ _ _ _ 0); [lia|]. intros r G. cbn [has_bits_remaining fst snd]. split; [exact G|lia]. Qed.
Lemma f_unbuffered E n : fits r_good r_left (E := E) (unbuffered_at_least_c n) 1 1.
Proof. apply (fits_op _ _ _ _ _ _ 0); [lia|]. intros r G. cbn [unbuffered_at_least fst snd]. split; [exact G|lia]. Qed.
Lemma f_buf_len E : fits r_good r_left (E := E) buf_len_c 0 0.
Proof. apply (fits_op _ _ _ _ _ _ 0); [lia|]. intros r G. cbn [buf_len fst snd]. split; [exact G|lia]. Qed.

Lemma f_read_bits n : rfits (read_bits_c B n) (1 - 4 * Z.of_nat n) 1.
Proof.
  apply (fits_op _ _ _ _ _ _ (-4 * Z.of_nat n)); [lia|]. intros r G. unfold read_bits, r_good, r_left, flat in *.
  destruct (bt_fetch B n (lk r) (rest r)) as [l t] eqn:Eb. pose proof (fetch_flat B HB _ _ _ _ _ Eb) as Ef.
  pose proof (take_bits_flat n l t) as H. rewrite <- Ef.
  destruct (take_bits n l t) as [[h [l' t']]|]; cbn [fst snd buf lk rest]; (split; [exact G|]); [|lia].
  destruct H as (-> & L & _). rewrite (lenZ_app h), <- L. unfold lenZ at 2. lia.
Qed.
Lemma f_peek E n : fits r_good r_left (E := E) (peek_and_consume_c n) (1 - 4 * Z.of_nat n) 1.
Proof.
  apply (fits_op _ _ _ _ _ _ (-4 * Z.of_nat n)); [lia|]. intros r G. unfold peek_and_consume, r_good, r_left, flat in *.
  destruct (56 <? n)%nat; [cbn [fst snd]; split; [exact G|lia]|].
  destruct (take_list n (lk r)) as [[h l']|] eqn:Et; cbn [fst snd buf lk rest]; (split; [exact G|]); [|lia].
  apply take_list_app in Et as [-> L]. rewrite <- app_assoc, (lenZ_app h), <- L. unfold lenZ at 2. lia.
Qed.
Lemma f_read_bytes n : rfits (read_bytes_c B n) (1 - 31 * Z.of_nat n) 1025.
Proof.
  intros r k G. unfold read_bytes_c, op. cbn [fst snd]. unfold read_bytes, r_good, r_left, flat in *.
  destruct (take_list n (buf r)) as [[h0 tail]|] eqn:E0; [|split; [exact G|cbn [fst snd]; lia]].
  apply take_list_app in E0 as [Eb0 L0].
  destruct (bt_fetch B n (lk r) (rest r)) as [l t] eqn:Eb. pose proof (fetch_flat B HB _ _ _ _ _ Eb) as Ef.
  pose proof (take_bytes_flat n l t) as H. rewrite <- Ef.
  destruct (take_bytes n l t) as [[h [l' t']]|]; cbn [fst snd buf lk rest].
  - destruct H as (-> & L & _). split; [rewrite <- G, Eb0, !lenZ_app; unfold lenZ; lia|].
    exists (1 - 31 * Z.of_nat n). split; [lia|]. rewrite (lenZ_app (bytes_bits h)).
    assert (Lb : lenZ (bytes_bits h) = 8 * Z.of_nat n).
    { unfold lenZ. rewrite bytes_bits_length. lia. }
    lia.
  - split; [exact G|lia].
Qed.
Lemma f_buf_slice E n : fits r_good r_left (E := E) (buf_slice_c n) (Z.of_nat n) 1024.
Proof.
  intros r k G. unfold buf_slice_c, op. cbn [fst snd]. unfold buf_slice, r_good in *.
  destruct (take_list n (buf r)) as [[h0 tail]|]; (split; [exact G|cbn [fst snd]]); [|lia].
  exists (Z.of_nat n). split; lia.
Qed.
End Reader.

Create HintDb fit.
#[export] Hint Resolve f_refill f_lookahead f_has_bits f_unbuffered f_buf_len f_read_bits f_peek f_read_bytes f_buf_slice : fit.

Lemma pays_attempt_use {S} good left E A (m : comp (counted S) unit A) (Q : option A -> Z -> Prop) q p q' :
  fits good left m p q' -> q' <= q -> (forall v a, a <= p -> Q (Some v) a) -> Q None q' -> pays good left (E := E) (attempt m) Q q.
Proof.
  intros H L H1 H2 s n G. pose proof (pays_attempt good left E A m Q q') as P.
  assert (M : pays good left m (fun v a => Q (Some v) a) q') by (eapply pays_use; eauto; lia).
  specialize (P M H2 s n G). destruct (attempt m (s, n)) as [[v|e|x] [s1 n1]]; [exact P|..]; destruct P; split; auto; lia.
Qed.

Ltac c_head t := lazymatch t with ?f _ => c_head f | _ => t end.
Ltac pay :=
  cbv beta zeta;
  lazymatch goal with
  | |- fits _ _ _ _ _ => unfold fits; pay
  | |- pays _ _ (if ?c then _ else _) _ _ => destruct c; pay
  | |- pays _ _ (match ?c with _ => _ end) _ _ => destruct c; pay
  | |- pays _ _ (bind _ _) _ _ => apply pays_bind; pay
  | |- pays _ _ (fmap _ _) _ _ => apply pays_fmap; pay
  | |- pays _ _ (ret _) _ _ => apply pays_ret; pay
  | |- pays _ _ (fail _) _ _ => apply pays_fail; lia
  | |- pays _ _ (panics _) _ _ => apply pays_panics; lia
  | |- pays _ _ (ok_or _ _) _ _ => apply pays_ok_or; pay
  | |- pays _ _ (to_option _) _ _ => apply pays_to_option; pay
  | |- pays _ _ (map_err _ _) _ _ => apply pays_map_err; pay
  | |- pays _ _ (attempt _) _ _ => eapply pays_attempt_use; [solve [eauto 3 with fit nocore]|lia|intros ? ? ?; pay|pay]
  | |- pays _ _ (need _ _) _ _ => apply pays_need; [lia|intros ? _; pay]
  | |- pays _ _ ?m _ _ =>
      tryif eapply pays_use; [solve [eauto 3 with fit nocore]|lia|intros ? ? ?; pay] then idtac
      else (let f := c_head m in unfold f; pay)
  | |- _ <= _ => lia
  end.

Section Attr.
Context (B : bitter) (HB : bitter_ok B).

Lemma f_peek_max E n max : fits r_good r_left (E := E) (peek_bits_max_computed_c n max) (1 - 4 * Z.of_nat n) 2.
Proof. pay. Qed.
Lemma f_vector v : fits r_good r_left (vector3i_decode_c B v) 0 6.
Proof. pay. Qed.
End Attr.
#[export] Hint Resolve f_peek_max f_vector : fit.

Section Attr2.
Context (B : bitter) (HB : bitter_ok B).

Lemma f_vector_f v : fits r_good r_left (vector3f_decode_c B v) 0 6.
Proof. pay. Qed.
Lemma f_quat : fits r_good r_left (quat_decode_c B) 0 6.
Proof. pay. Qed.
Lemma f_rotation : fits r_good r_left (rotation_decode_c B) 0 8.
Proof. pay. Qed.
Lemma f_text : fits r_good r_left (decode_text_c B) (-126) 1100.
Proof. pay. Qed.
End Attr2.
#[export] Hint Resolve f_vector_f f_quat f_rotation f_text : fit.

Lemma f_repeat E A n (f : rd_c E A) q : 0 <= q -> fits r_good r_left f 0 q -> fits r_good r_left (rd_repeat_c n f) 0 q.
Proof.
  intros Lq H. induction n as [|n IH]; cbn [rd_repeat_c]; [pay|]. unfold fits. apply pays_bind.
  eapply pays_use; [exact H|lia|]. intros v a La. apply pays_bind. eapply pays_use; [exact IH|lia|].
  intros w b Lb. apply pays_ret. lia.
Qed.

Section Decoder.
Context (B : bitter) (HB : bitter_ok B) (D : attribute_decoder).

Lemma f_product : fits r_good r_left (decode_product_c B D) 0 1100.
Proof. pay. Qed.
Lemma f_products : fits r_good r_left (inner_decode_online_loadout_c B D) (-31) 1100.
Proof.
  unfold inner_decode_online_loadout_c, fits. apply pays_bind. eapply pays_use; [apply f_read_bits, HB|lia|]. intros n a La.
  eapply pays_use; [apply f_repeat with (q := 1100); [lia|]|lia|cbn beta; lia].
  unfold fits. apply pays_bind. eapply pays_use; [apply f_read_bits, HB|lia|]. intros k b Lb.
  eapply pays_use; [apply f_repeat with (q := 1100); [lia|apply f_product]|lia|cbn beta; lia].
Qed.
Lemma f_unique v s : fits r_good r_left (decode_unique_id_with_system_id_c B v s) (-30) 1100.
Proof. pay. Qed.
Lemma f_unique_id v : fits r_good r_left (decode_unique_id_c B v) (-60) 1100.
Proof. pose proof f_unique. pay. Qed.
Lemma f_name fuel : forall s, fits r_good r_left (reservation_name_c B fuel s) 0 1100.
Proof. induction fuel as [|fuel IH]; intros s; cbn [reservation_name_c]; pay. Qed.
End Decoder.
#[export] Hint Resolve f_product f_products f_unique f_unique_id f_name : fit.

Lemma f_read_if B (HB : bitter_ok B) c : fits r_good r_left (opt_u32_c B c) 0 1.
Proof. pay. Qed.
#[export] Hint Resolve f_read_if : fit.
Lemma f_specials B (HB : bitter_ok B) : fits r_good r_left (decode_loadout_specials_c B) 0 10.
Proof. pay. Qed.
#[export] Hint Resolve f_specials : fit.
Lemma f_loadout B (HB : bitter_ok B) : fits r_good r_left (decode_loadout_c B) (-100) 100.
Proof. pay. Qed.
#[export] Hint Resolve f_loadout : fit.
Lemma f_game_mode B (HB : bitter_ok B) D : fits r_good r_left (decode_game_mode_c B D) (-3) 1100.
Proof. unfold decode_game_mode_c. destruct (version_geb _ _); cbn [negb]; pay. Qed.
#[export] Hint Resolve f_game_mode : fit.
Lemma f_attribute B (HB : bitter_ok B) D t : fits r_good r_left (decode_attribute_c B D t) (-3) 1100.
Proof. destruct t; cbn [decode_attribute_c]; pay. Qed.

(** ** The frame decoder *)

Definition s_good (s : fstate) : Prop := r_good (fs_r s).
Definition s_left (s : fstate) : Z := r_left (fs_r s).

Lemma pays_reader E A (m : rd_c E A) (Q : A -> Z -> Prop) q : pays r_good r_left m Q q -> pays s_good s_left (on_reader_c m) Q q.
Proof.
  intros H s n G. unfold on_reader_c. cbn [fst snd]. specialize (H (fs_r s) n G).
  destruct (m (fs_r s, n)) as [o [r k]]. exact H.
Qed.
Lemma pays_enough A w (m : rd_c unit A) (Q : A -> Z -> Prop) q : pays r_good r_left m Q q -> pays s_good s_left (f_not_enough_c w m) Q q.
Proof. intros H. apply pays_reader, pays_ok_or, H. Qed.

Ltac fpay :=
  cbv beta zeta;
  lazymatch goal with
  | |- fits _ _ _ _ _ => unfold fits; fpay
  | |- pays s_good _ (if ?c then _ else _) _ _ => destruct c; fpay
  | |- pays s_good _ (match ?c with _ => _ end) _ _ => destruct c; fpay
  | |- pays s_good _ (bind _ _) _ _ => apply pays_bind; fpay
  | |- pays s_good _ (fmap _ _) _ _ => apply pays_fmap; fpay
  | |- pays s_good _ (ret _) _ _ => apply pays_ret; fpay
  | |- pays s_good _ (map_err _ _) _ _ => apply pays_map_err; fpay
  | |- pays s_good _ (need _ _) _ _ => apply pays_need; [lia|intros ? _; fpay]
  | |- pays s_good _ (on_reader_c _) _ _ => apply pays_reader; fpay
  | |- pays s_good _ (f_not_enough_c _ _) _ _ => apply pays_enough; fpay
  | |- pays s_good _ (fail _) _ _ => apply pays_fail; lia
  | |- pays s_good _ (panics _) _ _ => apply pays_panics; lia
  | |- pays s_good _ _ _ _ => eapply pays_use; [solve [eauto 3 with fit nocore]|lia|intros ? ? ?; fpay]
  | |- pays r_good _ (fmap _ _) _ _ => apply pays_fmap; fpay
  | |- pays r_good _ ?m _ _ =>
      tryif eapply pays_use; [solve [eauto 3 with fit nocore]|lia|intros ? ? ?; fpay] then idtac
      else (let f := c_head m in unfold f; fpay)
  | |- _ <= _ => lia
  end.

Lemma f_same {A} (m : fcomp A) : (forall s, fs_r (snd (m s)) = fs_r s) -> fits s_good s_left (op 1 m) 1 1.
Proof.
  intros H. apply (fits_op _ _ _ _ _ _ 0); [lia|]. intros s G. unfold s_good, s_left in *. rewrite H.
  split; [exact G|]. destruct (fst (m s)); lia.
Qed.
Lemma f_insert k v : fits s_good s_left (actors_insert_c k v) 1 1.
Proof. now apply f_same. Qed.
Lemma f_delete k : fits s_good s_left (actors_delete_c k) 1 1.
Proof. now apply f_same. Qed.
Lemma f_get k : fits s_good s_left (actors_get_c k) 1 1.
Proof. now apply f_same. Qed.
Lemma f_push_new k : fits s_good s_left (push_new_c k) 1 1.
Proof. now apply f_same. Qed.
Lemma f_push_deleted k : fits s_good s_left (push_deleted_c k) 1 1.
Proof. now apply f_same. Qed.
Lemma f_push_updated k : fits s_good s_left (push_updated_c k) 1 1.
Proof. now apply f_same. Qed.
Lemma f_finish t d : fits s_good s_left (finish_frame_c t d) 1 1.
Proof. now apply f_same. Qed.

Lemma f_trajectory B (HB : bitter_ok B) sp v : fits r_good r_left (trajectory_from_spawn_c B sp v) 0 8.
Proof. destruct sp; cbn [trajectory_from_spawn_c]; pay. Qed.
#[export] Hint Resolve f_attribute f_insert f_delete f_get f_push_new f_push_deleted f_push_updated f_finish f_trajectory : fit.

Section Frames.
Context (B : bitter) (HB : bitter_ok B) (ho : hash_order) (F : frame_decoder).

Lemma f_new id : fits s_good s_left (parse_new_actor_c B F id) (-100) 10.
Proof. unfold parse_new_actor_c. fpay. Qed.
Lemma f_attributes fuel id o ci : fits s_good s_left (attributes_loop_c B F fuel id o ci) (-3) 1100.
Proof.
  induction fuel as [|fuel IH]; cbn [attributes_loop_c]; [apply pays_panics; lia|]. fpay.
Qed.
Lemma f_actors afuel fuel : fits s_good s_left (actors_loop_c B F afuel fuel) (-3) 1100.
Proof.
  pose proof f_new. pose proof f_attributes.
  induction fuel as [|fuel IH]; cbn [actors_loop_c]; [apply pays_panics; lia|]. fpay.
Qed.
Lemma f_frame fuel : fits s_good s_left (decode_frame_c B F fuel) 0 1100.
Proof. pose proof f_actors. unfold decode_frame_c. fpay. Qed.

Lemma f_frames fuel n : forall acc s k, s_good s ->
  snd (frames_loop_c B ho F fuel n acc (s, k)) <= k + 4 * s_left s + 1100.
Proof.
  assert (P : forall s, 0 <= s_left s) by (intros s; apply lenZ_nonneg).
  induction n as [|n IH]; intros acc s k G; cbn [frames_loop_c fst snd]; [specialize (P s); lia|].
  destruct (is_empty (fs_r s)); [specialize (P s); cbn [snd]; lia|].
  pose proof (f_frame fuel s k G) as H.
  destruct (decode_frame_c B F fuel (s, k)) as [[[f|]|e|p] [s1 k1]]; cbn [fst snd]; specialize (P s1).
  - destruct H as (G1 & a & La & L). specialize (IH (f :: acc) s1 k1 G1). lia.
  - destruct H as (G1 & a & La & L). lia.
  - destruct H as (G1 & L). lia.
  - destruct H as (G1 & L). lia.
Qed.

Theorem f_decode : snd (decode_frames_c B ho F) <= 32 * lenZ (fd_network_data F) + 1100.
Proof.
  unfold decode_frames_c. eapply Z.le_trans; [apply f_frames; reflexivity|].
  unfold s_left, r_left, flat, reader_new. cbn [fs_r lk rest app]. unfold lenZ. rewrite bytes_bits_length. lia.
Qed.
End Frames.
