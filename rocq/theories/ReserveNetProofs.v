(** * Proofs about the memory reserved ahead in the frame decoder *)

From Coq Require Import ZArith List Bool Lia.
From Verif Require Import Base F32 NetTypes SegArray Errors Header Body BitReader NetModels Attributes ObjectIndex FrameDecoder Network
  Wire SpecNet SpecSize BitLemmas ReaderLogic LeafProofs VectorProofs AttrProofs SizeProofs WireBits DebugLength ReserveNet Cost CostProofs.
Import ListNotations.
Open Scope Z_scope.

(** ** The counter is all that differs *)

Lemma er_kept S E A (m : comp S E A) : erases (kept m) m.
Proof. intros s n. unfold kept. cbn [fst snd]. destruct (m s) as [o s']. eexists. reflexivity. Qed.
Lemma er_taken S E A z (m' : comp (counted S) E A) m : erases m' m -> erases (bind (taken z) (fun _ => m')) m.
Proof. intros M s n. unfold bind, taken. cbn [fst snd]. apply M. Qed.
Lemma er_times E A n (f' : comp (counted rs) E A) f : erases f' f -> erases (n_repeat n f') (rd_repeat n f).
Proof.
  intros M. induction n as [|n IH]; cbn [n_repeat rd_repeat]; [apply er_ret|].
  apply er_bind; [exact M|intros x]. apply er_bind; [exact IH|intros xs]. apply er_ret.
Qed.
Lemma er_n_reader E A (m' : comp (counted rs) E A) (m : rd E A) : erases m' m -> erases (n_reader m') (on_reader m).
Proof.
  intros M s n. unfold n_reader, on_reader. cbn [fst snd]. destruct (M (fs_r s) n) as [n1 ->].
  destruct (m (fs_r s)) as [o r]. eexists. reflexivity.
Qed.

Section Same.
Context (B : bitter) (ho : hash_order) (F : frame_decoder).

Lemma er_n_online D : erases (n_online B D) (inner_decode_online_loadout B D).
Proof.
  apply er_bind; [apply er_kept|intros size]. apply er_taken, er_times.
  apply er_bind; [apply er_kept|intros k]. apply er_taken, er_times, er_kept.
Qed.
Lemma er_n_attribute D t : erases (n_attribute B D t) (decode_attribute B D t).
Proof.
  destruct t; try apply er_kept; cbn [n_attribute decode_attribute].
  - apply er_ok_or, er_fmap, er_n_online.
  - apply er_ok_or. apply er_bind; [apply er_n_online|intros b]. apply er_bind; [apply er_n_online|intros o].
    apply er_bind; [apply er_kept|intros x]. apply er_bind; [apply er_kept|intros y]. apply er_ret.
Qed.

Ltac nr :=
  lazymatch goal with
  | |- erases (kept _) _ => apply er_kept
  | |- erases (n_reader _) _ => apply er_n_reader, er_n_attribute
  | |- erases (need _ _) _ => apply er_need
  | |- erases (bind _ _) _ => apply er_bind; [nr|intros ?; nr]
  | |- erases (fmap _ _) _ => apply er_fmap; nr
  | |- erases (map_err _ _) _ => apply er_map_err; [reflexivity|nr]
  | |- erases (if ?c then _ else _) _ => destruct c; nr
  | |- erases (ret _) _ => apply er_ret
  | |- erases (fail _) _ => apply er_fail
  | |- erases (panics _) _ => apply er_panics
  | |- _ => auto
  end.

Lemma er_n_attributes fuel id o ci : erases (n_attributes_loop B F fuel id o ci) (attributes_loop B F fuel id o ci).
Proof. induction fuel as [|fuel IH]; cbn [n_attributes_loop attributes_loop]; cbv zeta; nr. Qed.
Lemma er_n_actors afuel fuel : erases (n_actors_loop B F afuel fuel) (actors_loop B F afuel fuel).
Proof. pose proof er_n_attributes. induction fuel as [|fuel IH]; cbn [n_actors_loop actors_loop]; cbv zeta; nr. Qed.
Lemma er_n_finish t d : erases (n_finish t d) (finish_frame t d).
Proof. intros s n. unfold n_finish, finish_frame. cbn [fst snd]. eexists. reflexivity. Qed.
Lemma er_n_frame fuel : erases (n_decode_frame B F fuel) (decode_frame B F fuel).
Proof. pose proof er_n_actors. pose proof er_n_finish. unfold n_decode_frame, decode_frame. nr. Qed.
Lemma er_n_frames fuel n : forall acc s k, fst (n_frames_loop B ho F fuel n acc (s, k)) = frames_loop B ho F fuel n acc s.
Proof.
  induction n as [|n IH]; intros acc s k; [reflexivity|]. cbn [n_frames_loop frames_loop fst snd].
  destruct (is_empty (fs_r s)); [reflexivity|]. destruct (er_n_frame fuel s k) as [k1 ->].
  destruct (decode_frame B F fuel s) as [[[f|]|e|p] s1]; cbn [fst snd]; try reflexivity. apply IH.
Qed.
Lemma frames_same : fst (frames_reserved B ho F) = decode_frames B ho F.
Proof. apply er_n_frames. Qed.
End Same.
Theorem network_same B ho h b : fst (network_reserved B ho h b) = network_parse_frames B ho h b.
Proof.
  unfold network_reserved, network_parse_frames. cbv zeta.
  destruct (compute_spawns _ _) as [sp|e|p]; cbn [obind fst]; try reflexivity.
  destruct (compute_caches _ _ _ _) as [ca|e|p]; cbn [obind fst]; try reflexivity.
  destruct (num_frames h) as [n|]; [|reflexivity]. destruct (_ <? _); [reflexivity|]. apply frames_same.
Qed.

(** ** What is reserved is paid for by the bits that are read *)

Section Pays.
Context {S : Type} (good : S -> Prop) (left : S -> Z) (left_nonneg : forall s, 0 <= left s).

Definition pays {E A} (m : comp (S * Z) E A) (Q : A -> Z -> Prop) (q : Z) : Prop :=
  forall s n, good s -> let '(o, (s', n')) := m (s, n) in
    match o with
    | Ok v => good s' /\ exists a, Q v a /\ n' + left s' <= n + left s + a
    | _ => n' <= n + left s + q
    end.

(** [m] leaves at most the bits there were and [p] more *)
Definition leaves {E A} (m : comp S E A) (p : Z) (R : A -> Prop) : Prop :=
  forall s, good s -> match m s with (Ok v, s') => good s' /\ R v /\ left s' <= left s + p | _ => True end.

Lemma pays_ret E A (v : A) (Q : A -> Z -> Prop) q : Q v 0 -> pays (E := E) (ret v) Q q.
Proof. clear left_nonneg. intros H s n G. cbn. split; [exact G|]. exists 0. split; [exact H|lia]. Qed.
Lemma pays_fail E A (e : E) (Q : A -> Z -> Prop) q : 0 <= q -> pays (fail e) Q q.
Proof using left_nonneg. intros H s n G. cbn. specialize (left_nonneg s). lia. Qed.
Lemma pays_panics E A p (Q : A -> Z -> Prop) q : 0 <= q -> pays (E := E) (panics p) Q q.
Proof using left_nonneg. intros H s n G. cbn. specialize (left_nonneg s). lia. Qed.
Lemma pays_bind E A C (m : comp (S * Z) E A) (k : A -> comp (S * Z) E C) Q q :
  pays m (fun v a => pays (k v) (fun w b => Q w (a + b)) (q - a)) q -> pays (bind m k) Q q.
Proof. clear left_nonneg.
  intros H s n G. specialize (H s n G). unfold bind. destruct (m (s, n)) as [[v|e|p] [s1 n1]]; [|exact H..].
  destruct H as (G1 & a & Hk & L). specialize (Hk s1 n1 G1). destruct (k v (s1, n1)) as [[w|e|p] [s2 n2]]; [|lia..].
  destruct Hk as (G2 & b & Hq & L2). split; [exact G2|]. exists (a + b). split; [exact Hq|lia].
Qed.
Lemma pays_map_err E F A (f : S * Z -> E -> F) (m : comp (S * Z) E A) Q q : pays m Q q -> pays (map_err f m) Q q.
Proof. clear left_nonneg. intros H s n G. specialize (H s n G). unfold map_err. destruct (m (s, n)) as [[v|e|p] [s1 n1]]; exact H. Qed.
Lemma pays_need E A (e : E) (o : option A) (Q : A -> Z -> Prop) q : 0 <= q -> (forall v, Q v 0) -> pays (need e o) Q q.
Proof using left_nonneg. intros H1 H2. destruct o as [v|]; [apply pays_ret; auto|now apply pays_fail]. Qed.
Lemma pays_kept E A (m : comp S E A) p R (Q : A -> Z -> Prop) q : leaves m p R -> 0 <= q -> (forall v, R v -> Q v p) -> pays (kept m) Q q.
Proof using left_nonneg.
  intros H Lq HQ s n G. specialize (H s G). unfold kept. cbn [fst snd]. pose proof (left_nonneg s).
  destruct (m s) as [[v|e|x] s1]; [|lia..]. destruct H as (G1 & Rv & L). split; [exact G1|]. exists p. split; [auto|lia].
Qed.
Lemma pays_taken E z (Q : unit -> Z -> Prop) q : Q tt z -> pays (E := E) (taken z) Q q.
Proof. clear left_nonneg. intros H s n G. cbn. split; [exact G|]. exists z. split; [exact H|lia]. Qed.
Lemma pays_use E A (m : comp (S * Z) E A) (Q Q' : A -> Z -> Prop) q q' : pays m Q' q' -> q' <= q ->
  (forall v a, Q' v a -> Q v a) -> pays m Q q.
Proof. clear left_nonneg.
  intros H Lq HQ s n G. specialize (H s n G). destruct (m (s, n)) as [[v|e|p0] [s1 n1]]; [|lia..].
  destruct H as (G1 & a & Ha & L). split; [exact G1|]. exists a. auto.
Qed.
Lemma pays_times E A n (f : comp (S * Z) E A) p q : 0 <= p -> 0 <= q -> pays f (fun _ a => a <= - p) q ->
  pays (n_repeat n f) (fun _ a => a <= - p * Z.of_nat n) q.
Proof using left_nonneg.
  intros Lp Lq H. induction n as [|n IH]; cbn [n_repeat]; [apply pays_ret; lia|].
  apply pays_bind. eapply pays_use; [exact H|lia|]. cbn beta. intros v a La. apply pays_bind. eapply pays_use; [exact IH|lia|].
  cbn beta. intros w b Lb. apply pays_ret. lia.
Qed.
End Pays.

(** ** The reader *)

Definition bits_left (r : rs) : Z := lenZ (flat r).
Lemma bits_left_nonneg r : 0 <= bits_left r.
Proof. unfold bits_left, lenZ. lia. Qed.

Lemma leaves_acc E A (m : rd E A) (P : wire A) p (R : A -> Prop) : acc m P ->
  (forall i v o, P i v o -> R v /\ p <= lenZ i - lenZ o) -> leaves wf bits_left m (- p) R.
Proof.
  intros H HP s G. specialize (H s G). destruct (m s) as [[v|e|x] s1]; [|exact I..]. destruct H as (G1 & _ & H).
  assert (K : P (flat s) v (flat s1)) by (apply H; auto). apply HP in K as [Rv K]. unfold bits_left. split; [exact G1|]. split; [exact Rv|lia].
Qed.
Lemma leaves_shorter E A (m : rd E A) (P : wire A) : acc m P -> leaves wf bits_left m 0 (fun _ => True).
Proof.
  intros H s G. specialize (H s G). destruct (m s) as [[v|e|x] s1]; [|exact I..]. destruct H as (G1 & L & _).
  unfold bits_left, lenZ, shorter in *. split; [exact G1|]. split; [exact I|lia].
Qed.
Lemma leaves_map_err S E E' A (good : S -> Prop) left (f : S -> E -> E') (m : comp S E A) p R :
  leaves good left m p R -> leaves good left (map_err f m) p R.
Proof. intros H s G. specialize (H s G). unfold map_err. destruct (m s) as [[v|e|x] s1]; exact H. Qed.

Section Reader.
Context (B : bitter) (HB : bitter_ok B).

Lemma l_bit : leaves wf bits_left (read_bit B) (-1) (fun _ => True).
Proof. apply (leaves_acc _ _ _ _ 1 _ (acc_read_bit B HB)). intros i v o H. apply wp_bit in H. unfold lenZ. split; [exact I|lia]. Qed.
Lemma l_u8 : leaves wf bits_left (read_u8 B) (-8) (fun v => 0 <= v <= 255).
Proof.
  apply (leaves_acc _ _ _ _ 8 _ (acc_read_u8 B HB)). intros i v o H. pose proof (wp_uint _ _ _ _ H) as K. cbn beta in K.
  destruct H as [Hv _]. change (2 ^ Z.of_nat 8) with 256 in Hv. unfold lenZ. lia.
Qed.
Lemma l_product D : leaves wf bits_left (decode_product B D) (-1) (fun _ => True).
Proof.
  apply (leaves_acc _ _ _ _ 1 _ (acc_product B HB D)). intros i v o H. apply bits_product in H. split; [exact I|].
  assert (0 <= product_size v) by (unfold product_size, text_size; destruct (pr_value v); lia).
  unfold product_bits in H. unfold lenZ. lia.
Qed.
Lemma attribute_bits_pos a : 1 <= attribute_bits a.
Proof.
  assert (P : forall l, 0 <= online_bits l).
    { intros l. apply total_nonneg. intros x. assert (0 <= total product_bits x); [|lia]. apply total_nonneg. intros p.
      unfold product_bits, product_size, text_size. destruct (pr_value p); lia. }
    destruct a; cbn [attribute_bits attribute_size]; try lia;
    repeat match goal with
    | |- context [unique_size ?u] => first [match goal with K : 0 <= unique_size u |- _ => fail 2 end|pose proof (usize_nonneg u)]
    | |- context [maybe text_size ?u] => first [match goal with K : 0 <= maybe text_size u |- _ => fail 2 end|pose proof (maybe_pos text_size u text_nonneg)]
    | |- context [maybe unique_size ?u] =>
        first [match goal with K : 0 <= maybe unique_size u |- _ => fail 2 end|pose proof (maybe_pos unique_size u usize_nonneg)]
    | |- context [text_size ?u] => first [match goal with K : 0 <= text_size u |- _ => fail 2 end|pose proof (text_nonneg u)]
    | |- context [online_bits ?u] => first [match goal with K : 0 <= online_bits u |- _ => fail 2 end|pose proof (P u)]
    end; lia.
Qed.
Lemma l_attribute D t : leaves wf bits_left (decode_attribute B D t) (-1) (fun _ => True).
Proof.
  apply (leaves_acc _ _ _ _ 1 _ (acc_attribute B HB D t)). intros i v o H. apply bits_attribute in H.
  pose proof (attribute_bits_pos v). unfold lenZ. split; [exact I|lia].
Qed.

Notation rpays := (pays wf bits_left).
Lemma p_online D : rpays (n_online B D) (fun _ a => a <= -8) 494.
Proof.
  unfold n_online. apply pays_bind. eapply (pays_kept _ _ bits_left_nonneg); [exact l_u8|lia|]. cbn beta. intros n Rn.
  apply pays_bind, pays_taken.
  eapply pays_use; [apply (pays_times _ _ bits_left_nonneg) with (p := 8) (q := 247); [lia|lia|]|lia|cbn beta; intros; lia].
  apply pays_bind. eapply (pays_kept _ _ bits_left_nonneg); [exact l_u8|lia|]. cbn beta. intros k Rk.
  apply pays_bind, pays_taken.
  eapply pays_use; [apply (pays_times _ _ bits_left_nonneg) with (p := 1) (q := 0); [lia|lia|]|lia|cbn beta; intros; lia].
  eapply (pays_kept _ _ bits_left_nonneg); [exact (l_product D)|lia|]. intros; lia.
Qed.
Lemma p_attribute D t : rpays (n_attribute B D t) (fun _ a => a <= -1) 494.
Proof.
  assert (H : rpays (kept (decode_attribute B D t)) (fun _ a => a <= -1) 494).
  { eapply (pays_kept _ _ bits_left_nonneg); [apply l_attribute|lia|intros; lia]. }
  destruct t; try exact H; clear H; cbn [n_attribute]; apply pays_map_err.
  - apply pays_bind. eapply pays_use; [apply p_online|lia|]. cbn beta. intros v a La. apply pays_ret. lia.
  - apply pays_bind. eapply pays_use; [apply p_online|lia|]. cbn beta. intros v a La.
    apply pays_bind. eapply pays_use; [apply p_online|lia|]. cbn beta. intros w b Lb.
    apply pays_bind. eapply (pays_kept _ _ bits_left_nonneg); [exact l_bit|lia|]. intros x _.
    apply pays_bind. eapply (pays_kept _ _ bits_left_nonneg); [exact l_bit|lia|]. intros y _. apply pays_ret. lia.
Qed.
End Reader.

(** ** The frame decoder *)

Definition s_good (s : fstate) : Prop := wf (fs_r s).
Definition s_left (s : fstate) : Z :=
  bits_left (fs_r s) + 2 * (lenZ (fs_new s) + lenZ (fs_deleted s) + lenZ (fs_updated s)).
Lemma s_left_nonneg s : 0 <= s_left s.
Proof. pose proof (bits_left_nonneg (fs_r s)). unfold s_left, lenZ. lia. Qed.

Lemma pays_reader E A (m : comp (rs * Z) E A) (Q : A -> Z -> Prop) q : 0 <= q -> pays wf bits_left m Q q -> pays s_good s_left (n_reader m) Q q.
Proof.
  intros Lq H s n G. unfold n_reader. cbn [fst snd]. specialize (H (fs_r s) n G).
  destruct (m (fs_r s, n)) as [[v|e|p] [r k]]; [destruct H as (G1 & a & Qa & L); split; [exact G1|]; exists a; split; [exact Qa|]|..];
    unfold s_left, set_r, lenZ; cbn [fs_r fs_new fs_deleted fs_updated]; lia.
Qed.
Lemma leaves_reader E A (m : rd E A) p R : leaves wf bits_left m p R -> leaves s_good s_left (on_reader m) p R.
Proof.
  intros H s G. unfold on_reader. specialize (H (fs_r s) G). destruct (m (fs_r s)) as [[v|e|x] r]; [|exact I..].
  destruct H as (G1 & Rv & L). split; [exact G1|]. split; [exact Rv|]. unfold s_left, set_r. cbn [fs_r fs_new fs_deleted fs_updated]. lia.
Qed.
Lemma leaves_enough A w (m : rd unit A) p R : leaves wf bits_left m p R -> leaves s_good s_left (f_not_enough w m) p R.
Proof. intros H. apply leaves_reader, leaves_map_err, H. Qed.
Lemma leaves_bind S E A C (good : S -> Prop) left (m : comp S E A) (k : A -> comp S E C) p q R R' :
  leaves good left m p R -> (forall v, R v -> leaves good left (k v) q R') -> leaves good left (bind m k) (p + q) R'.
Proof.
  intros H K s G. specialize (H s G). unfold bind. destruct (m s) as [[v|e|x] s1]; [|exact I..].
  destruct H as (G1 & Rv & L). specialize (K v Rv s1 G1). destruct (k v s1) as [[w|e|x] s2]; [|exact I..].
  destruct K as (G2 & Rw & L2). split; [exact G2|]. split; [exact Rw|lia].
Qed.
Lemma leaves_ret S E A (good : S -> Prop) left (v : A) : leaves good left (ret (E := E) v) 0 (fun _ => True).
Proof. intros s G. cbn. split; [exact G|]. split; [exact I|lia]. Qed.
Lemma leaves_fail S E A (good : S -> Prop) left (e : E) p R : leaves (A := A) good left (fail e) p R.
Proof. intros s G. exact I. Qed.

Lemma l_refill B (HB : bitter_ok B) E : leaves wf bits_left (E := E) (refill B) 0 (fun _ => True).
Proof.
  intros r G. destruct (refill_spec B HB (E := E) r G) as (s & -> & G1 & Ef & _). unfold bits_left. rewrite Ef.
  split; [exact G1|]. split; [exact I|lia].
Qed.
Lemma l_lookahead E : leaves wf bits_left (E := E) lookahead_bits 0 (fun _ => True).
Proof. intros r G. cbn. split; [exact G|]. split; [exact I|lia]. Qed.
Lemma l_peek E n : leaves wf bits_left (E := E) (peek_and_consume n) (- Z.of_nat n) (fun _ => True).
Proof.
  intros r [G1 G2]. unfold peek_and_consume. destruct (56 <? n)%nat; [exact I|].
  destruct (take_list n (lk r)) as [[h l']|] eqn:Et; [|exact I]. apply take_list_app in Et as [El L].
  unfold wf, bits_left, flat, lenZ. cbn [lk rest buf]. rewrite El in *. rewrite !app_length in *. split; [split; [lia|exact G2]|]. split; [exact I|lia].
Qed.
Lemma l_peek_max E n max : leaves wf bits_left (E := E) (peek_bits_max_computed n max) 0 (fun _ => True).
Proof.
  assert (P : forall k, leaves wf bits_left (E := E) (peek_and_consume k) 0 (fun _ => True)).
  { intros k s G. pose proof (l_peek E k s G) as H. destruct (peek_and_consume k s) as [[v|e|x] s1]; [|exact I..].
    destruct H as (? & ? & ?). split; [assumption|]. split; [exact I|lia]. }
  unfold peek_bits_max_computed. apply (leaves_bind _ _ _ _ _ _ _ _ 0 0 (fun _ => True)).
  - unfold assert_width. destruct (_ : bool); [apply leaves_ret|intros s G; exact I].
  - intros _ _. cbv zeta. apply (leaves_bind _ _ _ _ _ _ _ _ 0 0 (fun _ => True)); [apply P|]. intros v _.
    destruct (_ <=? _); [apply leaves_ret|]. apply (leaves_bind _ _ _ _ _ _ _ _ 0 0 (fun _ => True)); [apply P|]. intros b _.
    destruct (negb _); apply leaves_ret.
Qed.
Lemma l_push_new a : leaves s_good s_left (push_new a) 2 (fun _ => True).
Proof. intros s G. cbn. split; [exact G|]. split; [exact I|]. unfold s_left, lenZ. cbn [fs_r fs_new fs_deleted fs_updated]. rewrite app_length. cbn [length]. lia. Qed.
Lemma l_push_deleted a : leaves s_good s_left (push_deleted a) 2 (fun _ => True).
Proof. intros s G. cbn. split; [exact G|]. split; [exact I|]. unfold s_left, lenZ. cbn [fs_r fs_new fs_deleted fs_updated]. rewrite app_length. cbn [length]. lia. Qed.
Lemma l_push_updated a : leaves s_good s_left (push_updated a) 2 (fun _ => True).
Proof. intros s G. cbn. split; [exact G|]. split; [exact I|]. unfold s_left, lenZ. cbn [fs_r fs_new fs_deleted fs_updated]. rewrite app_length. cbn [length]. lia. Qed.
Lemma l_insert k v : leaves s_good s_left (actors_insert k v) 0 (fun _ => True).
Proof. intros s G. cbn. split; [exact G|]. split; [exact I|]. unfold s_left. cbn [fs_r fs_new fs_deleted fs_updated]. lia. Qed.
Lemma l_delete k : leaves s_good s_left (actors_delete k) 0 (fun _ => True).
Proof. intros s G. cbn. split; [exact G|]. split; [exact I|]. unfold s_left. cbn [fs_r fs_new fs_deleted fs_updated]. lia. Qed.
Lemma l_get k : leaves s_good s_left (actors_get k) 0 (fun _ => True).
Proof. intros s G. cbn. split; [exact G|]. split; [exact I|lia]. Qed.

Lemma replacement_le {A} (l : list A) : replacement l <= 2 * lenZ l.
Proof.
  unfold replacement, lenZ. destruct l as [|x l]; [cbn; lia|]. set (z := Z.of_nat (length (x :: l))).
  assert (1 <= z) by (unfold z; cbn [length]; lia). destruct (Z.eq_dec z 1) as [->|Hz]; [cbn; lia|].
  destruct (Z.log2_up_spec z) as [L _]; [lia|]. rewrite <- (Z.succ_pred (Z.log2_up z)).
  assert (0 < Z.log2_up z) by (apply Z.log2_up_pos; lia). rewrite Z.pow_succ_r by lia. lia.
Qed.
Lemma p_finish t d : pays s_good s_left (n_finish t d) (fun _ a => a <= 0) 0.
Proof.
  intros s n G. unfold n_finish, finish_frame. cbn [fst snd]. split; [exact G|]. exists 0. split; [lia|].
  pose proof (replacement_le (fs_new s)). pose proof (replacement_le (fs_deleted s)). pose proof (replacement_le (fs_updated s)).
  unfold s_left, lenZ in *. cbn [fs_r fs_new fs_deleted fs_updated length]. lia.
Qed.

Section Frames.
Context (B : bitter) (HB : bitter_ok B) (ho : hash_order) (F : frame_decoder).

Lemma l_f32 : leaves wf bits_left (read_f32 B) 0 (fun _ => True).
Proof. exact (leaves_shorter _ _ _ _ (acc_read_f32 B HB)). Qed.
Lemma l_new id : leaves s_good s_left (parse_new_actor B F id) 0 (fun _ => True).
Proof.
  unfold parse_new_actor. apply (leaves_bind _ _ _ _ _ _ _ _ 0 0 (fun _ => True)).
  { destruct (do_parse_name _); [|apply leaves_ret]. apply leaves_enough. eapply leaves_shorter, acc_fmap, acc_read_i32, HB. }
  intros name _. apply (leaves_bind _ _ _ _ _ _ _ _ 0 0 (fun _ => True)).
  { apply leaves_enough. eapply leaves_shorter, acc_read_bit, HB. }
  intros _ _. apply (leaves_bind _ _ _ _ _ _ _ _ 0 0 (fun _ => True)).
  { apply leaves_enough. eapply leaves_shorter, acc_read_i32, HB. }
  intros obj _. apply (leaves_bind _ _ _ _ _ _ _ _ 0 0 (fun _ => True)).
  { unfold need. destruct (getZ _ _); [apply leaves_ret|apply leaves_fail]. }
  intros sp _. apply (leaves_bind _ _ _ _ _ _ _ _ 0 0 (fun _ => True)).
  { apply leaves_enough. eapply leaves_shorter, acc_trajectory, HB. }
  intros tr _. apply leaves_ret.
Qed.

Ltac pk L := eapply (pays_kept _ _ s_left_nonneg); [solve [apply L; auto | apply leaves_enough, L; auto | apply leaves_reader, L; auto]|lia|].

Lemma p_attributes fuel id o ci : pays s_good s_left (n_attributes_loop B F fuel id o ci) (fun _ a => a <= 0) 494.
Proof.
  induction fuel as [|fuel IH]; cbn [n_attributes_loop]; [apply (pays_panics _ _ s_left_nonneg); lia|]. cbv zeta.
  apply pays_bind. pk l_bit. intros [|] _; [|apply pays_ret; lia].
  apply pays_bind. pk l_refill. intros _ _. apply pays_bind. pk l_lookahead. intros la _.
  destruct (_ <? _); [apply (pays_fail _ _ s_left_nonneg); lia|].
  apply pays_bind. pk l_peek_max. intros raw _.
  apply pays_bind. apply (pays_need _ _ s_left_nonneg); [lia|]. intros attr.
  apply pays_bind, pays_map_err, pays_reader; [lia|]. eapply pays_use; [apply p_attribute, HB|lia|]. cbn beta. intros v a La.
  apply pays_bind. pk l_push_updated. intros _ _. eapply pays_use; [apply IH|lia|]. cbn beta. intros; lia.
Qed.
Lemma p_actors afuel fuel : pays s_good s_left (n_actors_loop B F afuel fuel) (fun _ a => a <= 0) 494.
Proof.
  induction fuel as [|fuel IH]; cbn [n_actors_loop]; [apply (pays_panics _ _ s_left_nonneg); lia|]. cbv zeta.
  apply pays_bind. pk l_bit. intros [|] _; [|apply pays_ret; lia].
  apply pays_bind. pk l_refill. intros _ _. apply pays_bind. pk l_lookahead. intros la _.
  destruct (_ <? _); [apply (pays_fail _ _ s_left_nonneg); lia|].
  apply pays_bind. pk l_peek_max. intros raw _.
  apply pays_bind. pk l_peek. intros alive _. apply pays_bind.
  apply pays_use with (Q' := fun _ a => a <= 2) (q' := 496); [|lia|].
  - destruct (alive =? 1).
    + apply pays_bind. pk l_bit. intros [|] _.
      * apply pays_bind. pk l_new. intros actor _.
        apply pays_bind. apply (pays_need _ _ s_left_nonneg); [lia|]. intros ci.
        apply pays_bind. pk l_insert. intros _ _. pk l_push_new. intros; lia.
      * apply pays_bind. pk l_get. intros found _.
        apply pays_bind. apply (pays_need _ _ s_left_nonneg); [lia|]. intros oc.
        eapply pays_use; [apply p_attributes|lia|]. cbn beta. intros; lia.
    + apply pays_bind. pk l_push_deleted. intros _ _. pk l_delete. intros; lia.
  - intros _ a La. eapply pays_use; [apply IH|lia|]. cbn beta. intros; lia.
Qed.
Lemma p_frame fuel : pays s_good s_left (n_decode_frame B F fuel) (fun _ a => a <= 0) 494.
Proof.
  unfold n_decode_frame. apply pays_bind. pk l_f32. intros time _.
  destruct (out_of_range time); [apply (pays_fail _ _ s_left_nonneg); lia|].
  apply pays_bind. pk l_f32. intros delta _.
  destruct (out_of_range delta); [apply (pays_fail _ _ s_left_nonneg); lia|].
  destruct (_ && _); [apply pays_ret; lia|].
  apply pays_bind. eapply pays_use; [apply p_actors|lia|]. cbn beta. intros _ a La.
  apply pays_bind. eapply pays_use; [apply p_finish|lia|]. cbn beta. intros f b Lb. apply pays_ret. lia.
Qed.
Lemma p_frames fuel n : forall acc s k, s_good s -> snd (n_frames_loop B ho F fuel n acc (s, k)) <= k + s_left s + 494.
Proof.
  induction n as [|n IH]; intros acc s k G; cbn [n_frames_loop fst snd]; [pose proof (s_left_nonneg s); lia|].
  destruct (is_empty (fs_r s)); [pose proof (s_left_nonneg s); cbn [snd]; lia|].
  pose proof (p_frame fuel s k G) as H. 
  destruct (n_decode_frame B F fuel (s, k)) as [[[f|]|e|p] [s1 k1]]; cbn [fst snd]; pose proof (s_left_nonneg s1).
  - destruct H as (G1 & a & La & L). specialize (IH (f :: acc) s1 k1 G1). lia.
  - destruct H as (G1 & a & La & L). lia.
  - lia.
  - lia.
Qed.
Lemma frames_bound : snd (frames_reserved B ho F) <= 8 * lenZ (fd_network_data F) + 494.
Proof.
  unfold frames_reserved. eapply Z.le_trans; [apply p_frames|].
  - split; [cbn; lia|apply repeat_length].
  - unfold s_left, bits_left, flat, reader_new. cbn [fs_r lk rest app fs_new fs_deleted fs_updated]. unfold lenZ. rewrite bytes_bits_length. cbn [length]. lia.
Qed.
End Frames.
Theorem network_bound B ho h b : bitter_ok B -> snd (network_reserved B ho h b) <= 8 * lenZ (b_network_data b) + 494.
Proof.
  intros HB. assert (0 <= lenZ (b_network_data b)) by (unfold lenZ; lia).
  unfold network_reserved. cbv zeta.
  destruct (compute_spawns _ _) as [sp|e|p]; cbn [snd]; try lia.
  destruct (compute_caches _ _ _ _) as [ca|e|p]; cbn [snd]; try lia.
  destruct (num_frames h) as [n|]; cbn [snd]; [|lia]. destruct (_ <? _); cbn [snd]; [lia|].
  exact (frames_bound B HB ho _).
Qed.
