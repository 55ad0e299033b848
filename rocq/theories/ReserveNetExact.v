(** * Proofs: what is reserved ahead for accepted frames *)

From Coq Require Import ZArith List Bool Lia.
From Verif Require Import Base F32 NetTypes SegArray Errors Header Body BitReader NetModels Attributes ObjectIndex FrameDecoder Network
  SpecFacts SpecSize SpecReserveNet BitLemmas ReaderLogic AttrProofs FrameFacts ReserveNet ReserveNetProofs.
Import ListNotations.
Open Scope Z_scope.

(** ** Attributes *)

(** the counter grows by the weight of the result *)
Definition grows {S E A} (w : A -> Z) (m : comp (S * Z) E A) : Prop :=
  forall s n, let '(o, (_, n')) := m (s, n) in forall v, o = Ok v -> n' = n + w v.

Lemma g_ret S E A (w : A -> Z) v : w v = 0 -> grows (S := S) (E := E) w (ret v).
Proof. intros H s n x [= <-]. lia. Qed.
Lemma g_kept S E A (m : comp S E A) : grows (fun _ => 0) (kept m).
Proof. intros s n. unfold kept. cbn [fst snd]. destruct (m s) as [o s']. intros v _. lia. Qed.
Lemma g_bind S E A C (m : comp (S * Z) E A) (k : A -> comp (S * Z) E C) w w' :
  grows w m -> (forall a s n, let '(o, (_, n')) := k a (s, n) in forall v, o = Ok v -> n' + w a = n + w' v) -> grows w' (bind m k).
Proof.
  intros M K s n. specialize (M s n). unfold bind. destruct (m (s, n)) as [[a|e|p] [s1 n1]]; [|intros v [=]..].
  specialize (M a eq_refl). specialize (K a s1 n1). destruct (k a (s1, n1)) as [o [s2 n2]]. intros v Hv. specialize (K v Hv). lia.
Qed.
Lemma g_map_err S E F A (f : S * Z -> E -> F) (m : comp (S * Z) E A) w : grows w m -> grows w (map_err f m).
Proof.
  intros M s n. specialize (M s n). unfold map_err. destruct (m (s, n)) as [[a|e|p] [s1 n1]]; [|intros v [=]..].
  intros v [= <-]. now apply M.
Qed.
Lemma g_times S E A n (f : comp (S * Z) E A) w : grows w f ->
  forall s k, let '(o, (_, k')) := n_repeat n f (s, k) in forall v, o = Ok v -> lenZ v = Z.of_nat n /\ k' = k + total w v.
Proof.
  intros M. induction n as [|n IH]; intros s k; cbn [n_repeat].
  { unfold ret. intros v [= <-]. cbn. split; [reflexivity|lia]. }
  unfold bind. specialize (M s k). destruct (f (s, k)) as [[a|e|p] [s1 k1]]; [|intros v [=]..]. specialize (M a eq_refl).
  specialize (IH s1 k1). destruct (n_repeat n f (s1, k1)) as [[l|e|p] [s2 k2]]; [|intros v [=]..].
  destruct (IH l eq_refl) as [L T]. unfold ret. intros v [= <-]. unfold total, lenZ in *. cbn [length fold_right map] in *. lia.
Qed.

Section Frames.
Context (B : bitter) (HB : bitter_ok B) (ho : hash_order) (F : frame_decoder).

Lemma u8_range s : match read_u8 B s with (Ok v, _) => 0 <= v | _ => True end.
Proof using.
  unfold read_u8, read_bits. destruct (bt_fetch B 8 (lk s) (rest s)) as [l t].
  destruct (take_bits 8 l t) as [[h [l' t']]|]; [|exact I]. pose proof (bits_Z_range h). lia.
Qed.
Lemma g_online D : grows slots (n_online B D).
Proof using.
  intros s n. unfold n_online, bind at 1. unfold kept at 1. cbn [fst snd]. pose proof (u8_range s) as U.
  destruct (read_u8 B s) as [[z|e|p] s1]; [|intros v [=]..]. unfold bind at 1, taken at 1. cbn [fst snd].
  assert (G : grows (fun x : list product => lenZ x)
    (let* attribute_size := kept (read_u8 B) in let* _ := taken attribute_size in
     n_repeat (Z.to_nat attribute_size) (kept (decode_product B D)))).
  { clear. intros s n. unfold bind at 1. unfold kept at 1. cbn [fst snd]. pose proof (u8_range s) as U.
    destruct (read_u8 B s) as [[z|e|p] s1]; [|intros v [=]..]. unfold bind at 1, taken at 1. cbn [fst snd].
    pose proof (g_times _ _ _ (Z.to_nat z) _ _ (g_kept _ _ _ (decode_product B D)) s1 (n + z)) as H.
    destruct (n_repeat _ _ _) as [o [s2 k]]. intros v Hv. destruct (H v Hv) as [L T].
    assert (Z0 : forall l : list product, total (fun _ => 0) l = 0).
    { clear. intros l. unfold total. induction l as [|x l IH]; cbn in *; [reflexivity|]. lia. }
    rewrite Z0 in T. lia. }
  pose proof (g_times _ _ _ (Z.to_nat z) _ _ G s1 (n + z)) as H.
  destruct (n_repeat _ _ _) as [o [s2 k]]. intros v Hv. destruct (H v Hv) as [L T]. unfold slots. lia.
Qed.

Lemma g_attribute D t r n : wf r -> let '(o, (r', n')) := n_attribute B D t (r, n) in
  forall a, o = Ok a -> wf r' /\ n' = n + loadout_slots a.
Proof using HB.
  intros W. pose proof (p_attribute B HB D t r n W) as P.
  assert (K : grows loadout_slots (n_attribute B D t) \/ t <> TLoadoutOnline /\ t <> TLoadoutsOnline).
  { destruct t; try (right; split; discriminate); left; cbn [n_attribute]; apply g_map_err.
    - apply g_bind with (w := slots); [apply g_online|]. intros a s k v [= <-]. cbn [loadout_slots]. lia.
    - apply g_bind with (w := slots); [apply g_online|]. intros bl s k. unfold bind at 1. pose proof (g_online D s k) as G.
      destruct (n_online B D (s, k)) as [[og|e|p] [s1 k1]]; [|intros v [=]..]. specialize (G og eq_refl). unfold bind, kept, ret. cbn [fst snd].
      destruct (read_bit B s1) as [[x|e|p] s2]; [|intros v [=]..]. cbn [fst snd].
      destruct (read_bit B s2) as [[y|e|p] s3]; [|intros v [=]..]. intros v [= <-]. cbn [loadout_slots lso_blue lso_orange]. lia. }
  destruct K as [K|[N1 N2]].
  - specialize (K r n). destruct (n_attribute B D t (r, n)) as [[a|e|p] [r' n']]; [|intros v [=]..].
    intros v [= <-]. split; [apply P|now apply K].
  - assert (E : n_attribute B D t = kept (decode_attribute B D t)) by (destruct t; (reflexivity || contradiction)).
    rewrite E in *. unfold kept in *. cbn [fst snd] in *. pose proof (acc_attribute B HB D t r W) as A.
    destruct (decode_attribute B D t r) as [[a|e|p] r']; [|intros v [=]..]. intros v [= <-]. destruct A as (W' & _ & A).
    split; [exact W'|]. assert (H : has_kind t a) by (eapply attribute_kind, A; auto).
    destruct a; cbn [loadout_slots]; try lia; cbn [has_kind] in H; contradiction.
Qed.

(** ** Records *)

(** the slots of the attributes of the current frame *)
Definition owed (s : fstate) : Z := total (fun v => loadout_slots (u_attribute v)) (fs_updated s).
Definition evens {E A} (m : comp (fstate * Z) E A) : Prop := forall s n, s_good s ->
  let '(o, (s', n')) := m (s, n) in forall v, o = Ok v -> s_good s' /\ n' - owed s' = n - owed s.
Definition untouched {E A} (m : comp fstate E A) : Prop := forall s, fs_updated (snd (m s)) = fs_updated s.

Lemma un_reader E A (m : rd E A) : untouched (on_reader m).
Proof using. intros s. unfold on_reader. destruct (m (fs_r s)). reflexivity. Qed.
Lemma un_enough A w (m : rd unit A) : untouched (f_not_enough w m).
Proof using. apply un_reader. Qed.
Lemma un_bind E A C (m : comp fstate E A) (k : A -> comp fstate E C) : untouched m -> (forall a, untouched (k a)) -> untouched (bind m k).
Proof using.
  intros M K s. unfold bind. specialize (M s). destruct (m s) as [[a|e|p] s1]; [|exact M..]. rewrite (K a s1). exact M.
Qed.
Lemma un_new id : untouched (parse_new_actor B F id).
Proof using.
  unfold parse_new_actor. apply un_bind; [destruct (do_parse_name _); [apply un_enough|intros s; reflexivity]|intros name].
  apply un_bind; [apply un_enough|intros _]. apply un_bind; [apply un_enough|intros obj].
  apply un_bind; [unfold need; destruct (getZ _ _); intros ?; reflexivity|intros sp].
  apply un_bind; [apply un_enough|intros tr]. intros s. reflexivity.
Qed.

Lemma ev_ret E A (v : A) : evens (E := E) (ret v).
Proof using. intros s n G x _. split; [exact G|reflexivity]. Qed.
Lemma ev_fail E A (e : E) : evens (A := A) (fail e).
Proof using. intros s n G x [=]. Qed.
Lemma ev_panics E A p : evens (E := E) (A := A) (panics p).
Proof using. intros s n G x [=]. Qed.
Lemma ev_need E A (e : E) (o : option A) : evens (need e o).
Proof using. destruct o; [apply ev_ret|apply ev_fail]. Qed.
Lemma ev_bind E A C (m : comp (fstate * Z) E A) (k : A -> comp (fstate * Z) E C) : evens m -> (forall a, evens (k a)) -> evens (bind m k).
Proof using.
  intros M K s n G. specialize (M s n G). unfold bind. destruct (m (s, n)) as [[a|e|p] [s1 n1]]; [|intros v [=]..].
  destruct (M a eq_refl) as [G1 L]. specialize (K a s1 n1 G1). destruct (k a (s1, n1)) as [o [s2 n2]]. intros v Hv.
  destruct (K v Hv) as [G2 L2]. split; [exact G2|lia].
Qed.
Lemma ev_kept E A (m : comp fstate E A) p R : leaves s_good s_left m p R -> untouched m -> evens (kept m).
Proof using.
  intros H U s n G. specialize (H s G). specialize (U s). unfold kept. cbn [fst snd]. destruct (m s) as [[a|e|x] s1]; [|intros v [=]..].
  intros v _. cbn [snd] in U. unfold owed. rewrite U. split; [apply H|reflexivity].
Qed.
Lemma ev_reader E A (m : rd E A) p R : leaves wf bits_left m p R -> evens (kept (on_reader m)).
Proof using. intros H. eapply ev_kept; [apply leaves_reader, H|apply un_reader]. Qed.
Lemma ev_enough A w (m : rd unit A) p R : leaves wf bits_left m p R -> evens (kept (f_not_enough w m)).
Proof using. intros H. eapply ev_kept; [apply leaves_enough, H|apply un_enough]. Qed.
Lemma total_app {A} (w : A -> Z) l l' : total w (l ++ l') = total w l + total w l'.
Proof using. unfold total. induction l as [|x l IH]; cbn [app fold_right] in *; lia. Qed.
Lemma ev_update A (f : fstate * Z -> attribute_error -> frame_error) t (u : attribute -> updated_attribute) (k : comp (fstate * Z) frame_error A) :
  (forall a, u_attribute (u a) = a) -> evens k ->
  evens (bind (map_err f (n_reader (n_attribute B (attr_decoder F) t))) (fun a => bind (kept (push_updated (u a))) (fun _ => k))).
Proof using HB.
  intros U K s n G. unfold bind at 1, map_err, n_reader. cbn [fst snd].
  pose proof (g_attribute (attr_decoder F) t (fs_r s) n G) as P.
  destruct (n_attribute B (attr_decoder F) t (fs_r s, n)) as [[a|e|p] [r' n']]; [|intros v [=]..].
  destruct (P a eq_refl) as [W L]. unfold bind, kept, push_updated. cbn [fst snd].
  match goal with |- context [k (?x, n')] => specialize (K x n') end.
  specialize (K W). destruct (k _) as [o [s2 n2]]. intros v Hv. destruct (K v Hv) as [G2 L2]. split; [exact G2|].
  unfold owed in *. cbn [fs_updated set_r] in *. rewrite total_app in L2. cbn [total fold_right] in L2. rewrite U in L2. lia.
Qed.

Lemma ev_attributes fuel id o ci : evens (n_attributes_loop B F fuel id o ci).
Proof using HB.
  induction fuel as [|fuel IH]; cbn [n_attributes_loop]; [apply ev_panics|]. cbv zeta.
  apply ev_bind; [eapply ev_enough, l_bit, HB|]. intros [|]; [|apply ev_ret].
  apply ev_bind; [eapply ev_reader, l_refill, HB|intros _]. apply ev_bind; [eapply ev_reader, l_lookahead|intros la].
  destruct (_ <? _); [apply ev_fail|]. apply ev_bind; [eapply ev_reader, l_peek_max|intros raw].
  apply ev_bind; [apply ev_need|intros attr].
  apply (ev_update _ _ _ (fun a => mkUpdated id (as_i32 raw) (oa_object_id attr) a)); [reflexivity|exact IH].
Qed.
Lemma ev_actors afuel fuel : evens (n_actors_loop B F afuel fuel).
Proof using HB.
  induction fuel as [|fuel IH]; cbn [n_actors_loop]; [apply ev_panics|]. cbv zeta.
  apply ev_bind; [eapply ev_enough, l_bit, HB|]. intros [|]; [|apply ev_ret].
  apply ev_bind; [eapply ev_reader, l_refill, HB|intros _]. apply ev_bind; [eapply ev_reader, l_lookahead|intros la].
  destruct (_ <? _); [apply ev_fail|]. apply ev_bind; [eapply ev_reader, l_peek_max|intros raw].
  apply ev_bind; [eapply ev_reader, l_peek|intros alive]. apply ev_bind; [|intros _; exact IH]. destruct (alive =? 1).
  - apply ev_bind; [eapply ev_enough, l_bit, HB|]. intros [|].
    + apply ev_bind; [eapply ev_kept; [apply l_new, HB|apply un_new]|intros actor]. apply ev_bind; [apply ev_need|intros ci].
      apply ev_bind; [eapply ev_kept; [apply l_insert|intros s; reflexivity]|intros _].
      eapply ev_kept; [apply l_push_new|intros s; reflexivity].
    + apply ev_bind; [eapply ev_kept; [apply l_get|intros s; reflexivity]|intros found].
      apply ev_bind; [apply ev_need|intros oc]. apply ev_attributes.
  - apply ev_bind; [eapply ev_kept; [apply l_push_deleted|intros s; reflexivity]|intros _].
    eapply ev_kept; [apply l_delete|intros s; reflexivity].
Qed.

(** ** Frames *)

Lemma room_replacement {A} (l : list A) : room (lenZ l) (replacement l).
Proof using.
  unfold replacement, lenZ. destruct l as [|x l]; [left; split; reflexivity|right]. set (z := Z.of_nat (length (x :: l))).
  assert (1 <= z) by (unfold z; cbn [length]; lia). exists (Z.log2_up z). split; [apply Z.log2_up_nonneg|]. split; [reflexivity|].
  destruct (Z.eq_dec z 1) as [->|Hz]; [cbn; lia|].
  destruct (Z.log2_up_spec z) as [L U]; [lia|]. split; [exact U|]. rewrite <- (Z.succ_pred (Z.log2_up z)).
  assert (0 < Z.log2_up z) by (apply Z.log2_up_pos; lia). rewrite Z.pow_succ_r by lia. lia.
Qed.
Definition frame_cost (f : frame) : Z :=
  replacement (f_new_actors f) + replacement (f_updated_actors f) + replacement (f_deleted_actors f) +
  total (fun v => loadout_slots (u_attribute v)) (f_updated_actors f).
Lemma room_total fs : frames_room fs (total frame_cost fs).
Proof using.
  induction fs as [|f fs IH]; [constructor|]. unfold total. cbn [fold_right]. fold (total frame_cost fs). unfold frame_cost at 1.
  constructor; auto using @room_replacement.
Qed.
Lemma room_unique fs : forall x y, frames_room fs x -> frames_room fs y -> x = y.
Proof using.
  assert (P : forall n x y, room n x -> room n y -> x = y).
  { intros n x y [[-> ->]|(k & Lk & -> & H)] [[E ->]|(j & Lj & -> & K)]; try lia. f_equal.
    assert (2 ^ k < 2 ^ Z.succ j) by (rewrite Z.pow_succ_r by lia; lia).
    assert (2 ^ j < 2 ^ Z.succ k) by (rewrite Z.pow_succ_r by lia; lia).
    apply Z.pow_lt_mono_r_iff in H0, H1; lia. }
  induction fs as [|f fs IH]; intros x y Hx Hy; inversion Hx as [|? ? n u d z N U D Z]; inversion Hy as [|? ? n' u' d' z' N' U' D' Z']; subst; [reflexivity|].
  rewrite (P _ _ _ N N'), (P _ _ _ U U'), (P _ _ _ D D'), (IH _ _ Z Z'). reflexivity.
Qed.

Definition clear_state (s : fstate) : Prop := s_good s /\ fs_updated s = [].
Lemma frame_exact fuel s n : clear_state s ->
  let '(o, (s', n')) := n_decode_frame B F fuel (s, n) in
  (o = Ok None -> n' = n) /\ (forall f, o = Ok (Some f) -> clear_state s' /\ n' = n + frame_cost f).
Proof using HB.
  intros [G U].
  assert (O : owed s = 0) by (unfold owed; rewrite U; reflexivity).
  unfold n_decode_frame. unfold bind at 1. unfold kept at 1. cbn [fst snd].
  pose proof (leaves_enough _ "Time" _ _ _ (l_f32 B HB) s G) as H1. pose proof (un_enough _ "Time" (read_f32 B) s) as U1.
  destruct (f_not_enough "Time" (read_f32 B) s) as [[time|e|p] s1]; [|split; intros; discriminate..]. destruct H1 as [G1 _]. cbn [snd] in U1.
  destruct (out_of_range time); [split; intros; discriminate|].
  unfold bind at 1. unfold kept at 1. cbn [fst snd].
  pose proof (leaves_enough _ "Delta" _ _ _ (l_f32 B HB) s1 G1) as H2. pose proof (un_enough _ "Delta" (read_f32 B) s1) as U2.
  destruct (f_not_enough "Delta" (read_f32 B) s1) as [[delta|e|p] s2]; [|split; intros; discriminate..]. destruct H2 as [G2 _]. cbn [snd] in U2.
  destruct (out_of_range delta); [split; intros; discriminate|].
  destruct (_ && _); [split; [reflexivity|intros f [=]]|].
  unfold bind at 1. pose proof (ev_actors fuel fuel s2 n G2) as H3.
  destruct (n_actors_loop B F fuel fuel (s2, n)) as [[[]|e|p] [s3 n3]]; [|split; intros; discriminate..].
  destruct (H3 tt eq_refl) as [G3 L]. unfold fmap, bind, n_finish, finish_frame, ret. cbn [fst snd].
  split; [intros [=]|]. intros f [= <-]. split; [split; [exact G3|reflexivity]|].
  unfold owed in *. rewrite U2, U1, U in L. cbn [total fold_right] in L.
  unfold frame_cost. cbn [f_new_actors f_updated_actors f_deleted_actors]. lia.
Qed.
Lemma total_rev {A} (w : A -> Z) l : total w (rev l) = total w l.
Proof using. induction l as [|x l IH]; [reflexivity|]. cbn [rev]. rewrite total_app, IH. unfold total. cbn [fold_right]. lia. Qed.
Lemma loop_exact fuel n : forall acc s k fs, clear_state s -> fst (n_frames_loop B ho F fuel n acc (s, k)) = Ok fs ->
  snd (n_frames_loop B ho F fuel n acc (s, k)) + total frame_cost acc = k + total frame_cost fs.
Proof using HB.
  induction n as [|n IH]; intros acc s k fs G; cbn [n_frames_loop fst snd]; [intros [= <-]; rewrite total_rev; lia|].
  destruct (is_empty (fs_r s)); [cbn [fst snd]; intros [= <-]; rewrite total_rev; lia|].
  pose proof (frame_exact fuel s k G) as H.
  destruct (n_decode_frame B F fuel (s, k)) as [[[f|]|e|p] [s1 k1]]; cbn [fst snd]; destruct H as [H1 H2].
  - intros E. destruct (H2 f eq_refl) as [G1 L]. specialize (IH _ _ _ _ G1 E). unfold total in *. cbn [fold_right] in IH. lia.
  - intros [= <-]. rewrite total_rev, (H1 eq_refl). lia.
  - intros [=].
  - intros [=].
Qed.
Lemma frames_exact fs : decode_frames B ho F = Ok fs -> snd (frames_reserved B ho F) = total frame_cost fs.
Proof using HB.
  intros E. rewrite <- (frames_same B ho F) in E. unfold frames_reserved in *.
  apply loop_exact in E; [|split; [split; [cbn; lia|apply repeat_length]|reflexivity]]. unfold total at 1 in E. cbn [fold_right] in E. lia.
Qed.
End Frames.

Theorem network_exact B ho h b fs : bitter_ok B -> network_parse_frames B ho h b = Ok fs ->
  frames_room fs (snd (network_reserved B ho h b)).
Proof.
  intros HB. unfold network_parse_frames, network_reserved. cbv zeta.
  destruct (compute_spawns _ _) as [sp|e|p]; cbn [obind]; [|intros [=]..].
  destruct (compute_caches _ _ _ _) as [ca|e|p]; cbn [obind]; [|intros [=]..].
  destruct (num_frames h) as [n|]; [|intros [= <-]; constructor]. destruct (_ <? _); [intros [=]|].
  intros E. rewrite (frames_exact B HB ho _ _ E). apply room_total.
Qed.
