(** * The width of [usize]: frames and files *)

From Coq Require Import ZArith List Bool Lia Permutation.
From Verif Require Import Base F32 Text NetTypes SegArray Errors Core Header Body BitReader
  NetModels Attributes Data ObjectIndex FrameDecoder Network Crc Parser SpecBasic SpecReplay SpecWidth Width
  CoreLogic BasicProofs MapProofs CacheProofs RecordProofs StreamProofs WidthCore WidthAttr WidthNet.
Import ListNotations.
Open Scope Z_scope.
#[local] Opaque PARENT_CLASSES SPAWN_STATS ATTRIBUTES.

(** ** Errors of the network data whose numbers are 32-bit numbers *)

Definition ferr_ok (e : frame_error) : Prop :=
  match e with
  | FMissingCache _ o => is_i32 o
  | FMissingAttribute _ o s => is_i32 o /\ is_i32 s
  | FAttributeError _ o s _ => is_i32 o /\ is_i32 s
  | _ => True
  end.

Definition new_fine (a : new_actor) : Prop := is_i32 (n_object_id a).
Definition upd_fine (u : updated_attribute) : Prop := is_i32 (u_object_id u).
Definition frame_fine (f : frame) : Prop := Forall new_fine (f_new_actors f) /\ Forall upd_fine (f_updated_actors f).

Record ctx_fine (c : frame_context) : Prop := {
  cf_objects : lenZ (fc_objects c) <= 2 ^ 31;
  cf_table : table_ok (fc_object_attributes c);
  cf_frames : Forall frame_fine (fc_frames c);
  cf_actors : Forall (fun kv => is_i32 (snd kv)) (fc_actors c);
  cf_new : Forall new_fine (fc_new_actors c);
  cf_updated : Forall upd_fine (fc_updated_actors c) }.

Definition net_fine (e : network_error) : Prop :=
  match e with NFrameError x c => ferr_ok x /\ ctx_fine c | _ => True end.

Definition aval_ok (v : Z * cache_info) : Prop := is_i32 (fst v) /\ cache_fine (snd v).

Definition state_ok (s : fstate) : Prop :=
  seg_ok aval_ok (fs_actors s) /\ Forall new_fine (fs_new s) /\ Forall upd_fine (fs_updated s).

Ltac known := first [ exact Logic.I | assumption | apply as_i32_range | split; known ].

(** at width 64 the copy is the model itself *)
Lemma width_64 : parse_with_w 64 = parse_with.
Proof. reflexivity. Qed.

Section Width.
Context (w : Z) (W : 32 <= w <= 64).
Context (B : bitter) (ho : hash_order) (Ho : hash_order_ok ho).
Context (F : frame_decoder) (T : table_ok (fd_object_ind_attributes F)) (L : lenZ (fd_spawns F) <= 2 ^ 31).

Definition narrow_decoder : frame_decoder :=
  mkFrameDecoder (fd_frames_len F) (fd_product_decoder F) (fd_max_channels F) (fd_channel_bits F)
    (fd_objects F) (fd_network_data F) (fd_spawns F) (narrow_table w (fd_object_ind_attributes F))
    (fd_version F) (fd_is_lan F) (fd_is_rl_223 F).

(** ** Pairs of states *)

Definition aval (v : Z * cache_info) : Z * cache_info := (fst v, narrow_cache w (snd v)).

Definition narrow_state (s : fstate) : fstate :=
  mkFState (fs_r s) (seg_map_w w aval (fs_actors s)) (fs_new s) (fs_deleted s) (fs_updated s).

(** the second program, from the narrowed state, does the same; [X] holds of
    the errors *)
Definition frel {E A C} (X : E -> Prop) (R : A -> C -> Prop) (m : comp fstate E A) (m' : comp fstate E C) : Prop :=
  forall s, state_ok s -> state_ok (snd (m s)) /\
    match m s, m' (narrow_state s) with
    | (o, t), (o', t') => t' = narrow_state t /\
        match o, o' with
        | Ok a, Ok c => R a c
        | Err e, Err e' => e = e' /\ X e
        | Panic p, Panic p' => p = p'
        | _, _ => False
        end
    end.

Definition both {A} (P : A -> Prop) (a c : A) : Prop := c = a /\ P a.

Lemma frel_bind {E A A' C C'} X (R : A -> A' -> Prop) (Q : C -> C' -> Prop)
  (m : comp fstate E A) m' (k : A -> comp fstate E C) k' :
  frel X R m m' -> (forall a a', R a a' -> frel X Q (k a) (k' a')) -> frel X Q (bind m k) (bind m' k').
Proof.
  intros H K s S. destruct (H s S) as [S' M]. unfold bind.
  destruct (m s) as [[a|e|p] t], (m' (narrow_state s)) as [[a'|e'|p'] t'];
    destruct M as [-> M]; try contradiction; cbn [fst snd] in *; subst; auto.
  apply (K a a' M t S').
Qed.

Lemma frel_ret {E A C} X (R : A -> C -> Prop) a c : R a c -> frel X R (@ret fstate E A a) (ret c).
Proof. intros H s S. cbn. auto. Qed.

Lemma frel_fail {E A C} (X : E -> Prop) (R : A -> C -> Prop) e : X e -> frel X R (@fail fstate E A e) (fail e).
Proof. intros H s S. cbn. auto. Qed.

Lemma frel_panics {E A C} X (R : A -> C -> Prop) p : frel X R (@panics fstate E A p) (panics p).
Proof. intros s S. cbn. auto. Qed.

Lemma frel_fmap {E A A' C C'} X (R : A -> A' -> Prop) (Q : C -> C' -> Prop) (f : A -> C) (g : A' -> C')
  (m : comp fstate E A) m' :
  frel X R m m' -> (forall a a', R a a' -> Q (f a) (g a')) -> frel X Q (fmap f m) (fmap g m').
Proof. intros H K. eapply frel_bind; [exact H|]. intros a a' Ha. apply frel_ret. auto. Qed.

Lemma frel_map_err {E E' A C} (X : E -> Prop) (Y : E' -> Prop) (R : A -> C -> Prop) (f : E -> E') (m : comp fstate E A) m' :
  frel X R m m' -> (forall e, X e -> Y (f e)) ->
  frel Y R (map_err (fun _ e => f e) m) (map_err (fun _ e => f e) m').
Proof.
  intros H XY s S. destruct (H s S) as [S' M]. unfold map_err.
  destruct (m s) as [[a|e|p] t], (m' (narrow_state s)) as [[a'|e'|p'] t'];
    destruct M as [-> M]; try contradiction; cbn [fst snd] in *; subst; auto.
  destruct M as [-> M]. auto.
Qed.

(** on the reader alone *)
Lemma frel_reader {E A} (X : E -> Prop) (P : A -> Prop) (m m' : rd E A) : peq m' m ->
  (forall r, match fst (m r) with Ok a => P a | Err e => X e | Panic _ => True end) ->
  frel X (both P) (on_reader m) (on_reader m').
Proof.
  intros H K s S. unfold on_reader, narrow_state at 1. cbn [fs_r]. rewrite H.
  specialize (K (fs_r s)). destruct (m (fs_r s)) as [o r]. cbn [fst] in K. split; [exact S|].
  split; [reflexivity|]. destruct o; auto. split; auto.
Qed.

(** functions of the reader that return or panic *)
Definition no_error {E A} (m : rd E A) : Prop := forall r e, fst (m r) <> Err e.

Lemma no_bind {E A C} (m : rd E A) (k : A -> rd E C) : no_error m -> (forall a, no_error (k a)) -> no_error (bind m k).
Proof.
  intros H K r e. unfold bind. specialize (H r). destruct (m r) as [[a|x|p] t].
  - apply K.
  - cbn in *. exfalso. eapply H; reflexivity.
  - cbn. discriminate.
Qed.

Lemma no_refill {E} : no_error (@refill B E).
Proof. intros r e. unfold refill. destruct (bt_refill B (lk r) (rest r)). discriminate. Qed.
Lemma no_look {E} : no_error (@lookahead_bits E).
Proof. intros r e. discriminate. Qed.
Lemma no_peek {E} n : no_error (@peek_and_consume E n).
Proof.
  intros r e. unfold peek_and_consume. destruct (56 <? n)%nat; [discriminate|].
  destruct (take_list n (lk r)) as [[h l]|]; discriminate.
Qed.
Lemma no_max {E} n m : no_error (@peek_bits_max_computed E n m).
Proof.
  unfold peek_bits_max_computed. apply no_bind.
  { unfold assert_width. destruct (_ =? _); intros r e; discriminate. }
  intros _. apply no_bind; [apply no_peek|]. intros d. cbv zeta. destruct (m <=? _); [intros r e; discriminate|].
  apply no_bind; [apply no_peek|]. intros b. destruct (negb (b =? 0)); intros r e; discriminate.
Qed.

Lemma frel_no_error {E A} X (m : rd E A) : no_error m -> frel X eq (on_reader m) (on_reader m).
Proof.
  intros N s S. unfold on_reader, narrow_state at 1. cbn [fs_r]. specialize (N (fs_r s)).
  destruct (m (fs_r s)) as [o r]. cbn [fst] in N. split; [exact S|]. split; [reflexivity|].
  destruct o as [a|e|p]; auto. exfalso. now apply (N e).
Qed.

Lemma frel_not_enough {A} what (m : rd unit A) : frel ferr_ok eq (f_not_enough what m) (f_not_enough what m).
Proof.
  intros s S. unfold f_not_enough, on_reader, narrow_state at 1, ok_or, map_err. cbn [fs_r].
  destruct (m (fs_r s)) as [[a|e|p] r]; cbn; split; auto.
Qed.

Lemma frel_read_i32 what :
  frel ferr_ok (both is_i32) (f_not_enough what (read_i32 B)) (f_not_enough what (read_i32 B)).
Proof.
  apply frel_reader; [apply peq_refl|]. intros r. unfold ok_or, map_err, read_i32, fmap, bind.
  destruct (read_bits B 32 r) as [[a|e|p] t]; cbn; auto. apply as_i32_range.
Qed.

Lemma frel_need {E A} (X : E -> Prop) (e : E) (R : A -> A -> Prop) o o' : X e ->
  match o, o' with Some a, Some a' => R a a' | None, None => True | _, _ => False end ->
  frel X R (need e o) (need e o').
Proof. destruct o, o'; intros Hx H; try contradiction; [now apply frel_ret|now apply frel_fail]. Qed.

(** ** Frames *)

Lemma new_actor_w id : frel ferr_ok (both (fun a => is_i32 (n_object_id a) /\ n_actor_id a = id))
  (parse_new_actor B F id) (parse_new_actor_w w B narrow_decoder id).
Proof.
  unfold parse_new_actor, parse_new_actor_w.
  change (do_parse_name narrow_decoder) with (do_parse_name F).
  change (fd_spawns narrow_decoder) with (fd_spawns F).
  change (fd_version narrow_decoder) with (fd_version F).
  eapply frel_bind with (R := eq).
  { destruct (do_parse_name F); [apply frel_not_enough|now apply frel_ret]. }
  intros name ? <-. eapply frel_bind; [apply frel_not_enough|]. intros _ _ _.
  eapply frel_bind; [apply frel_read_i32|]. intros obj ? [-> Hobj].
  eapply frel_bind with (R := eq).
  { rewrite (getZ_w w W) by assumption. apply frel_need; [exact Logic.I|]. destruct (getZ (as_usize obj) (fd_spawns F)); auto. }
  intros sp ? <-. eapply frel_bind; [apply frel_not_enough|]. intros tr ? <-.
  apply frel_ret. split; [reflexivity|]. cbn. auto.
Qed.

Lemma attributes_w fuel : forall id obj ci, cache_fine ci -> is_i32 obj ->
  frel ferr_ok eq (attributes_loop B F fuel id obj ci)
    (attributes_loop_w w B narrow_decoder fuel id obj (narrow_cache w ci)).
Proof.
  induction fuel as [|fuel IH]; intros id obj ci C Hobj; cbn [attributes_loop attributes_loop_w]; [apply frel_panics|].
  eapply frel_bind; [apply frel_not_enough|]. intros more ? <-. destruct more; [|now apply frel_ret].
  eapply frel_bind; [apply frel_no_error, no_refill|]. intros _ _ _.
  eapply frel_bind; [apply frel_no_error, no_look|]. intros la ? <-.
  cbn [narrow_cache ci_prop_id_bits ci_max_prop_id ci_attributes].
  destruct (la <? ci_prop_id_bits ci + 1); [apply frel_fail; known|].
  eapply frel_bind; [apply frel_no_error, no_max|]. intros raw ? <-. cbv zeta.
  eapply frel_bind with (R := both attr_ok).
  { apply frel_need; [known|].
    rewrite (narrow_attributes_eq w), (seg_get_w_map w W oid attr_ok) by (auto using as_i32_range).
    destruct (seg_get (as_i32 raw) (ci_attributes ci)) eqn:G; [|exact Logic.I].
    split; [reflexivity|]. eapply seg_get_ok; eauto. }
  intros attr ? [-> Hattr]. eapply frel_bind with (R := eq).
  { eapply (frel_map_err (fun _ => True) ferr_ok eq (attr_error id obj (as_i32 raw))).
    - change (attr_decoder narrow_decoder) with (attr_decoder F).
      intros s S. unfold on_reader, narrow_state at 1. cbn [fs_r]. rewrite (attribute_same w W).
      destruct (decode_attribute B (attr_decoder F) (oa_attribute attr) (fs_r s)) as [o r].
      split; [exact S|]. split; [reflexivity|]. destruct o; auto.
    - intros [] _; known. }
  intros v ? <-. eapply frel_bind with (R := eq).
  { intros s (S1 & S2 & S3). unfold push_updated. cbn [fst snd]. split.
    - split; [exact S1|]. split; [exact S2|]. apply Forall_app. split; [exact S3|]. constructor; [exact Hattr|constructor].
    - split; reflexivity. }
  intros _ _ _. now apply IH.
Qed.

Lemma cache_of_w_eq obj : is_i32 obj ->
  match cache_of F obj, cache_of_w w narrow_decoder obj with
  | Some c, Some c' => c' = narrow_cache w c /\ cache_fine c
  | None, None => True
  | _, _ => False
  end.
Proof.
  intros H. destruct T as [T1 T2]. unfold cache_of, cache_of_w, narrow_decoder, narrow_table. cbn [fd_object_ind_attributes].
  rewrite (getZ_w w W) by (rewrite ?lenZ_map; assumption). rewrite map_getZ.
  destruct (getZ (as_usize obj) (fd_object_ind_attributes F)) as [[c|]|] eqn:E; cbn [option_map]; auto.
  split; [reflexivity|]. exact (getZ_forall _ _ _ _ T1 E).
Qed.

Lemma actors_w afuel fuel :
  frel ferr_ok eq (actors_loop B F afuel fuel) (actors_loop_w w B narrow_decoder afuel fuel).
Proof.
  induction fuel as [|fuel IH]; cbn [actors_loop actors_loop_w]; [apply frel_panics|].
  change (fd_channel_bits narrow_decoder) with (fd_channel_bits F).
  change (fd_max_channels narrow_decoder) with (fd_max_channels F).
  eapply frel_bind; [apply frel_not_enough|]. intros more ? <-. destruct more; [|now apply frel_ret].
  eapply frel_bind; [apply frel_no_error, no_refill|]. intros _ _ _.
  eapply frel_bind; [apply frel_no_error, no_look|]. intros la ? <-.
  destruct (la <? fd_channel_bits F + 1 + 1); [apply frel_fail; known|].
  eapply frel_bind; [apply frel_no_error, no_max|]. intros raw ? <-. cbv zeta.
  pose proof (as_i32_range raw) as Hid. revert Hid. generalize (as_i32 raw). intros id Hid.
  eapply frel_bind; [apply frel_no_error, no_peek|]. intros alive ? <-.
  eapply frel_bind with (R := eq); [|intros _ _ _; exact IH].
  destruct (alive =? 1).
  - eapply frel_bind; [apply frel_not_enough|]. intros new ? <-. destruct new.
    + eapply frel_bind; [apply new_actor_w|]. intros a ? [-> [Ha Ea]].
      eapply frel_bind with (R := fun c c' => c' = narrow_cache w c /\ cache_fine c).
      { apply frel_need; [exact Ha|]. apply cache_of_w_eq, Ha. }
      intros c ? [-> C]. eapply frel_bind with (R := eq).
      { intros s (S1 & S2 & S3). unfold actors_insert, actors_insert_w.
        cbn [snd fst narrow_state fs_r fs_new fs_deleted fs_updated fs_actors].
        change (n_object_id a, narrow_cache w c) with (aval (n_object_id a, c)). split.
        - split; [|split; assumption]. cbn [fs_actors].
          apply seg_insert_ok; [congruence|split; [exact Ha|exact C]|exact S1].
        - split; [|reflexivity]. unfold narrow_state. cbn [fs_r fs_new fs_deleted fs_updated fs_actors].
          rewrite (seg_insert_w_map w W aval aval_ok) by (assumption || congruence). reflexivity. }
      intros _ _ _. intros s (S1 & S2 & S3). unfold push_new. cbn [fst snd]. split.
      * split; [exact S1|]. split; [|exact S3]. apply Forall_app. split; [exact S2|]. constructor; [exact Ha|constructor].
      * split; reflexivity.
    + eapply frel_bind with (R := fun o o' =>
        match o, o' with Some v, Some v' => v' = aval v /\ aval_ok v | None, None => True | _, _ => False end).
      { intros s S. destruct S as (S1 & S2 & S3). unfold actors_get, actors_get_w. cbn [snd fst narrow_state fs_actors].
        split; [split; [|split]; assumption|].
        split; [reflexivity|]. rewrite (seg_get_w_map w W aval aval_ok) by assumption.
        destruct (seg_get id (fs_actors s)) as [v|] eqn:E; cbn [option_map]; auto.
        split; [reflexivity|]. eapply seg_get_ok; eauto. }
      intros o o' Hoo. eapply frel_bind with (R := fun v v' => v' = aval v /\ aval_ok v).
      { apply frel_need; [known|]. destruct o, o'; auto. }
      intros v ? [-> [Hv1 Hv2]]. cbn [aval fst snd]. apply attributes_w; assumption.
  - eapply frel_bind with (R := eq).
    { intros s S. cbn. auto. }
    intros _ _ _. intros s (S1 & S2 & S3). unfold actors_delete, actors_delete_w.
    cbn [snd fst narrow_state fs_r fs_new fs_deleted fs_updated fs_actors]. split.
    + split; [apply seg_delete_ok, S1|split; assumption].
    + split; [|reflexivity]. unfold narrow_state. cbn [fs_r fs_new fs_deleted fs_updated fs_actors].
      rewrite (seg_delete_w_map w W aval aval_ok) by assumption. reflexivity.
Qed.

(** the vectors are taken out of the state *)
Lemma frame_w fuel : frel ferr_ok (both (fun o => match o with Some f => frame_fine f | None => True end))
  (decode_frame B F fuel) (decode_frame_w w B narrow_decoder fuel).
Proof.
  unfold decode_frame, decode_frame_w.
  eapply frel_bind; [apply frel_not_enough|]. intros time ? <-. destruct (out_of_range time); [apply frel_fail; known|].
  eapply frel_bind; [apply frel_not_enough|]. intros delta ? <-. destruct (out_of_range delta); [apply frel_fail; known|].
  destruct (_ && _); [apply frel_ret; split; auto|].
  eapply frel_bind; [apply actors_w|]. intros _ _ _. eapply frel_fmap with (R := both frame_fine).
  - intros s (S1 & S2 & S3). unfold finish_frame. cbn [fst snd]. split; [split; [exact S1|split; constructor]|].
    split; [reflexivity|]. split; [reflexivity|]. split; assumption.
  - intros f ? [-> Hf]. split; [reflexivity|exact Hf].
Qed.

Lemma context_w fs s : state_ok s ->
  frame_context_of ho narrow_decoder fs (narrow_state s) = narrow_context w (frame_context_of ho F fs s).
Proof.
  intros [[S1 S2 S3 S4 S5] _]. unfold frame_context_of, narrow_context.
  cbn [fc_objects fc_object_attributes fc_frames fc_actors fc_new_actors fc_updated_actors narrow_decoder fd_objects
    fd_object_ind_attributes narrow_state fs_actors fs_new fs_updated seg_map_w sg_array sg_map]. unfold narrow_table. f_equal.
  assert (E : forall l i, array_actors i (map (option_map aval) l) = array_actors i l).
  { induction l as [|[[o c]|] l IH]; intros i; cbn [map option_map aval fst snd array_actors]; [reflexivity| |]; now rewrite IH. }
  rewrite E, !map_extend_app.
  set (g := fun kv : Z * (Z * cache_info) => (as_i32 (fst kv), fst (snd kv))).
  set (m := sg_map (fs_actors s)) in *.
  assert (Eg : map g (map (rekey w aval) m) = map g m).
  { rewrite map_map. apply map_ext_in. intros [k v] Hin. unfold g, rekey. cbn [fst snd aval]. f_equal.
    rewrite Forall_forall in S2. destruct (S2 _ Hin) as (j & Hj & Ek). cbn [fst] in Ek. subst k.
    rewrite <- (usize_narrow w W). apply (as_i32_w w W). }
  assert (N : NoDup (map fst (map g m))).
  { rewrite map_map. cbn [g fst]. apply sorted_nodup in S1. revert S1 S2. generalize m. intros l.
    induction l as [|[k v] l IH]; intros S K; cbn [map]; [constructor|].
    inversion S as [|? ? N1 N2]; subst. inversion K as [|? ? K1 K2]; subst. constructor; [|now apply IH].
    intros Hin. apply in_map_iff in Hin as ([k' v'] & Ek & Hin). cbn [fst] in *.
    destruct K1 as (j & Hj & ->). rewrite Forall_forall in K2. destruct (K2 _ Hin) as (j' & Hj' & E'). cbn [fst] in E'. subst k'.
    rewrite !CoreLogic.as_i32_usize in Ek by assumption. subst j'. apply N1. apply in_map_iff. exists (as_usize j, v'). auto. }
  assert (Sx : sorted (map_extend [] (array_actors 0 (sg_array (fs_actors s))))) by (apply sorted_extend; exact Logic.I).
  transitivity (map_extend (map_extend [] (array_actors 0 (sg_array (fs_actors s)))) (map g m)).
  - apply extend_perm; auto. rewrite <- Eg. apply Permutation_map, Ho.
  - symmetry. apply extend_perm; auto. apply Permutation_map, Ho.
Qed.

Definition narrow_net {A} (o : outcome network_error A) : outcome network_error A :=
  match o with Ok a => Ok a | Err e => Err (narrow_network_error w e) | Panic p => Panic p end.

Lemma array_i32 i l : Forall (cell_fine aval_ok) l -> Forall (fun kv => is_i32 (snd kv)) (array_actors i l).
Proof.
  intros H. revert i. induction H as [|[[o c]|] l Hx _ IH]; intros i; cbn [array_actors]; [constructor| |apply IH].
  constructor; [apply Hx|apply IH].
Qed.

Lemma extend_i32 l : forall m : amap Z, Forall (fun kv => is_i32 (snd kv)) l -> Forall (fun kv => is_i32 (snd kv)) m ->
  Forall (fun kv => is_i32 (snd kv)) (map_extend m l).
Proof.
  induction l as [|[k v] l IH]; intros m H M; cbn [map_extend fold_left]; [exact M|].
  inversion H; subst. apply IH; [assumption|]. apply insert_forall; assumption.
Qed.

Lemma context_fine fs s : state_ok s -> Forall frame_fine fs -> lenZ (fd_objects F) <= 2 ^ 31 ->
  ctx_fine (frame_context_of ho F fs s).
Proof.
  intros ([S1 S2 S3 S4 S5] & N & U) Hf Lo. constructor; cbn [frame_context_of fc_objects fc_object_attributes fc_frames
    fc_actors fc_new_actors fc_updated_actors]; auto.
  apply extend_i32; [|constructor]. apply Forall_app. split; [now apply array_i32|].
  apply Forall_map. cbn [snd]. apply (ho_forall ho Ho). eapply Forall_impl; [|exact S5]. intros [k v] Hv. apply Hv.
Qed.

Lemma frames_w (Lo : lenZ (fd_objects F) <= 2 ^ 31) fuel n : forall acc s, state_ok s -> Forall frame_fine acc ->
  frames_loop_w w B ho narrow_decoder fuel n acc (narrow_state s) = narrow_net (frames_loop B ho F fuel n acc s) /\
  match frames_loop B ho F fuel n acc s with Err e => net_fine e | _ => True end.
Proof.
  induction n as [|n IH]; intros acc s S Hacc; cbn [frames_loop_w frames_loop]; [auto|].
  change (fs_r (narrow_state s)) with (fs_r s). destruct (is_empty (fs_r s)); [auto|].
  destruct (frame_w fuel s S) as [S' M].
  destruct (decode_frame B F fuel s) as [[o|e|p] t], (decode_frame_w w B narrow_decoder fuel (narrow_state s)) as [[o'|e'|p'] t'];
    destruct M as [-> M]; try contradiction; cbn [fst snd] in *.
  - destruct M as [-> M]. destruct o as [f|]; [|auto]. apply IH; [exact S'|now constructor].
  - destruct M as [<- M]. cbn [narrow_net narrow_network_error]. rewrite context_w by exact S'. split; [reflexivity|].
    split; [exact M|]. apply context_fine; auto. now apply Forall_rev.
  - subst. auto.
Qed.

Lemma decode_frames_w_eq (Lo : lenZ (fd_objects F) <= 2 ^ 31) :
  decode_frames_w w B ho narrow_decoder = narrow_net (decode_frames B ho F) /\
  match decode_frames B ho F with Err e => net_fine e | _ => True end.
Proof.
  unfold decode_frames_w, decode_frames. change (loop_fuel narrow_decoder) with (loop_fuel F).
  change (fd_frames_len narrow_decoder) with (fd_frames_len F).
  change (fd_network_data narrow_decoder) with (fd_network_data F).
  rewrite <- (seg_new_w w aval 200).
  match goal with |- frames_loop_w _ _ _ _ ?fuel ?n _ _ = _ /\ _ =>
    apply (frames_w Lo fuel n [] (mkFState (reader_new (fd_network_data F) (repeat x00 1024)) (seg_new 200) [] [] []));
      [|constructor] end.
  split; [apply seg_new_ok; lia|split; constructor].
Qed.

End Width.

Section File.
Context (w : Z) (W : 32 <= w <= 64).
Context (B : bitter) (ho : hash_order) (Ho : hash_order_ok ho).

Lemma find_prop_ok name ps p : props_ok ps -> find_prop name ps = Some p -> int_ok p.
Proof. intros H. exact (str_assoc_forall int_ok _ _ _ H). Qed.

Lemma num_frames_i32 h n : header_ok h -> num_frames h = Some n -> is_i32 n.
Proof.
  intros H. unfold num_frames, opt_bind. destruct (find_prop "NumFrames" (h_properties h)) as [p|] eqn:E; [|discriminate].
  apply find_prop_ok in E; [|exact H]. destruct p; try discriminate. intros [= <-]. now apply E.
Qed.

Lemma network_w h b : header_ok h -> body_ok b ->
  network_parse_frames_w w B ho h b = narrow_net w (network_parse_frames B ho h b) /\
  match network_parse_frames B ho h b with Err e => net_fine e | _ => True end.
Proof.
  intros Hh (Hb1 & Hb2 & Hb3). unfold network_parse_frames_w, network_parse_frames.
  assert (L : lenZ (b_objects b) <= 2 ^ 31) by lia.
  destruct (spawns_w w W (b_objects b) L) as [E1 S]. rewrite E1.
  destruct (compute_spawns (object_index_new (b_objects b)) (b_objects b)) as [sp|e|p]; cbn [obind]; [|destruct S|auto].
  destruct (caches_w w W ho Ho (b_objects b) L (b_net_cache b) Hb3) as [E2 T]. rewrite E2.
  destruct (compute_caches ho (object_index_new (b_objects b)) (b_objects b) (b_net_cache b)) as [t|e|p]; cbn [obind].
  - destruct (num_frames h) as [n|] eqn:N; [|auto]. apply num_frames_i32 in N; [|exact Hh].
    destruct (usize_cases w W n N) as [(_ & U1 & U2)|[U1 U2]].
    + rewrite U1, U2. destruct (lenZ (b_network_data b) <? n); [cbn; auto|].
      match goal with |- _ /\ match decode_frames _ _ ?G with _ => _ end =>
        apply (decode_frames_w_eq w W B ho Ho G); [exact T|cbn [fd_spawns]; now rewrite lenZ_map|exact L] end.
    + destruct (Z.ltb_spec (lenZ (b_network_data b)) (as_usize_w w n)); [|lia].
      destruct (Z.ltb_spec (lenZ (b_network_data b)) (as_usize n)); [cbn; auto|lia].
  - cbn [narrow_net]. destruct e; try (split; [reflexivity|exact Logic.I]). exfalso. eapply T; reflexivity.
  - auto.
Qed.

Lemma nar_network np h b : header_ok h -> body_ok b ->
  nar w net_fine (fun _ => True) (parse_network_w w B ho np h b) (parse_network B ho np h b).
Proof.
  intros Hh Hb s S. unfold parse_network_w, parse_network. destruct (network_w h b Hh Hb) as [E N]. rewrite E.
  destruct np; [| |cbn; auto]; destruct (network_parse_frames B ho h b); cbn; auto.
Qed.

Lemma nar_replay check np : nar w net_fine (fun _ => True) (parse_replay_w w B ho check np) (parse_replay B ho check np).
Proof.
  unfold parse_replay_w, parse_replay.
  eapply nar_bind; [apply (nar_take_i32 w)|]. intros hs Hhs.
  eapply nar_bind; [apply (nar_take_u32 w)|]. intros hc _.
  eapply nar_bind; [apply (nar_section w), (nar_view_usize w W), Hhs|]. intros hd _.
  eapply nar_bind; [apply (nar_crc w), (nar_header w W)|]. intros h Hh.
  eapply nar_bind; [apply (nar_take_i32 w)|]. intros cs Hcs.
  eapply nar_bind; [apply (nar_take_u32 w)|]. intros cc _.
  eapply nar_bind; [apply (nar_section w), (nar_view_usize w W), Hcs|]. intros cd _.
  eapply nar_bind; [apply (nar_crc w), (nar_body w W)|]. intros b Hb.
  eapply nar_bind; [apply nar_network; assumption|]. intros n _. now apply nar_ret.
Qed.

Lemma errors_fine c n data e : lenZ data < 2 ^ 31 -> parse_with B ho c n data = Err e -> efine net_fine e.
Proof.
  intros H E. unfold parse_with, builder_parse in E. cbn [pb_crc_check pb_network_parse pb_data
    with_network_parse with_crc_check builder_new] in E.
  destruct (nar_replay c n (core_new data) H) as (_ & _ & M). rewrite E in M. exact M.
Qed.

Lemma width_same c n data : lenZ data < 2 ^ 31 ->
  parse_with_w w B ho c n data = narrow_result w (parse_with B ho c n data).
Proof.
  intros H. unfold parse_with_w, parse_with, builder_parse_w, builder_parse. cbn [pb_crc_check pb_network_parse pb_data
    with_network_parse with_crc_check builder_new].
  destruct (nar_replay c n (core_new data) H) as [E _]. rewrite E. reflexivity.
Qed.

End File.
