(** * The Debug text of a replay is at most 1024 times as long as its file *)

From Coq Require Import ZArith List Bool Lia ZifyBool ZifyNat.
From Verif Require Import Base F32 NetTypes Errors Core Header Body Attributes BitReader ObjectIndex Network Parser Json JsonText Debug DebugNet DebugReplay
  SpecBasic SpecJson SpecSize SpecFile SpecNet SpecReplay SpecDepth FileFacts ParseProofs CoreLogic JsonFacts DepthProofs SizeProofs TypedProofs
  WireBits TextLength DebugLength.
Open Scope Z_scope.

(** ** Frames *)

Lemma dw_trajectory : forall v, typed_trajectory v -> dw (dbg_trajectory v) <= 300.
Proof. weigh. Qed.
#[local] Hint Resolve dw_trajectory : dws.
Lemma dw_new_actor : forall v, typed_new_actor v -> dw (dbg_new_actor v) <= 500.
Proof. weigh. Qed.
Lemma online_nonneg l : 0 <= online_bits l.
Proof.
  apply total_nonneg. intros x. assert (0 <= total product_bits x); [|lia]. apply total_nonneg. intros p.
  unfold product_bits, product_size, text_size. destruct (pr_value p); lia.
Qed.
Lemma dw_attribute_bits v : typed_attribute v -> dw (dbg_attribute v) + 180 <= 128 * (1 + attribute_bits v).
Proof.
  intros H. destruct v; cbn [typed_attribute] in H; repeat match goal with H : _ /\ _ |- _ => destruct H end;
    cbn [dbg_attribute attribute_bits attribute_size]; weigh_dbg;
    repeat match goal with
    | |- context [unique_size ?u] => first [match goal with K : 0 <= unique_size u |- _ => fail 2 end|pose proof (usize_nonneg u)]
    | |- context [maybe text_size ?u] => first [match goal with K : 0 <= maybe text_size u |- _ => fail 2 end|pose proof (maybe_pos text_size u text_nonneg)]
    | |- context [maybe unique_size ?u] =>
        first [match goal with K : 0 <= maybe unique_size u |- _ => fail 2 end|pose proof (maybe_pos unique_size u usize_nonneg)]
    | |- context [text_size ?u] => first [match goal with K : 0 <= text_size u |- _ => fail 2 end|pose proof (text_nonneg u)]
    | |- context [online_bits ?u] => first [match goal with K : 0 <= online_bits u |- _ => fail 2 end|pose proof (online_nonneg u)]
    end; lia.
Qed.
Lemma dw_updated v : typed_updated_attribute v -> 2 + dw (dbg_updated_attribute v) <= 128 * update_bits v.
Proof.
  destruct v as [a b c d]. intros (H1 & H2 & H3 & H). pose proof (dw_attribute_bits _ H). unfold update_bits, dbg_updated_attribute. cbn [u_attribute].
  apply dw_actor in H1. apply (dw_id "StreamId") in H2. apply dw_object in H3. change (15 + lenZ (lit "StreamId")) with 23 in H2.
  fold (dbg_stream_id b) in H2. cbn [dweight]. fold dweight. rewrite !total_cons, total_nil. cbn [fst snd]. names. lia.
Qed.
Lemma dw_frame v : typed_frame v -> 2 + dw (dbg_frame v) <= 128 * frame_bits v.
Proof.
  destruct v as [t d n dl u]. intros (H1 & H2 & H3). unfold frame_bits. cbn [f_new_actors f_deleted_actors f_updated_actors].
  assert (W1 : dw (dbg_vec dbg_new_actor n) <= 2 + 128 * (33 * len n)).
  { etransitivity; [refine (dw_vec _ _ (fun _ => 128 * 33) _ H1 _); intros x Hx; apply dw_new_actor in Hx; lia|].
    clear. induction n as [|x n IH]; [cbn; lia|]. rewrite total_cons. cbn [length]. lia. }
  assert (W2 : dw (dbg_vec dbg_actor_id dl) <= 2 + 128 * len dl).
  { etransitivity; [refine (dw_vec _ _ (fun _ => 128) _ H2 _); intros x Hx; apply dw_actor in Hx; lia|].
    clear. induction dl as [|x n IH]; [cbn; lia|]. rewrite total_cons. cbn [length]. lia. }
  assert (W3 : dw (dbg_vec dbg_updated_attribute u) <= 2 + 128 * total update_bits u).
  { pose proof (dw_vec _ _ _ _ H3 dw_updated) as Q. now rewrite dtotal_scale in Q. }
  unfold dbg_frame. cbn [dweight]. rewrite !total_cons, total_nil. cbn [fst snd].
  names. fold dweight. change (dw (DF32 t)) with 73. change (dw (DF32 d)) with 73. lia.
Qed.
Lemma dw_frames fs : Forall typed_frame fs -> dw (dbg_vec dbg_frame fs) <= 2 + 128 * total frame_bits fs.
Proof. intros H. pose proof (dw_vec _ _ _ _ H dw_frame) as Q. now rewrite dtotal_scale in Q. Qed.

(** ** Header and body *)

(** the bytes of a value pay for its text, 1024 each, and [c] are left *)
Definition dcovers {A} (P : form A) (ser : A -> dbg) (c : Z) : Prop :=
  forall i v o, P i v o -> dw (ser v) + c + 1024 * len o <= 1024 * len i.

Lemma dcov_i32 : dcovers f_i32 DInt 4000.
Proof. intros i v o H. pose proof (dw_i32 v (f_i32_range _ _ _ H)). apply fp_i32 in H. lia. Qed.
Lemma dcov_f32 : dcovers f_f32 DF32 4000.
Proof. intros i v o H. pose proof (dw_f32 v). apply fp_f32 in H. lia. Qed.
Lemma dcov_text : dcovers f_text DStr 4000.
Proof. intros i v o H. pose proof (dw_str v). pose proof (text_nonneg v). apply fp_text in H. lia. Qed.
Lemma dcov_str : dcovers f_str DStr 4000.
Proof. intros i v o H. pose proof (dw_str v). pose proof (text_nonneg v). apply fp_str in H. lia. Qed.
Lemma dcov_times {A} (P : form A) ser n i v o : dcovers P ser 2 -> f_times n P i v o ->
  total (fun x => 2 + dw (ser x)) v + 1024 * len o <= 1024 * len i.
Proof.
  intros HP. revert i v o. induction n as [|n IH]; intros i v o H.
  - destruct H as [-> ->]. rewrite total_nil. lia.
  - destruct H as (x & m & Hx & xs & m' & Hxs & -> & ->). apply HP in Hx. apply IH in Hxs. rewrite total_cons. lia.
Qed.
Lemma dcov_list {A} (P : form A) ser : dcovers P ser 2 -> dcovers (f_list P) (dbg_vec ser) 4000.
Proof.
  intros HP i v o (n & m & H & K). apply fp_i32 in H. unfold f_counted in K. destruct (_ || _); [destruct K|].
  apply (dcov_times _ _ _ _ _ _ HP) in K. unfold dbg_vec. cbn [dweight]. rewrite total_map. fold dweight. lia.
Qed.
Lemma dcov_weaken {A} (P : form A) ser c c' : dcovers P ser c -> c' <= c -> dcovers P ser c'.
Proof. intros H L i v o K. apply H in K. lia. Qed.
Lemma dcov_texts : dcovers (f_list f_text) (dbg_vec DStr) 4000.
Proof. apply dcov_list, (dcov_weaken _ _ _ _ dcov_text). lia. Qed.

Ltac dcovering :=
  repeat match goal with
  | H : f_bind _ _ _ _ _ |- _ => destruct H as (? & ? & ? & H)
  | H : f_ret _ _ _ _ |- _ => destruct H as [-> ->]
  | H : f_i32 _ _ _ |- _ => apply dcov_i32 in H
  | H : f_f32 _ _ _ |- _ => apply dcov_f32 in H
  | H : f_str _ _ _ |- _ => apply dcov_str in H
  | H : f_text _ _ _ |- _ => apply dcov_text in H
  end.
Ltac dlia := cbn [dweight] in *; unfold str in *; lia.
Ltac drecord := cbn [dweight]; fold dweight; rewrite ?total_cons, ?total_nil; cbn [fst snd]; names.

Lemma dcov_keyframe : dcovers f_keyframe dbg_key_frame 2.
Proof. intros i v o H. unfold f_keyframe in H. dcovering. unfold dbg_key_frame. cbn [kf_time kf_frame kf_position]. drecord. dlia. Qed.
Lemma dcov_debug : dcovers f_debug dbg_debug_info 2.
Proof. intros i v o H. unfold f_debug in H. dcovering. unfold dbg_debug_info. cbn [di_frame di_user di_text]. drecord. dlia. Qed.
Lemma dcov_tickmark : dcovers f_tickmark dbg_tick_mark 2.
Proof. intros i v o H. unfold f_tickmark in H. dcovering. unfold dbg_tick_mark. cbn [tm_description tm_frame]. drecord. dlia. Qed.
Lemma dcov_class_index : dcovers f_class_index dbg_class_index 2.
Proof. intros i v o H. unfold f_class_index in H. dcovering. unfold dbg_class_index. cbn [cx_class cx_index]. drecord. dlia. Qed.
Lemma dcov_cache_prop : dcovers f_cache_prop dbg_cache_prop 2.
Proof. intros i v o H. unfold f_cache_prop in H. dcovering. unfold dbg_cache_prop. cbn [cp_object_ind cp_stream_id]. drecord. dlia. Qed.
Lemma dcov_net_cache : dcovers f_net_cache dbg_class_net_cache 2.
Proof.
  intros i v o H. unfold f_net_cache in H. dcovering.
  match goal with H : f_list _ _ _ _ |- _ => apply (dcov_list _ _ dcov_cache_prop) in H end.
  unfold dbg_class_net_cache. cbn [nc_object_ind nc_parent_id nc_cache_id nc_properties]. drecord. dlia.
Qed.


(** the pairs of a list of properties *)
Definition dpairs (ps : props) : Z := total (fun kv => 10 + dw (DStr (fst kv)) + dw (dbg_header_prop (snd kv))) ps.
Lemma dw_props ps : dw (dbg_props ps) <= 2 + dpairs ps.
Proof.
  assert (E : forall k v, dw (DTuple [] [DStr k; dbg_header_prop v]) = 6 + dw (DStr k) + dw (dbg_header_prop v)).
  { intros k v. change (dw (DTuple [] [DStr k; dbg_header_prop v])) with (2 + lenZ (@nil byte) + total (fun x => 2 + dw x) [DStr k; dbg_header_prop v]).
    rewrite !total_cons, total_nil. change (lenZ (@nil byte)) with 0. lia. }
  change (dw (dbg_props ps)) with (2 + total (fun x => 2 + dw x) (map (fun kv => match kv with (k, v) => DTuple [] [DStr k; dbg_header_prop v] end) ps)).
  rewrite total_map. apply Z.add_le_mono_l. unfold dpairs. induction ps as [|[k v] ps IH]; [reflexivity|].
  rewrite !total_cons, E. cbn [fst snd]. lia.
Qed.
Lemma dbg_struct name fields : dbg_header_prop (HStruct name fields) = DStruct (lit "Struct") [(lit "name", DStr name); (lit "fields", dbg_props fields)].
Proof. reflexivity. Qed.
Lemma dbg_array rows : dbg_header_prop (HArray rows) = DTuple (lit "Array") [dbg_vec dbg_props rows].
Proof. reflexivity. Qed.
Lemma dstr_nonneg s : 0 <= dw (DStr s).
Proof. cbn [dweight]. unfold lenZ. lia. Qed.

Lemma dcov_props_all q :
  (forall i ps o, f_props q i ps o -> dpairs ps + 4000 + 1024 * len o <= 1024 * len i) /\
  (forall k i v o, f_value q k i v o -> dw (dbg_header_prop v) + 1024 * len o <= 200 + 1024 * len i) /\
  (forall n i rows o, f_rows q n i rows o -> total (fun row => 2 + dw (dbg_props row)) rows + 1024 * len o <= 1024 * len i).
Proof.
  apply f_props_mut.
  - intros i o H. apply dcov_str in H. pose proof (dstr_nonneg (lit "None")). change (dpairs []) with 0. lia.
  - intros i key m1 kind m2 ign m3 v m4 rest o H1 _ H2 H3 _ IHv _ IHp.
    apply dcov_str in H1, H2. apply fp_bytes_n in H3. unfold dpairs in *. rewrite total_cons. cbn [fst snd].
    pose proof (dstr_nonneg kind). lia.
  - intros i key m1 m2 ign m3 m4 b m5 rest o _ H1 _ H2 H3 H4 H5 _ IHp.
    apply fp_str in H1, H2, H4. apply fp_bytes_n in H3, H5.
    pose proof (text_nonneg key). pose proof (text_nonneg (lit "ByteProperty")). pose proof (text_nonneg (lit "None")). lia.
  - intros i b l o H. apply fp_bytes_n in H. cbn [dbg_header_prop]. drecord. destruct q; dlia.
  - intros i kind m v o _ H1 _ H2. apply dcov_str in H1, H2. cbn [dbg_header_prop dbg_opt]. do 2 drecord. dlia.
  - intros i kind o _ H. apply dcov_text in H. cbn [dbg_header_prop dbg_opt]. do 2 drecord. dlia.
  - intros i n m rows o H _ _ IH. apply fp_i32 in H. rewrite dbg_array. unfold dbg_vec. do 2 drecord. rewrite total_map. lia.
  - intros i x o H. apply dcov_f32 in H. cbn [dbg_header_prop]. drecord. dlia.
  - intros i x o H. apply dcov_i32 in H. cbn [dbg_header_prop]. drecord. dlia.
  - intros i x o H. assert (R : is_u64 x) by (destruct H as (l & _ & R & _); exact R). apply dw_u64 in R. apply fp_uint in H. cbn [dbg_header_prop]. drecord. dlia.
  - intros i x o H. apply dcov_text in H. cbn [dbg_header_prop]. drecord. dlia.
  - intros i x o H. apply dcov_text in H. cbn [dbg_header_prop]. drecord. dlia.
  - intros i name m fields o H _ IH. apply dcov_str in H. rewrite dbg_struct. pose proof (dw_props fields). drecord. dlia.
  - intros i. rewrite total_nil. lia.
  - intros n i r m rows o _ IHp _ IHr. rewrite total_cons. pose proof (dw_props r). lia.
Qed.
Lemma dcov_props q : dcovers (f_props q) dbg_props 3900.
Proof. intros i v o H. apply (dcov_props_all q) in H. pose proof (dw_props v). lia. Qed.

Lemma dcov_header i h o : f_header i h o ->
  dw (DInt (h_major h)) + dw (DInt (h_minor h)) + dw (dbg_opt DInt (h_net h)) + dw (DStr (h_game_type h)) + dw (dbg_props (h_properties h)) +
  3800 + 1024 * len o <= 1024 * len i.
Proof.
  intros H. unfold f_header in H. dcovering. cbn [h_major h_minor h_net h_game_type h_properties].
  match goal with H : f_props _ _ _ _ |- _ => apply dcov_props in H end.
  match goal with H : (if ?c then _ else _) ?a ?v ?b |- _ => assert (dw (dbg_opt DInt v) + 1024 * len b <= 20 + 1024 * len a); [|lia]; destruct c end.
  - match goal with H : f_such _ _ _ _ _ |- _ => destruct H as (? & H & ->) end. dcovering. cbn [dbg_opt]. drecord. dlia.
  - dcovering. cbn [dbg_opt]. cbn [dweight]. names. lia.
Qed.

Definition dw_body (b : body) : Z :=
  dw (dbg_vec DStr (b_levels b)) + dw (dbg_vec dbg_key_frame (b_keyframes b)) + dw (dbg_vec dbg_debug_info (b_debug_info b)) +
  dw (dbg_vec dbg_tick_mark (b_tick_marks b)) + dw (dbg_vec DStr (b_packages b)) + dw (dbg_vec DStr (b_objects b)) +
  dw (dbg_vec DStr (b_names b)) + dw (dbg_vec dbg_class_index (b_class_indices b)) + dw (dbg_vec dbg_class_net_cache (b_net_cache b)).
Lemma dcov_body i b o : f_body i b o -> dw_body b + 1024 * len (b_network_data b) + 30000 + 1024 * len o <= 1024 * len i.
Proof.
  intros H. unfold f_body in H. dcovering.
  repeat match goal with
  | H : f_list f_text _ _ _ |- _ => apply dcov_texts in H
  | H : f_list f_keyframe _ _ _ |- _ => apply (dcov_list _ _ dcov_keyframe) in H
  | H : f_list f_debug _ _ _ |- _ => apply (dcov_list _ _ dcov_debug) in H
  | H : f_list f_tickmark _ _ _ |- _ => apply (dcov_list _ _ dcov_tickmark) in H
  | H : f_list f_class_index _ _ _ |- _ => apply (dcov_list _ _ dcov_class_index) in H
  | H : f_list f_net_cache _ _ _ |- _ => apply (dcov_list _ _ dcov_net_cache) in H
  | H : f_network _ _ _ |- _ => apply fp_network in H
  end.
  unfold dw_body.
  cbn [b_levels b_keyframes b_debug_info b_tick_marks b_packages b_objects b_names b_class_indices b_net_cache b_network_data].
  lia.
Qed.

(** ** Replays *)

Section Replay.
Context (B : bitter) (HB : bitter_ok B) (ho : hash_order) (Hho : hash_order_ok ho).

Definition dw_frames_of (o : option (list frame)) : Z := dw (dbg_opt dbg_network_frames o).

Lemma debug_weight c n data r : lenZ data < 2 ^ 31 -> parse_with B ho c n data = Ok r -> dw (dbg_replay r) <= 1024 * lenZ data.
Proof.
  intros L E.
  assert (Q : exists h b rest, f_file data (h, b) rest /\ r = replay_of h b (r_network_frames r) /\
    dw_frames_of (r_network_frames r) <= 200 + 1024 * len (b_network_data (sec_value b))).
  { destruct (r_network_frames r) as [fs|] eqn:Ef.
    - destruct (parse_frames_inv B HB ho Hho _ _ _ _ _ L E Ef) as (h & b & rest & xs & F & Er & X & Ex).
      exists h, b, rest. split; [exact F|]. split; [exact Er|]. apply frames_bits in X. rewrite <- Ex in X.
      pose proof (proj1 (decoded_frames _ _ _ _ _ _ _ HB Hho L E Ef)) as T. apply dw_frames in T.
      unfold dw_frames_of, dbg_network_frames. cbn [dbg_opt]. do 2 drecord. dlia.
    - destruct (parse_ok_file B ho _ _ _ _ L E) as (h & b & rest & F & Er). rewrite Ef in Er.
      exists h, b, rest. split; [exact F|]. split; [exact Er|]. unfold dw_frames_of. cbn [dbg_opt dweight]; names. lia. }
  destruct Q as (h & b & rest & (h' & o & Sh & b' & o' & Sb & [= -> ->] & ->) & Er & Q).
  destruct Sh as (s1 & c1 & cov1 & m1 & x1 & (m1' & A1 & A2 & _) & A3 & ->).
  destruct Sb as (s2 & c2 & cov2 & m2 & x2 & (m2' & B1 & B2 & _) & B3 & ->).
  assert (C1 : is_u32 c1) by (destruct A2 as (? & _ & R & _); exact R).
  assert (C2 : is_u32 c2) by (destruct B2 as (? & _ & R & _); exact R).
  apply dw_u32 in C1, C2. apply dcov_i32 in A1, B1. apply fp_u32 in A2, B2. apply dcov_header in A3. apply dcov_body in B3.
  rewrite Er. cbn [sec_value] in Q. unfold dw_body in B3. unfold dbg_replay.
  cbn [replay_of r_header_size r_header_crc r_major_version r_minor_version r_net_version r_game_type r_properties r_content_size r_content_crc
    r_network_frames r_levels r_keyframes r_debug_info r_tick_marks r_packages r_objects r_names r_class_indices r_net_cache
    sec_size sec_crc sec_value].
  drecord. fold (dw_frames_of (r_network_frames r)). unfold lenZ. lia.
Qed.
End Replay.
