(** * The JSON text of a replay is at most 512 times as long as its file *)

From Coq Require Import ZArith List Bool Lia ZifyBool ZifyNat.
From Verif Require Import Base F32 NetTypes Errors Core Header Body Attributes BitReader ObjectIndex Network Parser Json JsonNet JsonReplay JsonText
  SpecBasic SpecJson SpecSize SpecFile SpecNet SpecReplay SpecDepth FileFacts ParseProofs CoreLogic JsonLogic JsonFacts DepthProofs SizeProofs
  WireBits TextLength JsonWeight.
Open Scope Z_scope.

(** ** Header and body *)

(** the bytes of a value pay for its text, 512 each, and [c] are left *)
Definition covers {A} (P : form A) (ser : A -> json) (c : Z) : Prop :=
  forall i v o, P i v o -> wt (ser v) + c + 512 * len o <= 512 * len i.

Lemma cov_i32 : covers f_i32 ser_i32 2000.
Proof. intros i v o H. pose proof (wt_i32 v (f_i32_range _ _ _ H)). apply fp_i32 in H. lia. Qed.
Lemma cov_f32 : covers f_f32 ser_f32 2000.
Proof. intros i v o H. pose proof (wt_f32 v). apply fp_f32 in H. lia. Qed.
Lemma cov_text : covers f_text ser_str 2000.
Proof. intros i v o H. pose proof (wt_str v). pose proof (text_nonneg v). apply fp_text in H. lia. Qed.
Lemma cov_str : covers f_str ser_str 2000.
Proof. intros i v o H. pose proof (wt_str v). pose proof (text_nonneg v). apply fp_str in H. lia. Qed.
Lemma cov_times {A} (P : form A) ser n i v o : covers P ser 1 -> f_times n P i v o ->
  total (fun x => 1 + wt (ser x)) v + 512 * len o <= 512 * len i.
Proof.
  intros HP. revert i v o. induction n as [|n IH]; intros i v o H.
  - destruct H as [-> ->]. rewrite total_nil. lia.
  - destruct H as (x & m & Hx & xs & m' & Hxs & -> & ->). apply HP in Hx. apply IH in Hxs. rewrite total_cons. lia.
Qed.
Lemma cov_list {A} (P : form A) ser : covers P ser 1 -> covers (f_list P) (ser_vec ser) 2000.
Proof.
  intros HP i v o (n & m & H & K). apply fp_i32 in H. unfold f_counted in K. destruct (_ || _); [destruct K|].
  apply (cov_times _ _ _ _ _ _ HP) in K. unfold ser_vec. cbn [weight]. rewrite total_map.
  change (total (fun x => 1 + 0 + wt (ser x)) v) with (total (fun x => 1 + wt (ser x)) v). lia.
Qed.
Lemma cov_weaken {A} (P : form A) ser c c' : covers P ser c -> c' <= c -> covers P ser c'.
Proof. intros H L i v o K. apply H in K. lia. Qed.
Lemma cov_texts : covers (f_list f_text) (ser_vec ser_str) 2000.
Proof. apply cov_list, (cov_weaken _ _ _ _ cov_text). lia. Qed.

Ltac covering :=
  repeat match goal with
  | H : f_bind _ _ _ _ _ |- _ => destruct H as (? & ? & ? & H)
  | H : f_ret _ _ _ _ |- _ => destruct H as [-> ->]
  | H : f_i32 _ _ _ |- _ => apply cov_i32 in H
  | H : f_f32 _ _ _ |- _ => apply cov_f32 in H
  | H : f_str _ _ _ |- _ => apply cov_str in H
  | H : f_text _ _ _ |- _ => apply cov_text in H
  end.
Ltac record :=
  cbn [weight fst snd]; rewrite !total_cons, total_nil; cbn [fst snd]; keys.

Lemma cov_keyframe : covers f_keyframe ser_key_frame 1.
Proof. intros i v o H. unfold f_keyframe in H. covering. unfold ser_key_frame. cbn [kf_time kf_frame kf_position]. record. lia. Qed.
Lemma cov_debug : covers f_debug ser_debug_info 1.
Proof. intros i v o H. unfold f_debug in H. covering. unfold ser_debug_info. cbn [di_frame di_user di_text]. record. lia. Qed.
Lemma cov_tickmark : covers f_tickmark ser_tick_mark 1.
Proof. intros i v o H. unfold f_tickmark in H. covering. unfold ser_tick_mark. cbn [tm_description tm_frame]. record. lia. Qed.
Lemma cov_class_index : covers f_class_index ser_class_index 1.
Proof. intros i v o H. unfold f_class_index in H. covering. unfold ser_class_index. cbn [cx_class cx_index]. record. lia. Qed.
Lemma cov_cache_prop : covers f_cache_prop ser_cache_prop 1.
Proof. intros i v o H. unfold f_cache_prop in H. covering. unfold ser_cache_prop. cbn [cp_object_ind cp_stream_id]. record. lia. Qed.
Lemma cov_net_cache : covers f_net_cache ser_class_net_cache 1.
Proof.
  intros i v o H. unfold f_net_cache in H. covering.
  match goal with H : f_list _ _ _ _ |- _ => apply (cov_list _ _ cov_cache_prop) in H end.
  unfold ser_class_net_cache. cbn [nc_object_ind nc_parent_id nc_cache_id nc_properties]. record. lia.
Qed.

Definition pairs (ps : props) : Z := total (fun kv => 2 + 0 + lenZ (quote (fst kv)) + wt (ser_header_prop (snd kv))) ps.
Lemma wt_props ps : wt (ser_props ps) = 2 + pairs ps.
Proof. unfold ser_props, pairs. cbn [weight]. rewrite total_map. f_equal. induction ps as [|[k v] ps IH]; [reflexivity|]. rewrite !total_cons, IH. reflexivity. Qed.
Lemma ser_struct name fields : ser_header_prop (HStruct name fields) = JObj [(lit "name", ser_str name); (lit "fields", ser_props fields)].
Proof. reflexivity. Qed.
Lemma ser_array rows : ser_header_prop (HArray rows) = ser_vec ser_props rows.
Proof. reflexivity. Qed.

Lemma cov_props_all q :
  (forall i ps o, f_props q i ps o -> pairs ps + 2000 + 512 * len o <= 512 * len i) /\
  (forall k i v o, f_value q k i v o -> wt (ser_header_prop v) + 512 * len o <= 512 * len i) /\
  (forall n i rows o, f_rows q n i rows o -> total (fun row => 1 + wt (ser_props row)) rows + 512 * len o <= 512 * len i).
Proof.
  apply f_props_mut.
  - intros i o H. apply cov_str in H. pose proof (weight_nonneg 0 ltac:(lia) (ser_str (lit "None"))). change (pairs []) with 0. lia.
  - intros i key m1 kind m2 ign m3 v m4 rest o H1 _ H2 H3 _ IHv _ IHp.
    apply cov_str in H1, H2. apply fp_bytes_n in H3. unfold pairs in *. rewrite total_cons. cbn [fst snd].
    pose proof (weight_nonneg 0 ltac:(lia) (ser_str kind)). change (lenZ (quote key)) with (wt (ser_str key)). lia.
  - intros i key m1 m2 ign m3 m4 b m5 rest o _ H1 _ H2 H3 H4 H5 _ IHp.
    apply fp_str in H1, H2, H4. apply fp_bytes_n in H3, H5.
    pose proof (text_nonneg key). pose proof (text_nonneg (lit "ByteProperty")). pose proof (text_nonneg (lit "None")). lia.
  - intros i b l o H. apply fp_bytes_n in H. cbn [ser_header_prop weight]. destruct q; lia.
  - intros i kind m v o _ H1 _ H2. apply cov_str in H1, H2. cbn [ser_header_prop ser_opt]. record.
    change (wt (JStr kind)) with (wt (ser_str kind)). lia.
  - intros i kind o _ H. apply cov_text in H. cbn [ser_header_prop ser_opt]. record.
    change (wt (JStr kind)) with (wt (ser_str kind)). cbn [weight]. lia.
  - intros i n m rows o H _ _ IH. apply fp_i32 in H. rewrite ser_array. unfold ser_vec. cbn [weight]. rewrite total_map.
    change (total (fun x => 1 + 0 + wt (ser_props x)) rows) with (total (fun row => 1 + wt (ser_props row)) rows). lia.
  - intros i x o H. apply cov_f32 in H. cbn [ser_header_prop]. lia.
  - intros i x o H. apply cov_i32 in H. cbn [ser_header_prop]. lia.
  - intros i x o H. assert (R : is_u64 x) by (destruct H as (l & _ & R & _); exact R). apply wt_u64s in R. apply fp_uint in H. cbn [ser_header_prop]. lia.
  - intros i x o H. apply cov_text in H. cbn [ser_header_prop]. change (wt (JStr x)) with (wt (ser_str x)). lia.
  - intros i x o H. apply cov_text in H. cbn [ser_header_prop]. change (wt (JStr x)) with (wt (ser_str x)). lia.
  - intros i name m fields o H _ IH. apply cov_str in H. rewrite ser_struct. record. rewrite wt_props. lia.
  - intros i. rewrite total_nil. lia.
  - intros n i r m rows o _ IHp _ IHr. rewrite total_cons, wt_props. lia.
Qed.
Lemma cov_props q : covers (f_props q) ser_props 1900.
Proof. intros i v o H. apply (cov_props_all q) in H. rewrite wt_props. lia. Qed.

Lemma cov_header i h o : f_header i h o ->
  wt (ser_i32 (h_major h)) + wt (ser_i32 (h_minor h)) + wt (ser_opt ser_i32 (h_net h)) + wt (ser_str (h_game_type h)) + wt (ser_props (h_properties h)) +
  1900 + 512 * len o <= 512 * len i.
Proof.
  intros H. unfold f_header in H. covering. cbn [h_major h_minor h_net h_game_type h_properties].
  match goal with H : f_props _ _ _ _ |- _ => apply cov_props in H end.
  match goal with H : (if ?c then _ else _) ?a ?v ?b |- _ => assert (wt (ser_opt ser_i32 v) + 512 * len b <= 4 + 512 * len a); [|lia]; destruct c end.
  - match goal with H : f_such _ _ _ _ _ |- _ => destruct H as (? & H & ->) end. covering. cbn [ser_opt]. lia.
  - covering. cbn [ser_opt weight]. lia.
Qed.

Definition wt_body (b : body) : Z :=
  wt (ser_vec ser_str (b_levels b)) + wt (ser_vec ser_key_frame (b_keyframes b)) + wt (ser_vec ser_debug_info (b_debug_info b)) +
  wt (ser_vec ser_tick_mark (b_tick_marks b)) + wt (ser_vec ser_str (b_packages b)) + wt (ser_vec ser_str (b_objects b)) +
  wt (ser_vec ser_str (b_names b)) + wt (ser_vec ser_class_index (b_class_indices b)) + wt (ser_vec ser_class_net_cache (b_net_cache b)).
Lemma cov_body i b o : f_body i b o -> wt_body b + 512 * len (b_network_data b) + 16000 + 512 * len o <= 512 * len i.
Proof.
  intros H. unfold f_body in H. covering.
  repeat match goal with
  | H : f_list f_text _ _ _ |- _ => apply cov_texts in H
  | H : f_list f_keyframe _ _ _ |- _ => apply (cov_list _ _ cov_keyframe) in H
  | H : f_list f_debug _ _ _ |- _ => apply (cov_list _ _ cov_debug) in H
  | H : f_list f_tickmark _ _ _ |- _ => apply (cov_list _ _ cov_tickmark) in H
  | H : f_list f_class_index _ _ _ |- _ => apply (cov_list _ _ cov_class_index) in H
  | H : f_list f_net_cache _ _ _ |- _ => apply (cov_list _ _ cov_net_cache) in H
  | H : f_network _ _ _ |- _ => apply fp_network in H
  end.
  unfold wt_body.
  cbn [b_levels b_keyframes b_debug_info b_tick_marks b_packages b_objects b_names b_class_indices b_net_cache b_network_data].
  lia.
Qed.

(** ** Replays *)

Section Replay.
Context (B : bitter) (HB : bitter_ok B) (ho : hash_order) (Hho : hash_order_ok ho).

Definition wt_frames_of (o : option (list frame)) : Z := wt (ser_opt (fun fs => JObj [(lit "frames", ser_vec ser_frame fs)]) o).

Lemma replay_weight c n data r : lenZ data < 2 ^ 31 -> parse_with B ho c n data = Ok r -> wt (ser_replay r) <= 512 * lenZ data.
Proof.
  intros L E.
  assert (Q : exists h b rest, f_file data (h, b) rest /\ r = replay_of h b (r_network_frames r) /\
    wt_frames_of (r_network_frames r) <= 100 + 512 * len (b_network_data (sec_value b))).
  { destruct (r_network_frames r) as [fs|] eqn:Ef.
    - destruct (parse_frames_inv B HB ho Hho _ _ _ _ _ L E Ef) as (h & b & rest & xs & F & Er & X & Ex).
      exists h, b, rest. split; [exact F|]. split; [exact Er|]. apply frames_bits in X. rewrite <- Ex in X.
      pose proof (proj1 (decoded_frames _ _ _ _ _ _ _ HB Hho L E Ef)) as T. apply wt_frames in T.
      unfold wt_frames_of. cbn [ser_opt]. record. lia.
    - destruct (parse_ok_file B ho _ _ _ _ L E) as (h & b & rest & F & Er). rewrite Ef in Er.
      exists h, b, rest. split; [exact F|]. split; [exact Er|]. unfold wt_frames_of. cbn [ser_opt weight]. lia. }
  destruct Q as (h & b & rest & (h' & o & Sh & b' & o' & Sb & [= -> ->] & ->) & Er & Q).
  destruct Sh as (s1 & c1 & cov1 & m1 & x1 & (m1' & A1 & A2 & _) & A3 & ->).
  destruct Sb as (s2 & c2 & cov2 & m2 & x2 & (m2' & B1 & B2 & _) & B3 & ->).
  assert (C1 : is_u32 c1) by (destruct A2 as (? & _ & R & _); exact R).
  assert (C2 : is_u32 c2) by (destruct B2 as (? & _ & R & _); exact R).
  apply wt_u32 in C1, C2. apply cov_i32 in A1, B1. apply fp_u32 in A2, B2. apply cov_header in A3. apply cov_body in B3.
  rewrite Er. cbn [sec_value] in Q. unfold wt_body in B3. unfold ser_replay.
  cbn [replay_of r_header_size r_header_crc r_major_version r_minor_version r_net_version r_game_type r_properties r_content_size r_content_crc
    r_network_frames r_levels r_keyframes r_debug_info r_tick_marks r_packages r_objects r_names r_class_indices r_net_cache
    sec_size sec_crc sec_value].
  cbn [weight]. rewrite !total_cons, total_nil. cbn [fst snd]. keys. fold (wt_frames_of (r_network_frames r)). unfold lenZ. lia.
Qed.
End Replay.
