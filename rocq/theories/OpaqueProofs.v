(** * Skipped network data has no influence *)

From Coq Require Import ZArith List Bool Lia ZifyBool ZifyNat.
From Verif Require Import Base NetTypes Errors Core Header Body BitReader ObjectIndex Network Parser
  SpecText SpecCrc SpecFile SpecReplay FileFacts SizeProofs CrcOrder.
Open Scope Z_scope.

(** What a form reads depends on the bytes it consumes only. *)
Definition local {A} (P : form A) : Prop :=
  forall i v o, P i v o -> exists p, i = p ++ o /\ forall o', P (p ++ o') v o'.

Lemma loc_ret {A} (a : A) : local (f_ret a).
Proof. intros i v o [-> ->]. exists []. split; [reflexivity|]. intros o'. split; reflexivity. Qed.
Lemma loc_none {A} : local (@f_none A).
Proof. intros i v o []. Qed.
Lemma loc_bind {A C} (P : form A) (Q : A -> form C) : local P -> (forall a, local (Q a)) -> local (f_bind P Q).
Proof.
  intros HP HQ i v o (a & m & Pa & Qa). apply HP in Pa as (p & -> & Pa). apply HQ in Qa as (q & -> & Qa).
  exists (p ++ q). split; [apply app_assoc|]. intros o'. exists a, (q ++ o'). rewrite <- app_assoc. auto.
Qed.
Lemma loc_such {A C} (R : A -> C -> Prop) P : local P -> local (f_such R P).
Proof.
  intros HP i v o (a & Pa & Ra). apply HP in Pa as (p & -> & Pa). exists p. split; [reflexivity|].
  intros o'. exists a. auto.
Qed.
Lemma loc_bytes n : local (f_bytes n).
Proof. intros i v o [L ->]. exists v. split; [reflexivity|]. intros o'. split; auto. Qed.
Lemma loc_times {A} (P : form A) n : local P -> local (f_times n P).
Proof.
  intros H. induction n as [|n IH]; [apply loc_ret|]. cbn [f_times].
  apply loc_bind; [exact H|]. intros a. apply loc_bind; [exact IH|]. intros l. apply loc_ret.
Qed.
Lemma loc_i32 : local f_i32.
Proof. apply loc_such, loc_bytes. Qed.
Lemma loc_uint n : local (f_uint n).
Proof. apply loc_such, loc_bytes. Qed.
Lemma loc_str : local f_str.
Proof. apply loc_bind; [apply loc_i32|]. intros n. destruct (n <? 0); [apply loc_none|apply loc_such, loc_bytes]. Qed.
Lemma loc_text : local f_text.
Proof.
  apply loc_bind; [apply loc_i32|]. intros n. destruct (_ || _); [apply loc_none|].
  destruct (n <? 0); apply loc_such, loc_bytes.
Qed.
Lemma loc_list {A} (P : form A) : local P -> local (f_list P).
Proof.
  intros H. apply loc_bind; [apply loc_i32|]. intros n. unfold f_counted. destruct (_ || _); [apply loc_none|].
  apply loc_times, H.
Qed.

Ltac pieces :=
  repeat match goal with
  | H : f_str _ _ _ |- _ => apply loc_str in H as (? & -> & ?)
  | H : f_text _ _ _ |- _ => apply loc_text in H as (? & -> & ?)
  | H : f_i32 _ _ _ |- _ => apply loc_i32 in H as (? & -> & ?)
  | H : f_f32 _ _ _ |- _ => apply loc_uint in H as (? & -> & ?)
  | H : f_uint _ _ _ _ |- _ => apply loc_uint in H as (? & -> & ?)
  | H : f_bytes _ _ _ _ |- _ => apply loc_bytes in H as (? & -> & ?)
  | H : exists p, _ |- _ => destruct H as (? & -> & ?)
  end.

Lemma loc_props_all q :
  (forall i ps o, f_props q i ps o -> exists p, i = p ++ o /\ forall o', f_props q (p ++ o') ps o') /\
  (forall k i v o, f_value q k i v o -> exists p, i = p ++ o /\ forall o', f_value q k (p ++ o') v o') /\
  (forall n i rows o, f_rows q n i rows o -> exists p, i = p ++ o /\ forall o', f_rows q n (p ++ o') rows o').
Proof.
  apply f_props_mut.
  - intros i o H. pieces. eexists. split; [reflexivity|]. intros o'. apply fp_end; auto.
  - intros i key m1 kind m2 ign m3 v m4 rest o H1 N H2 H3 _ IHv _ IHp. pieces.
    eexists. split; [rewrite !app_assoc; reflexivity|]. intros o'. rewrite <- !app_assoc. eapply fp_entry; eauto.
  - intros i key m1 m2 ign m3 m4 b m5 rest o Q H1 N H2 H3 H4 H5 _ IHp. pieces.
    eexists. split; [rewrite !app_assoc; reflexivity|]. intros o'. rewrite <- !app_assoc. eapply fp_dropped; eauto.
  - intros i b l o H. pieces. eexists. split; [reflexivity|]. intros o'. eapply fv_bool; eauto.
  - intros i kind m v o Q H1 N H2. pieces.
    eexists. split; [rewrite !app_assoc; reflexivity|]. intros o'. rewrite <- !app_assoc. eapply fv_byte; eauto.
  - intros i kind o Q H. pieces. eexists. split; [reflexivity|]. intros o'. eapply fv_byte_quirk; eauto.
  - intros i n m rows o H N _ IH. pieces.
    eexists. split; [rewrite !app_assoc; reflexivity|]. intros o'. rewrite <- !app_assoc. eapply fv_array; eauto.
  - intros i x o H. apply (loc_uint 4) in H as (? & -> & ?). eexists. split; [reflexivity|]. intros o'. apply fv_float. unfold f_f32. auto.
  - intros i x o H. pieces. eexists. split; [reflexivity|]. intros o'. apply fv_int. auto.
  - intros i x o H. pieces. eexists. split; [reflexivity|]. intros o'. apply fv_qword. auto.
  - intros i x o H. pieces. eexists. split; [reflexivity|]. intros o'. apply fv_name. auto.
  - intros i x o H. pieces. eexists. split; [reflexivity|]. intros o'. apply fv_str. auto.
  - intros i name m fields o H _ IH. pieces.
    eexists. split; [rewrite !app_assoc; reflexivity|]. intros o'. rewrite <- !app_assoc. eapply fv_struct; eauto.
  - intros i. exists []. split; [reflexivity|]. intros o'. apply fr_nil.
  - intros n i r m rows o _ IHp _ IHr. pieces.
    eexists. split; [rewrite !app_assoc; reflexivity|]. intros o'. rewrite <- !app_assoc. eapply fr_cons; eauto.
Qed.
Lemma loc_props q : local (f_props q).
Proof. intros i v o. apply loc_props_all. Qed.
Lemma loc_header : local f_header.
Proof.
  unfold f_header.
  apply loc_bind; [apply loc_i32|intros ?]. apply loc_bind; [apply loc_i32|intros ?].
  apply loc_bind; [destruct (_ && _); [apply loc_such, loc_i32|apply loc_ret]|intros ?].
  apply loc_bind; [apply loc_text|intros ?]. apply loc_bind; [apply loc_props|intros ?]. apply loc_ret.
Qed.
Lemma loc_keyframe : local f_keyframe.
Proof. unfold f_keyframe. repeat (apply loc_bind; [|intros ?]); try apply loc_i32; try apply loc_uint; apply loc_ret. Qed.

Lemma loc_declared i size crc cov m : declared i size crc cov m ->
  exists p, i = p ++ m /\ forall m', length m' = length m -> exists cov', declared (p ++ m') size crc cov' m'.
Proof.
  intros (m1 & H1 & H2 & N & L & after & E). apply loc_i32 in H1 as (p1 & -> & H1). apply loc_uint in H2 as (p2 & -> & H2).
  exists (p1 ++ p2). split; [now rewrite app_assoc|]. intros m' Lm. exists (firstn (length cov) m'), (p2 ++ m').
  rewrite <- app_assoc. split; [apply H1|]. split; [apply H2|]. split; [exact N|].
  apply (f_equal (@length _)) in E. rewrite app_length in E. split.
  - rewrite firstn_length. lia.
  - exists (skipn (length cov) m'). now rewrite firstn_skipn.
Qed.

Lemma network_opaque B ho data r : lenZ data < 2 ^ 31 -> parse_with B ho CrcNever NetNever data = Ok r ->
  exists before net after, data = before ++ net ++ after /\
    forall net', length net' = length net ->
      parse_with B ho CrcNever NetNever (before ++ net' ++ after) = Ok r /\
      exists h b rest, f_file (before ++ net' ++ after) (h, b) rest /\ b_network_data (sec_value b) = net'.
Proof.
  intros L E. apply (never_never B ho _ L) in E as (h & b & rest & F & ->).
  destruct F as (h0 & m & (size & crc & cov & m1 & hv & D & Hh & E1) & b0 & o & (bsize & bcrc & bcov & bm & bv & D' & Hb & E2) & E3 & Eo).
  injection E3 as -> ->. subst o.
  apply loc_declared in D as (p1 & -> & D). apply loc_header in Hh as (p2 & -> & Hh). apply loc_declared in D' as (p3 & -> & D').
  destruct Hb as (lv & i1 & Hlv & kf & i2 & Hkf & net & i3 & (n & i4 & Hn & Hnet) & Hb).
  apply (loc_list _ loc_text) in Hlv as (p4 & -> & Hlv). apply (loc_list _ loc_keyframe) in Hkf as (p5 & -> & Hkf).
  apply loc_i32 in Hn as (p6 & -> & Hn). destruct (n <? 0) eqn:Sn; [destruct Hnet|]. destruct Hnet as [Ln ->].
  exists (p1 ++ p2 ++ p3 ++ p4 ++ p5 ++ p6), net, i3. split; [now rewrite <- !app_assoc|].
  intros net' Ln'. rewrite <- !app_assoc.
  destruct (D (p2 ++ p3 ++ p4 ++ p5 ++ p6 ++ net' ++ i3)) as (cov1 & D1); [rewrite !app_length; lia|].
  destruct (D' (p4 ++ p5 ++ p6 ++ net' ++ i3)) as (cov2 & D2); [rewrite !app_length; lia|].
  repeat match goal with H : f_bind _ _ _ _ _ |- _ => destruct H as (? & ? & ? & H) end.
  destruct Hb as [-> Eo]. subst rest.
  assert (F : f_file (p1 ++ p2 ++ p3 ++ p4 ++ p5 ++ p6 ++ net' ++ i3)
    (mkSection size crc cov1 hv, mkSection bsize bcrc cov2 (mkBody lv kf x x1 x3 x5 x7 x9 x11 net')) x12).
  { exists (mkSection size crc cov1 hv), (p3 ++ p4 ++ p5 ++ p6 ++ net' ++ i3). split.
    - exists size, crc, cov1, (p2 ++ p3 ++ p4 ++ p5 ++ p6 ++ net' ++ i3), hv. auto.
    - eexists _, x12. split; [|split; reflexivity].
      exists bsize, bcrc, cov2, (p4 ++ p5 ++ p6 ++ net' ++ i3), (mkBody lv kf x x1 x3 x5 x7 x9 x11 net').
      split; [exact D2|]. split; [|reflexivity]. unfold f_body.
      exists lv, (p5 ++ p6 ++ net' ++ i3). split; [apply Hlv|]. exists kf, (p6 ++ net' ++ i3). split; [apply Hkf|].
      exists net', i3. split.
      + exists n, (net' ++ i3). split; [apply Hn|]. rewrite Sn. split; [lia|reflexivity].
      + do 2 eexists; split; [eassumption|]. do 2 eexists; split; [eassumption|]. do 2 eexists; split; [eassumption|].
        do 2 eexists; split; [eassumption|]. do 2 eexists; split; [eassumption|]. do 2 eexists; split; [eassumption|].
        do 2 eexists; split; [eassumption|]. split; reflexivity. }
  split; [|eexists _, _, _; split; [exact F|reflexivity]].
  apply never_never; [unfold lenZ in *; rewrite !app_length in *; lia|].
  eexists _, _, _. split; [exact F|subst h0 b0; reflexivity].
Qed.

(** ** Two wrong bits in a section *)

Section Flips.
Context (B : bitter) (ho : hash_order).

Lemma flips_header data n r pre cov cov' rest : lenZ data < 2 ^ 31 ->
  parse_with B ho CrcAlways n data = Ok r ->
  data = pre ++ cov ++ rest -> length pre = 8%nat -> Z.of_nat (length cov) = r_header_size r ->
  two_flips cov cov' ->
  parse_with B ho CrcAlways n (pre ++ cov' ++ rest) =
    Err (ECrcMismatch (r_header_crc r) (Z.of_N (crc32_unreal cov'))).
Proof.
  intros L H E Lp Ls T. eapply swap_header; eauto; [now apply two_flips_length|].
  apply two_flips_detected in T. congruence.
Qed.

Lemma flips_content data n r pre hb h pre2 cov cov' rest : lenZ data < 2 ^ 31 ->
  parse_with B ho CrcAlways n data = Ok r ->
  data = pre ++ hb ++ pre2 ++ cov ++ rest -> length pre = 8%nat ->
  f_header hb h [] -> r_header_size r <= Z.of_nat (length hb) -> length pre2 = 8%nat ->
  Z.of_nat (length cov) = r_content_size r ->
  two_flips cov cov' ->
  parse_with B ho CrcAlways n (pre ++ hb ++ pre2 ++ cov' ++ rest) =
    Err (ECrcMismatch (r_content_crc r) (Z.of_N (crc32_unreal cov'))).
Proof.
  intros L H E Lp Fh Lh Lp2 Ls T. eapply swap_body; eauto; [now apply two_flips_length|].
  apply two_flips_detected in T. congruence.
Qed.

End Flips.
