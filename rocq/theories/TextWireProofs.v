(** * Proofs: byte strings, texts, unique ids *)

From Coq Require Import ZArith List Bool Lia ZifyBool ZifyNat.
From Verif Require Import Base Text F32 NetTypes Errors BitReader NetModels Attributes
  SpecText TextProofs BitLemmas Wire ReaderLogic LeafProofs VectorProofs.
Open Scope Z_scope.

(** ** More rules *)

Lemma acc_fmap_eq {E A C} (f g : A -> C) (m : rd E A) P :
  acc m P -> (forall i a o, P i a o -> f a = g a) -> acc (fmap f m) (w_map g P).
Proof.
  intros H Hfg. eapply acc_iff; [apply acc_fmap; eauto|].
  intros i v o. unfold w_map. split; intros (a & Ha & ->); exists a; split; auto;
    [|symmetry]; eapply Hfg; eauto.
Qed.

Lemma acc_ext {E A} (m m' : rd E A) P :
  (forall r, wf r -> m r = m' r) -> acc m' P -> acc m P.
Proof. intros H H' r W. specialize (H' r W). now rewrite H. Qed.

Lemma same_ext {E A} (m1 m2 m1' m2' : rd E A) :
  (forall r, wf r -> m1 r = m1' r) -> (forall r, wf r -> m2 r = m2' r) ->
  same m1' m2' -> same m1 m2.
Proof.
  intros H1 H2 H r1 r2 W1 W2 F. rewrite H1, H2 by auto. auto.
Qed.

Lemma acc_not_enough {A} w (m : rd unit A) P : acc m P -> acc (not_enough w m) P.
Proof. apply acc_ok_or. Qed.
Lemma same_not_enough {A} w (m1 m2 : rd unit A) : same m1 m2 -> same (not_enough w m1) (not_enough w m2).
Proof. apply same_ok_or. Qed.

Lemma bind_ext {S E A C} (m : comp S E A) (k k' : A -> comp S E C) r :
  (forall a s, m r = (Ok a, s) -> k a s = k' a s) -> bind m k r = bind m k' r.
Proof. intros H. unfold bind. destruct (m r) as [[a|e|p] s]; auto. Qed.

(** ** Bytes *)

Lemma enc_byte_bits b : enc_bits 8 (Z.of_N (Byte.to_N b)) = byte_bits b.
Proof. destruct b; reflexivity. Qed.

Lemma enc_bytes_bits l : enc_bytes l = bytes_bits l.
Proof.
  unfold enc_bytes, bytes_bits. induction l; cbn [map concat flat_map]; auto. now rewrite enc_byte_bits, IHl.
Qed.

Lemma enc_bytes_length l : length (enc_bytes l) = (8 * length l)%nat.
Proof. rewrite enc_bytes_bits. apply bytes_bits_length. Qed.

Lemma bytes_bits_inj a b : bytes_bits a = bytes_bits b -> a = b.
Proof.
  revert b; induction a as [|x a IH]; intros [|y b] H; auto;
    try (apply (f_equal (@length bool)) in H; rewrite !bytes_bits_length in H; simpl in H; lia).
  rewrite !bytes_bits_cons in H. apply app_inj_len in H as [H1 H2].
  - rewrite <- (byte_of_byte_bits x), <- (byte_of_byte_bits y), H1. f_equal. auto.
  - now rewrite !byte_bits_length.
Qed.

Lemma w_bytes_iff n h t l o : length h = n ->
  w_bytes n (bytes_bits h ++ t) l o <-> l = h /\ o = t.
Proof.
  intros L. unfold w_bytes. rewrite enc_bytes_bits. split.
  - intros [Hl H]. apply app_inj_len in H as [H1 H2].
    + apply bytes_bits_inj in H1. auto.
    + rewrite !bytes_bits_length. lia.
  - intros [-> ->]. auto.
Qed.

Lemma w_bytes_length n i l o : w_bytes n i l o -> length i = (8 * n + length o)%nat.
Proof. intros [L ->]. rewrite app_length, enc_bytes_length. lia. Qed.

(** [read_bytes] into the scratch buffer, then the slice *)
Definition get_bytes (B : bitter) (n : nat) : rd unit (list byte) :=
  bind (read_bytes B n) (fun _ => buf_slice n).

Section Bytes.
Context (B : bitter) (HB : bitter_ok B).

Lemma read_bytes_spec n r : wf r -> (n <= 1024)%nat ->
  (exists h s tail, read_bytes B n r = (Ok tt, s) /\ wf s /\ length h = n /\
     flat r = bytes_bits h ++ flat s /\ buf s = h ++ tail) \/
  (exists s, read_bytes B n r = (Err tt, s) /\ wf s /\ flat s = flat r /\
     (length (flat r) < 8 * n)%nat).
Proof.
  intros [W1 W2] Hn. unfold read_bytes.
  destruct (take_list n (buf r)) as [[bh tail]|] eqn:T.
  2: { apply take_list_none in T. lia. }
  apply take_list_app in T as [T LT].
  destruct (bt_fetch B n (lk r) (rest r)) as [l t] eqn:F.
  pose proof (fetch_flat B HB _ _ _ _ _ F) as FF.
  pose proof (fetch_le B HB _ _ _ _ _ F W1) as FL.
  pose proof (take_bytes_flat n l t) as Tb.
  destruct (take_bytes n l t) as [[h [l' t']]|].
  - destruct Tb as (E & L & V). left. exists h, (mkRs l' t' (h ++ tail)), tail.
    split; [reflexivity|]. split.
    { split; simpl; auto. rewrite T in W2. rewrite app_length in *. lia. }
    split; [auto|]. split; [|reflexivity]. unfold flat at 1. now rewrite <- FF, E.
  - right. exists (mkRs l t (buf r)). split; [reflexivity|]. split; [split; auto|].
    split; [exact FF|]. unfold flat. now rewrite <- FF.
Qed.

Lemma acc_get_bytes n : (n <= 1024)%nat -> acc (get_bytes B n) (w_bytes n).
Proof.
  intros Hn r W. unfold get_bytes, bind.
  destruct (read_bytes_spec n r W Hn) as [(h & s & tail & E & V & L & F & Bf)|(s & E & V & F & L)]; rewrite E.
  - unfold buf_slice. rewrite Bf. subst n. rewrite take_list_app_l.
    split; auto. split; [unfold shorter; rewrite F, app_length; lia|].
    intros v' rest'. rewrite F. now apply w_bytes_iff.
  - split; auto. split; [unfold shorter; now rewrite F|]. intros v' rest' H.
    apply w_bytes_length in H. lia.
Qed.

(** reading and slicing with an error attached to the read only *)
Lemma get_bytes_ok_or {E} (e : E) n r : wf r -> (n <= 1024)%nat ->
  bind (ok_or e (read_bytes B n)) (fun _ => buf_slice n) r = ok_or e (get_bytes B n) r.
Proof.
  intros W Hn. unfold get_bytes, ok_or, map_err, bind.
  destruct (read_bytes_spec n r W Hn) as [(h & s & tail & E1 & V & L & F & Bf)|(s & E1 & V & F & L)]; rewrite E1.
  - unfold buf_slice. rewrite Bf. subst n. now rewrite take_list_app_l.
  - reflexivity.
Qed.

Lemma get_bytes_bind {E A} (e : E) n (k : list byte -> rd E A) r : wf r -> (n <= 1024)%nat ->
  bind (ok_or e (read_bytes B n)) (fun _ => bind (buf_slice n) k) r = bind (ok_or e (get_bytes B n)) k r.
Proof.
  intros W Hn. pose proof (get_bytes_ok_or e n r W Hn) as G. unfold bind in *.
  rewrite <- G. destruct (ok_or e (read_bytes B n) r) as [[u|e1|p] t]; auto.
Qed.

Lemma acc_buf_len {E} : @acc E Z buf_len (w_ret 1024).
Proof.
  intros r W. split; auto. split; auto. intros v' rest'. unfold w_ret, lenZ.
  destruct W as [_ ->]. reflexivity.
Qed.

(** ** Texts *)

Definition text_bytes' (size bytes : Z) : ard (list byte) :=
  if 1024 <? bytes then fail (ATooBigString size)
  else ok_or (ATooBigString size) (get_bytes B (Z.to_nat bytes)).

Lemma text_bytes_eq size bytes r : wf r -> text_bytes B size bytes r = text_bytes' size bytes r.
Proof.
  intros W. unfold text_bytes, text_bytes'.
  transitivity ((if 1024 <? bytes then fail (ATooBigString size)
    else bind (ok_or (ATooBigString size) (read_bytes B (Z.to_nat bytes)))
           (fun _ => buf_slice (Z.to_nat bytes))) r).
  - unfold bind at 1, buf_len, lenZ. destruct W as [_ ->]. reflexivity.
  - destruct (Z.ltb_spec 1024 bytes); [reflexivity|]. apply get_bytes_ok_or; auto. lia.
Qed.

Lemma acc_text_bytes size bytes :
  acc (text_bytes B size bytes) (if 1024 <? bytes then w_none else w_bytes (Z.to_nat bytes)).
Proof.
  eapply acc_ext; [apply text_bytes_eq|]. unfold text_bytes'.
  destruct (Z.ltb_spec 1024 bytes); [apply acc_fail|]. apply acc_ok_or, acc_get_bytes. lia.
Qed.

Lemma drop_last_1 l : drop_last 1 l = removelast l.
Proof.
  unfold drop_last. rewrite removelast_firstn_len. f_equal. lia.
Qed.

Lemma drop_last_2 l : drop_last 2 l = removelast (removelast l).
Proof.
  unfold drop_last. rewrite !removelast_firstn_len, firstn_firstn, firstn_length. f_equal. lia.
Qed.

Lemma as_usize_id x : 0 <= x < 2 ^ 64 -> as_usize x = x.
Proof. intros H. unfold as_usize. now rewrite Z.mod_small. Qed.

Lemma acc_text : acc (decode_text B) w_text.
Proof.
  unfold decode_text, w_text.
  eapply acc_bind_val; [apply acc_not_enough, acc_read_i32; auto|]. intros i n o Hn.
  destruct Hn as [Hn _]. simpl in Hn. clear i o.
  destruct (Z.eqb_spec n 0) as [E0|E0]; [apply acc_ret|].
  destruct (Z.ltb_spec n 0) as [Neg|Pos].
  - destruct (Z.ltb_spec 0 n); [lia|]. unfold fits_i32.
    destruct (Z.leb_spec (- n) 512) as [Le|Gt].
    + replace ((- 2 ^ 31 <=? n * -2) && (n * -2 <? 2 ^ 31)) with true by lia.
      eapply acc_iff; [eapply acc_bind; [apply acc_text_bytes|intros; apply acc_ret]|].
      rewrite as_usize_id by lia. replace (1024 <? n * -2) with false by lia.
      replace (n * -2) with (2 * - n) by lia.
      intros i v o. unfold w_bind, w_such, w_ret, decode_utf16.
      assert (Ev : forall l : list byte, length l = Z.to_nat (2 * - n) ->
        Nat.Even (length (removelast (removelast l)))).
      { intros l Hl. rewrite <- drop_last_2. unfold drop_last. rewrite firstn_length.
        exists (Z.to_nat (- n) - 1)%nat. lia. }
      split.
      * intros (l & m & H1 & -> & ->). exists l. rewrite drop_last_2. split; auto.
        apply decode_utf16_spec; [apply Ev, H1|reflexivity].
      * intros (l & H1 & H2). exists l, o. rewrite drop_last_2. split; [auto|].
        apply decode_utf16_spec in H2; [auto|apply Ev, H1].
    + destruct ((- 2 ^ 31 <=? n * -2) && (n * -2 <? 2 ^ 31)) eqn:Q.
      * eapply acc_iff; [eapply acc_bind; [apply acc_text_bytes|intros; apply acc_ret]|].
        rewrite as_usize_id by lia. replace (1024 <? n * -2) with true by lia.
        intros i v o. unfold w_bind, w_none. split; [intros (? & ? & [] & _)|intros []].
      * apply acc_fail.
  - destruct (Z.ltb_spec 0 n); [|lia].
    eapply acc_iff; [eapply acc_bind; [apply acc_text_bytes|intros; apply acc_ret]|].
    rewrite as_usize_id by lia. intros i v o.
    destruct (Z.leb_spec n 1024) as [Le|Gt].
    + replace (1024 <? n) with false by lia.
      unfold w_bind, w_such, w_ret, decode_windows1252. split.
      * intros (l & m & H1 & -> & ->). exists l. rewrite drop_last_1. split; auto.
        now apply decode_cp1252_spec.
      * intros (l & H1 & H2). exists l, o. rewrite drop_last_1. split; auto.
        apply decode_cp1252_spec in H2. auto.
    + replace (1024 <? n) with true by lia.
      unfold w_bind, w_none. split; [intros (? & ? & [] & _)|intros []].
Qed.

(** ** Unique ids *)

Lemma until_nul_eq l : until_nul l = before_nul l.
Proof.
  induction l as [|b l IH]; auto. simpl. rewrite IH.
  destruct b; reflexivity.
Qed.

Lemma read_bits_buf n r : buf (snd (read_bits B n r)) = buf r.
Proof.
  unfold read_bits. destruct (bt_fetch B n (lk r) (rest r)) as [l t].
  destruct (take_bits n l t) as [[h [l' t']]|]; reflexivity.
Qed.

Definition decode_ps4' (net_version : Z) : ard remote_id :=
  let k := if 1 <=? net_version then 16%nat else 8%nat in
  let* name := ok_or (ANotEnoughDataFor "PS4 Name") (get_bytes B 16) in
  let* unknown := ok_or (ANotEnoughDataFor "PS4 Unknown") (get_bytes B k) in
  let* id := ok_or (ANotEnoughDataFor "PS4 ID") (read_u64 B) in
  ret (RPlayStation id (decode_cp1252 (until_nul name)) unknown).

Lemma decode_ps4_eq net r : wf r -> decode_ps4 B net r = decode_ps4' net r.
Proof.
  intros W. unfold decode_ps4, decode_ps4', not_enough.
  set (k := if 1 <=? net then 16%nat else 8%nat).
  assert (Hk : (k <= 1024)%nat) by (unfold k; destruct (1 <=? net); lia).
  unfold bind, ok_or, map_err, get_bytes.
  destruct (read_bytes_spec 16 r W ltac:(lia)) as [(h & s & tail & E & V & L & F & Bf)|(s & E & V & F & L)].
  2: { unfold bind. now rewrite E. }
  unfold bind. rewrite E. unfold buf_slice. rewrite Bf. rewrite <- L, take_list_app_l.
  destruct (read_bytes_spec k s V Hk) as [(h2 & s2 & tail2 & E2 & V2 & L2 & F2 & Bf2)|(s2 & E2 & V2 & F2 & L2)];
    rewrite E2; [|reflexivity].
  rewrite Bf2, <- L2, take_list_app_l.
  pose proof (read_bits_buf 64 s2) as Hb. unfold read_u64.
  destruct (read_bits B 64 s2) as [[id|[]|p] s3]; auto. simpl in Hb. rewrite Hb, Bf2, take_list_app_l.
  reflexivity.
Qed.

Lemma acc_ps4 net : acc (decode_ps4 B net) (w_remote net 2).
Proof.
  eapply acc_ext; [apply decode_ps4_eq|]. unfold decode_ps4', w_remote.
  eapply acc_iff with (P := w_bind (w_bytes 16) (fun name =>
    w_bind (w_bytes (if net <? 1 then 8 else 16)) (fun unknown => w_bind (w_uint 64) (fun id =>
      w_ret (RPlayStation id (decode_cp1252 (before_nul name)) unknown))))).
  2: { intros i v o. unfold w_bind at 1 4, w_such. split.
       - intros (l & m & H1 & H2). exists (decode_cp1252 (before_nul l)), m. split; [|exact H2].
         exists l. split; [exact H1|]. now apply decode_cp1252_spec.
       - intros (t & m & (l & H1 & H3) & H2). apply decode_cp1252_spec in H3 as ->. exists l, m. auto. }
  apply acc_bind; [apply acc_ok_or, acc_get_bytes; lia|]. intros name.
  replace (if net <? 1 then 8%nat else 16%nat) with (if 1 <=? net then 16%nat else 8%nat)
    by (destruct (Z.leb_spec 1 net), (Z.ltb_spec net 1); auto; lia).
  apply acc_bind; [apply acc_ok_or, acc_get_bytes; destruct (1 <=? net); lia|]. intros unknown.
  apply acc_bind; [apply acc_ok_or, acc_read_u64; auto|]. intros id.
  rewrite until_nul_eq. apply acc_ret.
Qed.

Definition decode_switch' : ard remote_id :=
  let* id := ok_or (ANotEnoughDataFor "Switch ID") (read_u64 B) in
  let* unknown := ok_or (ANotEnoughDataFor "Switch ID Unknown") (get_bytes B 24) in
  ret (RSwitch id unknown).

Lemma acc_wf {E A} (m : rd E A) P r : acc m P -> wf r -> wf (snd (m r)).
Proof. intros H W. specialize (H r W). destruct (m r). simpl. tauto. Qed.

Lemma decode_switch_eq r : wf r -> decode_switch B r = decode_switch' r.
Proof.
  intros W. unfold decode_switch, decode_switch', not_enough.
  pose proof (acc_wf _ _ r (acc_ok_or (ANotEnoughDataFor "Switch ID") _ _ (acc_read_u64 B HB)) W) as V.
  apply bind_ext. intros id s Es. rewrite Es in V.
  apply get_bytes_bind; auto; lia.
Qed.

Definition decode_psynet' (net_version : Z) : ard remote_id :=
  let* id := ok_or (ANotEnoughDataFor "PsyNet ID") (read_u64 B) in
  if net_version <? 10 then
    let* unknown := ok_or (ANotEnoughDataFor "PsyNet ID Unknown") (get_bytes B 24) in
    ret (RPsyNet id unknown)
  else ret (RPsyNet id []).

Lemma decode_psynet_eq net r : wf r -> decode_psynet B net r = decode_psynet' net r.
Proof.
  intros W. unfold decode_psynet, decode_psynet', not_enough.
  destruct (net <? 10); [|reflexivity].
  pose proof (acc_wf _ _ r (acc_ok_or (ANotEnoughDataFor "PsyNet ID") _ _ (acc_read_u64 B HB)) W) as V.
  apply bind_ext. intros id s Es. rewrite Es in V.
  apply get_bytes_bind; auto; lia.
Qed.

Lemma acc_switch net : acc (decode_switch B) (w_remote net 6).
Proof.
  eapply acc_ext; [apply decode_switch_eq|]. unfold decode_switch', w_remote.
  apply acc_bind; [apply acc_ok_or, acc_read_u64; auto|]. intros id.
  apply acc_bind; [apply acc_ok_or, acc_get_bytes; lia|]. intros unknown. apply acc_ret.
Qed.

Lemma acc_psynet net : acc (decode_psynet B net) (w_remote net 7).
Proof.
  eapply acc_ext; [apply decode_psynet_eq|]. unfold decode_psynet', w_remote.
  apply acc_bind; [apply acc_ok_or, acc_read_u64; auto|]. intros id.
  destruct (net <? 10).
  - apply acc_bind; [apply acc_ok_or, acc_get_bytes; lia|]. intros unknown. apply acc_ret.
  - eapply acc_iff; [apply acc_ret|]. intros i v o. unfold w_bind, w_ret, w_bytes. split.
    + intros [-> ->]. exists [], i. auto.
    + intros (l & m & [L ->] & -> & ->). destruct l; [auto|discriminate].
Qed.

Lemma as_u32_id x : 0 <= x < 2 ^ 32 -> as_u32 x = x.
Proof. intros H. unfold as_u32. now rewrite Z.mod_small. Qed.

Lemma acc_unique_tail net sys : acc (decode_unique_id_with_system_id B net sys) (w_unique_tail net sys).
Proof.
  unfold decode_unique_id_with_system_id, w_unique_tail.
  apply acc_bind.
  2: { intros rid. apply acc_bind; [apply acc_not_enough, acc_read_u8; auto|]. intros. apply acc_ret. }
  destruct (Z.eqb_spec sys 0) as [->|N0].
  { apply acc_fmap_eq; [apply acc_not_enough, acc_read_bits; auto|].
    intros i a o [Ha _]. rewrite as_u32_id; auto. simpl in Ha. lia. }
  destruct (Z.eqb_spec sys 1) as [->|N1].
  { apply acc_fmap, acc_not_enough, acc_read_u64; auto. }
  destruct (Z.eqb_spec sys 2) as [->|N2]; [apply acc_ps4|].
  destruct (Z.eqb_spec sys 4) as [->|N4].
  { apply acc_fmap, acc_not_enough, acc_read_u64; auto. }
  destruct (Z.eqb_spec sys 5) as [->|N5].
  { apply acc_fmap, acc_not_enough, acc_read_u64; auto. }
  destruct (Z.eqb_spec sys 6) as [->|N6]; [apply acc_switch|].
  destruct (Z.eqb_spec sys 7) as [->|N7]; [apply acc_psynet|].
  destruct (Z.eqb_spec sys 11) as [->|N11]; [apply acc_fmap, acc_text|].
  assert (W : w_remote net sys = w_none).
  { unfold w_remote. destruct sys as [|p|p]; [congruence| |reflexivity].
    repeat (destruct p as [p|p|]; try reflexivity; try congruence). }
  rewrite W. apply acc_fail.
Qed.

Lemma acc_unique net : acc (decode_unique_id B net) (w_unique net).
Proof.
  apply acc_bind; [apply acc_not_enough, acc_read_u8; auto|]. intros. apply acc_unique_tail.
Qed.

End Bytes.
