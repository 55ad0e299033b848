(** * Proofs: the errors of attribute values are those of the specification *)

From Coq Require Import ZArith List Bool Lia ZifyBool ZifyNat.
From Verif Require Import Base Text F32 NetTypes Errors BitReader NetModels Attributes
  SpecText TextProofs BitLemmas Wire ReaderLogic LeafProofs VectorProofs TextWireProofs AttrProofs SpecAttrErrors.
Open Scope Z_scope.

(** ** Rules *)

(** the errors of the computation are exactly those of [X] *)
Definition aerr {A} (m : ard A) (X : misfit) : Prop :=
  forall r, wf r -> match m r with
    | (Ok _, _) => forall y, ~ X (flat r) y
    | (Err x, _) => forall y, X (flat r) y <-> y = x
    | (Panic _, _) => True
    end.

(** the only error is that of the name *)
Definition only {A} (what : string) (m : ard A) : Prop :=
  forall r, match m r with (Err x, _) => x = ANotEnoughDataFor what | _ => True end.

Lemma only_short {A} what (m : ard A) P : only what m -> acc m P -> aerr m (m_short what P).
Proof.
  intros O H r W. specialize (O r). specialize (H r W). destruct (m r) as [[v|x|p] s]; auto; destruct H as (_ & _ & H).
  - intros y [_ N]. apply (N v (flat s)), H. auto.
  - subst x. unfold m_short. intros y. split; [now intros [-> _]|intros ->; auto].
Qed.

Lemma only_not_enough {A} what (m : rd unit A) : only what (not_enough what m).
Proof. intros r. unfold not_enough, ok_or, map_err. destruct (m r) as [[v|x|p] s]; auto. Qed.
Lemma only_ret {A} what (a : A) : only what (ret a).
Proof. intros r. exact Logic.I. Qed.
Lemma only_panics {A} what p : only what (panics p : ard A).
Proof. intros r. exact Logic.I. Qed.
Lemma only_bind {A C} what (m : ard A) (k : A -> ard C) : only what m -> (forall a, only what (k a)) -> only what (bind m k).
Proof.
  intros H1 H2 r. unfold bind. specialize (H1 r). destruct (m r) as [[v|x|p] s]; auto. apply H2.
Qed.
Lemma only_fmap {A C} what (f : A -> C) (m : ard A) : only what m -> only what (fmap f m).
Proof. intros H. apply only_bind; auto. intros. apply only_ret. Qed.

Lemma aerr_iff {A} (m : ard A) (X Y : misfit) : aerr m X -> (forall i x, X i x <-> Y i x) -> aerr m Y.
Proof.
  intros H HQ r W. specialize (H r W). destruct (m r) as [[v|x|p] s]; auto; intros y; rewrite <- HQ; apply H.
Qed.
Lemma aerr_ext {A} (m m' : ard A) X : (forall r, wf r -> m r = m' r) -> aerr m' X -> aerr m X.
Proof. intros E H r W. rewrite E by auto. now apply H. Qed.
Lemma aerr_ret {A} (a : A) : aerr (ret a) m_none.
Proof. intros r W y []. Qed.
Lemma aerr_fail {A} x : aerr (fail x : ard A) (fun _ y => y = x).
Proof. intros r W y. reflexivity. Qed.
Lemma aerr_bind_val {A C} (m : ard A) (k : A -> ard C) X P Y : aerr m X -> acc m P ->
  (forall i a o, P i a o -> aerr (k a) (Y a)) -> aerr (bind m k) (m_part X P Y).
Proof.
  intros H1 H2 H3 r W. unfold bind. specialize (H1 r W). specialize (H2 r W). destruct (m r) as [[v|x|p] s]; auto.
  - destruct H2 as (V & _ & H2). assert (Pa : P (flat r) v (flat s)) by (apply H2; auto).
    specialize (H3 _ _ _ Pa s V).
    assert (Q : forall y, m_part X P Y (flat r) y <-> Y v (flat s) y).
    { intros y. unfold m_part. split.
      - intros [H|(a & j & Ha & H)]; [destruct (H1 _ H)|]. apply H2 in Ha as [-> ->]. exact H.
      - intros H. right. eauto. }
    destruct (k v s) as [[w|x|p] t]; auto; intros y; rewrite Q; apply H3.
  - destruct H2 as (_ & _ & H2). intros y. unfold m_part. rewrite <- H1. split; [|auto].
    intros [H|(a & j & Ha & _)]; auto. destruct (H2 _ _ Ha).
Qed.
Lemma aerr_bind {A C} (m : ard A) (k : A -> ard C) X P Y : aerr m X -> acc m P ->
  (forall a, aerr (k a) (Y a)) -> aerr (bind m k) (m_part X P Y).
Proof. intros. eapply aerr_bind_val; eauto. Qed.
Lemma aerr_named {A C} what (m : rd unit A) (k : A -> ard C) P Y : acc m P ->
  (forall a, aerr (k a) (Y a)) -> aerr (bind (not_enough what m) k) (m_named what P Y).
Proof. intros. apply aerr_bind; auto; [apply only_short; [apply only_not_enough|]|]; now apply acc_not_enough. Qed.
Lemma aerr_short {A} what (m : rd unit A) P : acc m P -> aerr (not_enough what m) (m_short what P).
Proof. intros. apply only_short; [apply only_not_enough|now apply acc_not_enough]. Qed.
(** nothing after it can fail *)
Lemma aerr_last {A C} (m : ard A) (k : A -> ard C) X P : aerr m X -> acc m P ->
  (forall a, aerr (k a) m_none) -> aerr (bind m k) X.
Proof.
  intros H1 H2 H3. eapply aerr_iff; [apply (aerr_bind m k X P (fun _ => m_none)); auto|].
  intros i x. unfold m_part. split; [intros [H|(a & j & _ & [])]; exact H|auto].
Qed.
Lemma aerr_fmap {A C} (f : A -> C) (m : ard A) X P : aerr m X -> acc m P -> aerr (fmap f m) X.
Proof. intros. eapply aerr_last; eauto. intros. apply aerr_ret. Qed.

Section Attrs.
Context (B : bitter) (HB : bitter_ok B).

(** ** Texts and unique ids *)

Lemma aerr_text_bytes size bytes : 0 <= bytes ->
  aerr (text_bytes B size bytes) (fun i x => x = ATooBigString size /\ (1024 < bytes \/ Z.of_nat (length i) < 8 * bytes)).
Proof.
  intros Hb. eapply aerr_ext; [apply text_bytes_eq; auto|]. unfold text_bytes'.
  destruct (Z.ltb_spec 1024 bytes) as [L|L].
  - eapply aerr_iff; [apply aerr_fail|]. intros i x. tauto.
  - intros r W. unfold ok_or, map_err, get_bytes, bind.
    destruct (read_bytes_spec B HB (Z.to_nat bytes) r W ltac:(lia)) as [(h & s & tail & E & V & Lh & F & Bf)|(s & E & V & F & Lf)]; rewrite E.
    + unfold buf_slice. rewrite Bf, <- Lh, take_list_app_l. intros y [_ [H|H]]; [lia|].
      rewrite F, app_length, bytes_bits_length in H. lia.
    + intros y. split; [now intros [-> _]|]. intros ->. split; auto. right. lia.
Qed.

Lemma aerr_text : aerr (decode_text B) m_text.
Proof.
  unfold decode_text, m_text. eapply aerr_bind_val;
    [apply aerr_short, acc_read_i32; auto|apply acc_not_enough, acc_read_i32; auto|].
  intros i n o [Hn _]. simpl in Hn.
  destruct (Z.eqb_spec n 0) as [->|N0].
  { eapply aerr_iff; [apply aerr_ret|]. intros j x. cbn [Z.leb Z.compare]. split; [intros []|intros [_ H]; red; lia]. }
  destruct (Z.ltb_spec n 0) as [Neg|Pos].
  - unfold fits_i32. destruct ((- 2 ^ 31 <=? n * -2) && (n * -2 <? 2 ^ 31)) eqn:Q.
    + eapply aerr_iff.
      * eapply aerr_last; [apply aerr_text_bytes|apply acc_text_bytes, HB|intros; apply aerr_ret].
        rewrite as_usize_id by lia. lia.
      * rewrite as_usize_id by lia. intros j x. destruct (Z.leb_spec 0 n); [lia|].
        split; intros [-> HL]; (split; [reflexivity|lia]).
    + eapply aerr_iff; [apply aerr_fail|]. intros j x. split; [|now intros [-> _]]. intros ->. split; auto. right. left. lia.
  - eapply aerr_iff.
    + eapply aerr_last; [apply aerr_text_bytes|apply acc_text_bytes, HB|intros; apply aerr_ret].
      rewrite as_usize_id by lia. lia.
    + rewrite as_usize_id by lia. intros j x. destruct (Z.leb_spec 0 n); [|lia].
      split; intros [-> HL]; (split; [reflexivity|lia]).
Qed.

Lemma acc_bytes n : (n <= 1024)%nat -> acc (get_bytes B n) (w_bytes n).
Proof. apply acc_get_bytes, HB. Qed.

Lemma aerr_ps4 net : aerr (decode_ps4 B net) (m_remote net 2).
Proof.
  eapply aerr_ext; [apply decode_ps4_eq; auto|]. unfold decode_ps4', m_remote.
  apply aerr_named; [apply acc_bytes; lia|]. intros ?.
  replace (if net <? 1 then 8%nat else 16%nat) with (if 1 <=? net then 16%nat else 8%nat)
    by (destruct (Z.leb_spec 1 net), (Z.ltb_spec net 1); auto; lia).
  apply aerr_named; [apply acc_bytes; destruct (1 <=? net); lia|]. intros ?.
  eapply aerr_last; [apply aerr_short, acc_read_u64; auto|apply acc_not_enough, acc_read_u64; auto|].
  intros. apply aerr_ret.
Qed.

Lemma aerr_switch net : aerr (decode_switch B) (m_remote net 6).
Proof.
  eapply aerr_ext; [apply decode_switch_eq; auto|]. unfold decode_switch', m_remote.
  apply aerr_named; [apply acc_read_u64; auto|]. intros ?.
  eapply aerr_last; [apply aerr_short, acc_bytes; lia|apply acc_not_enough, acc_bytes; lia|].
  intros. apply aerr_ret.
Qed.

Lemma aerr_psynet net : aerr (decode_psynet B net) (m_remote net 7).
Proof.
  eapply aerr_ext; [apply decode_psynet_eq; auto|]. unfold decode_psynet', m_remote.
  apply aerr_named; [apply acc_read_u64; auto|]. intros ?. destruct (net <? 10); [|apply aerr_ret].
  eapply aerr_last; [apply aerr_short, acc_bytes; lia|apply acc_not_enough, acc_bytes; lia|].
  intros. apply aerr_ret.
Qed.

Lemma acc_remote net sys : acc
    (if sys =? 0 then
       fmap (fun x => RSplitScreen (as_u32 x)) (not_enough "SplitScreen" (read_bits B 24))
     else if sys =? 1 then fmap RSteam (not_enough "Steam" (read_u64 B))
     else if sys =? 2 then decode_ps4 B net
     else if sys =? 4 then fmap RXbox (not_enough "Xbox" (read_u64 B))
     else if sys =? 5 then fmap RQQ (not_enough "QQ ID" (read_u64 B))
     else if sys =? 6 then decode_switch B
     else if sys =? 7 then decode_psynet B net
     else if sys =? 11 then fmap REpic (decode_text B)
     else fail (AUnrecognizedRemoteId sys)) (w_remote net sys) /\ aerr
    (if sys =? 0 then
       fmap (fun x => RSplitScreen (as_u32 x)) (not_enough "SplitScreen" (read_bits B 24))
     else if sys =? 1 then fmap RSteam (not_enough "Steam" (read_u64 B))
     else if sys =? 2 then decode_ps4 B net
     else if sys =? 4 then fmap RXbox (not_enough "Xbox" (read_u64 B))
     else if sys =? 5 then fmap RQQ (not_enough "QQ ID" (read_u64 B))
     else if sys =? 6 then decode_switch B
     else if sys =? 7 then decode_psynet B net
     else if sys =? 11 then fmap REpic (decode_text B)
     else fail (AUnrecognizedRemoteId sys)) (m_remote net sys).
Proof.
  assert (U : forall what (f : Z -> remote_id), acc (fmap f (not_enough what (read_u64 B))) (w_map f (w_uint 64)) /\
    aerr (fmap f (not_enough what (read_u64 B))) (m_short what (w_uint 64))).
  { intros what f. split; [apply acc_fmap, acc_not_enough, acc_read_u64; auto|].
    eapply aerr_fmap; [apply aerr_short|apply acc_not_enough]; apply acc_read_u64; auto. }
  destruct (Z.eqb_spec sys 0) as [->|N0].
  { split; [|eapply aerr_fmap; [apply aerr_short|apply acc_not_enough]; apply (acc_read_bits B HB 24)].
    apply acc_fmap_eq; [apply acc_not_enough, acc_read_bits; auto|].
    intros i a o [Ha _]. rewrite as_u32_id; auto. simpl in Ha. lia. }
  destruct (Z.eqb_spec sys 1) as [->|N1]; [apply U|].
  destruct (Z.eqb_spec sys 2) as [->|N2]; [split; [apply acc_ps4; auto|apply aerr_ps4]|].
  destruct (Z.eqb_spec sys 4) as [->|N4]; [apply U|].
  destruct (Z.eqb_spec sys 5) as [->|N5]; [apply U|].
  destruct (Z.eqb_spec sys 6) as [->|N6]; [split; [apply acc_switch; auto|apply aerr_switch]|].
  destruct (Z.eqb_spec sys 7) as [->|N7]; [split; [apply acc_psynet; auto|apply aerr_psynet]|].
  destruct (Z.eqb_spec sys 11) as [->|N11].
  { split; [apply acc_fmap, acc_text; auto|eapply aerr_fmap; [apply aerr_text|apply acc_text; auto]]. }
  assert (W : w_remote net sys = w_none /\ m_remote net sys = fun _ x => x = AUnrecognizedRemoteId sys).
  { unfold w_remote, m_remote. destruct sys as [|p|p]; [congruence| |split; reflexivity].
    repeat (destruct p as [p|p|]; try (split; reflexivity); try congruence). }
  destruct W as [-> ->]. split; [apply acc_fail|apply aerr_fail].
Qed.

Lemma aerr_unique_tail net sys : aerr (decode_unique_id_with_system_id B net sys) (m_unique_tail net sys).
Proof.
  unfold decode_unique_id_with_system_id, m_unique_tail.
  apply aerr_bind; [apply acc_remote|apply acc_remote|]. intros rid.
  eapply aerr_last; [apply aerr_short, acc_read_u8; auto|apply acc_not_enough, acc_read_u8; auto|].
  intros. apply aerr_ret.
Qed.

Lemma aerr_unique net : aerr (decode_unique_id B net) (m_unique net).
Proof. unfold decode_unique_id, m_unique. apply aerr_named; [apply acc_read_u8; auto|]. apply aerr_unique_tail. Qed.

Lemma only_name fuel : forall p, only "Reservation" (reservation_name B fuel p).
Proof.
  induction fuel as [|fuel IH]; intros p; cbn [reservation_name].
  - destruct (lenZ p <? 255); [apply only_panics|apply only_ret].
  - destruct (lenZ p <? 255); [|apply only_ret]. apply only_bind; [apply only_not_enough|]. intros c.
    destruct (c =? 0); [apply only_ret|apply IH].
Qed.

Lemma aerr_res_name u :
  aerr (if negb (ui_system_id u =? 0) then fmap Some (decode_text B)
       else if negb (is_splitscreen0 (ui_remote_id u)) then fmap Some (reservation_name B 256 [])
       else ret None) (m_reservation_name u).
Proof.
  pose proof (acc_res_name B HB u) as A. unfold m_reservation_name. destruct (ui_system_id u =? 0); cbn [negb] in *.
  - apply only_short; auto. destruct (is_splitscreen0 (ui_remote_id u)); cbn [negb]; [apply only_ret|].
    apply only_fmap, only_name.
  - eapply aerr_fmap; [apply aerr_text|apply acc_text; auto].
Qed.

Lemma aerr_attribute D tag : aerr (decode_attribute B D tag) (m_attribute D tag).
Proof.
  pose proof (acc_attribute B HB D tag) as A.
  destruct tag; try (apply only_short; [|exact A]; apply only_not_enough);
    try (apply only_short; [|exact A]; clear A;
      unfold decode_attribute, decode_uncommon, decode_impulse, decode_replicated_boost, decode_team_loadout,
        decode_pickup, decode_pickup_new, decode_logo_data, decode_rotation; cbn [plain_name];
      repeat (apply only_bind; [apply only_not_enough|intros ?]); solve [apply only_ret]).
  - unfold decode_attribute, decode_uncommon, decode_qword_string, decode_string, decode_qword, m_attribute.
    destruct (ad_is_rl_223 D); [eapply aerr_fmap; [apply aerr_text|apply acc_text; auto]|].
    eapply aerr_iff; [apply aerr_short, acc_fmap, acc_read_u64; auto|]. intros i x. unfold m_short, w_map.
    split; intros [-> H]; (split; [reflexivity|]); intros v o Hv; [eapply H; eauto|]. destruct Hv as (a & Ha & _). eapply H; eauto.
  - apply aerr_fail.
  - eapply aerr_fmap; [apply aerr_text|apply acc_text; auto].
  - eapply aerr_fmap; [apply aerr_unique|apply acc_unique; auto].
  - unfold decode_attribute, decode_uncommon, decode_reservation, m_attribute. rewrite version_at_least.
    apply aerr_named.
    { eapply acc_iff; [apply (acc_fmap_eq _ (fun x : Z => x)); [apply (acc_read_bits B HB 3)|]|].
      - intros i a o [Ha _]. simpl in Ha. rewrite as_u32_id by lia. reflexivity.
      - intros i v o. unfold w_map. split; [intros (a & Ha & ->); auto|eauto]. }
    intros number. apply aerr_bind; [apply aerr_unique|apply acc_unique; auto|]. intros u.
    apply aerr_bind; [apply aerr_res_name|apply acc_res_name; auto|]. intros name.
    apply aerr_named; [apply acc_read_bit; auto|]. intros u1.
    apply aerr_named; [apply acc_read_bit; auto|]. intros u2.
    assert (Q : acc (if at_least (ad_version D) 868 12 0
        then not_enough "Reservation" (fmap (fun x => Some (as_u8 (as_u32 x))) (read_bits B 6))
        else ret None) (w_when (at_least (ad_version D) 868 12 0) (w_uint 6))).
    { unfold w_when. destruct (at_least (ad_version D) 868 12 0); [|apply acc_ret]. apply acc_not_enough.
      apply acc_fmap_eq; [apply (acc_read_bits B HB 6)|]. intros i x o [Ha _]. simpl in Ha.
      unfold as_u8, as_u32. rewrite !mod_small_eq by (rewrite ?mod_small_eq; lia). reflexivity. }
    eapply aerr_last; [|exact Q|intros; apply aerr_ret]. apply only_short; [|exact Q].
    destruct (at_least (ad_version D) 868 12 0); [apply only_not_enough|apply only_ret].
  - unfold decode_attribute, decode_uncommon, decode_party_leader, m_attribute.
    apply aerr_named; [apply acc_read_u8; auto|]. intros sys. destruct (sys =? 0); cbn [negb]; [apply aerr_ret|].
    eapply aerr_fmap; [apply aerr_unique_tail|apply acc_unique_tail; auto].
  - unfold decode_attribute, decode_uncommon, decode_private_match_settings, m_attribute.
    apply aerr_bind; [apply aerr_text|apply acc_text; auto|]. intros mu.
    apply aerr_named; [apply acc_read_u32; auto|]. intros j.
    apply aerr_named; [apply acc_read_u32; auto|]. intros mp.
    apply aerr_bind; [apply aerr_text|apply acc_text; auto|]. intros g.
    apply aerr_bind; [apply aerr_text|apply acc_text; auto|]. intros p.
    eapply aerr_last; [apply aerr_short, acc_read_bit; auto|apply acc_not_enough, acc_read_bit; auto|].
    intros. apply aerr_ret.
  - unfold decode_attribute, decode_uncommon, decode_rep_stat_title, m_attribute.
    apply aerr_named; [apply acc_read_bit; auto|]. intros u.
    apply aerr_bind; [apply aerr_text|apply acc_text; auto|]. intros n.
    apply aerr_named; [apply acc_read_bit; auto|]. intros u2.
    apply aerr_named; [apply acc_read_u32; auto|]. intros ix.
    eapply aerr_last; [apply aerr_short, acc_read_u32; auto|apply acc_not_enough, acc_read_u32; auto|].
    intros. apply aerr_ret.
Qed.

Lemma attribute_errors D tag r x : wf r ->
  (exists s, decode_attribute B D tag r = (Err x, s)) <-> m_attribute D tag (flat r) x.
Proof.
  intros W. pose proof (aerr_attribute D tag r W) as H. pose proof (acc_attribute B HB D tag r W) as A.
  destruct (decode_attribute B D tag r) as [[v|y|p] s].
  - split; [intros (t & E); discriminate|]. intros Hx. destruct (H _ Hx).
  - rewrite H. split; [intros (t & E); congruence|]. intros ->. eauto.
  - destruct A as (_ & _ & []).
Qed.

End Attrs.
