(** * Proofs: every attribute decoder accepts exactly its wire format *)

From Coq Require Import ZArith List Bool Lia ZifyBool ZifyNat.
From Verif Require Import Base Text F32 NetTypes Errors BitReader NetModels Attributes
  SpecText TextProofs BitLemmas Wire ReaderLogic LeafProofs VectorProofs TextWireProofs.
Open Scope Z_scope.

Lemma version_at_least v a b c : version_geb v (mkVersion a b c) = at_least v a b c.
Proof.
  unfold version_geb, at_least; simpl.
  destruct (Z.eqb_spec (v_major v) a), (Z.eqb_spec a (v_major v)); try lia;
  destruct (Z.eqb_spec (v_minor v) b), (Z.eqb_spec b (v_minor v)); try lia.
Qed.

Lemma mod_small_eq x n : 0 <= x < n -> x mod n = x.
Proof. apply Z.mod_small. Qed.

(** ** Latin-1 names *)

Lemma utf8_encode_app a b : utf8_encode (a ++ b) = utf8_encode a ++ utf8_encode b.
Proof. unfold utf8_encode. induction a; simpl; auto. now rewrite IHa, app_assoc. Qed.

Lemma utf8_char_len c : 1 <= lenZ (utf8_char c) <= 4.
Proof. unfold utf8_char, lenZ. destruct (c <? 128), (c <? 2048), (c <? 65536); simpl; lia. Qed.

Lemma lenZ_app {A} (a b : list A) : lenZ (a ++ b) = lenZ a + lenZ b.
Proof. unfold lenZ. rewrite app_length. lia. Qed.

Definition w_name_from (p : list Z) : wire str := fun i s o =>
  exists cs : list Z,
    s = utf8_encode (p ++ cs) /\ Forall (fun c => 0 < c < 256) cs /\
    (forall q c t, cs = q ++ c :: t -> lenZ (utf8_encode (p ++ q)) < 255) /\
    (lenZ s < 255 /\ i = concat (map (enc_bits 8) cs) ++ enc_bits 8 0 ++ o \/
     255 <= lenZ s /\ i = concat (map (enc_bits 8) cs) ++ o).

Lemma latin1_scalar cs : Forall (fun c => 0 < c < 256) cs -> Forall scalar cs.
Proof. apply Forall_impl. unfold scalar, surrogate. lia. Qed.
Lemma w_name_from_nil i s o : w_name_from [] i s o <-> w_local_name i s o.
Proof.
  unfold w_name_from, w_local_name. split.
  - intros (cs & -> & F & Pre & C). exists cs. cbn [app] in *. split.
    { apply utf8_encode_spec. split; [apply latin1_scalar, F|reflexivity]. }
    split; [exact F|]. split; [|exact C].
    intros p c q t E U. apply utf8_encode_spec in U as [_ ->]. eapply Pre, E.
  - intros (cs & U & F & Pre & C). apply utf8_encode_spec in U as [_ ->]. exists cs. cbn [app].
    split; [reflexivity|]. split; [exact F|]. split; [|exact C].
    intros q c t ->. eapply (Pre q c t); [reflexivity|]. apply utf8_encode_spec.
    split; [|reflexivity]. apply latin1_scalar. apply Forall_app in F. tauto.
Qed.

Lemma w_name_from_step p i s o : lenZ (utf8_encode p) < 255 ->
  w_name_from p i s o <->
  w_bind (w_uint 8) (fun c => if c =? 0 then w_ret (utf8_encode p) else w_name_from (p ++ [c])) i s o.
Proof.
  intros Hp. unfold w_bind. split.
  - intros (cs & -> & Fa & Pre & Cases). destruct cs as [|c cs].
    + rewrite app_nil_r in *. destruct Cases as [[L ->]|[L _]]; [|lia].
      exists 0, o. split; [split; [simpl; lia|reflexivity]|]. simpl. split; auto.
    + inversion Fa as [|? ? Hc Fa']; subst. exists c.
      assert (Hi : exists m, i = enc_bits 8 c ++ m /\
         (lenZ (utf8_encode (p ++ c :: cs)) < 255 /\ m = concat (map (enc_bits 8) cs) ++ enc_bits 8 0 ++ o \/
          255 <= lenZ (utf8_encode (p ++ c :: cs)) /\ m = concat (map (enc_bits 8) cs) ++ o)).
      { destruct Cases as [[L ->]|[L ->]]; cbn [map concat]; rewrite <- app_assoc; eexists; split; eauto. }
      destruct Hi as (m & -> & Cm). exists m. split.
      * split; [simpl; lia|reflexivity].
      * destruct (Z.eqb_spec c 0); [lia|]. exists cs. rewrite <- app_assoc. simpl.
        split; [reflexivity|]. split; [auto|]. split; [|auto].
        intros q c' t ->. specialize (Pre (c :: q) c' t eq_refl). now rewrite <- app_assoc.
  - intros (c & m & [Rc ->] & H). simpl in Rc. destruct (Z.eqb_spec c 0) as [->|Nc].
    + destruct H as [-> ->]. exists []. rewrite app_nil_r. split; auto. split; auto. split.
      * intros [|]; discriminate.
      * left. auto.
    + destruct H as (cs & -> & Fa & Pre & Cases). exists (c :: cs).
      rewrite <- app_assoc in *. simpl in Cases. split; [reflexivity|]. split.
      * constructor; auto. lia.
      * split.
        -- intros q c' t Eq. destruct q as [|c0 q].
           ++ now rewrite app_nil_r.
           ++ injection Eq as <- ->. specialize (Pre q c' t eq_refl). now rewrite <- app_assoc in Pre.
        -- destruct Cases as [[L ->]|[L ->]]; [left|right]; (split; [auto|]); cbn [map concat];
             now rewrite <- !app_assoc.
Qed.

Lemma w_name_from_done p i s o : 255 <= lenZ (utf8_encode p) ->
  w_name_from p i s o <-> w_ret (utf8_encode p) i s o.
Proof.
  intros Hp. unfold w_ret. split.
  - intros (cs & -> & Fa & Pre & Cases).
    destruct cs as [|c cs].
    + rewrite app_nil_r in *. split; auto. destruct Cases as [[L _]|[_ ->]]; [lia|reflexivity].
    + specialize (Pre [] c cs eq_refl). rewrite app_nil_r in Pre. lia.
  - intros [-> ->]. exists []. rewrite app_nil_r. split; auto. split; auto. split.
    + intros [|]; discriminate.
    + right. auto.
Qed.

Section Attrs.
Context (B : bitter) (HB : bitter_ok B).

Lemma acc_reservation_name fuel p :
  255 - lenZ (utf8_encode p) < Z.of_nat fuel ->
  acc (reservation_name B fuel (utf8_encode p)) (w_name_from p).
Proof.
  revert p; induction fuel as [|fuel IH]; intros p Hf; cbn [reservation_name];
    destruct (Z.ltb_spec (lenZ (utf8_encode p)) 255) as [L|L]; try lia.
  - eapply acc_iff; [apply acc_ret|]. intros. now rewrite w_name_from_done.
  - eapply acc_iff; [|intros; symmetry; now apply w_name_from_step].
    apply acc_bind; [apply acc_not_enough, acc_read_u8; auto|]. intros c.
    destruct (c =? 0); [apply acc_ret|].
    replace (utf8_encode p ++ utf8_char c) with (utf8_encode (p ++ [c])).
    + apply IH. rewrite utf8_encode_app, lenZ_app. unfold utf8_encode at 2. cbn [flat_map].
      rewrite app_nil_r. pose proof (utf8_char_len c). lia.
    + rewrite utf8_encode_app. unfold utf8_encode at 2. cbn [flat_map]. now rewrite app_nil_r.
  - eapply acc_iff; [apply acc_ret|]. intros. now rewrite w_name_from_done.
Qed.

(** ** Products, loadouts *)

Lemma acc_product_value P obj : acc (product_value_decode B P obj) (w_product_value P obj).
Proof.
  unfold product_value_decode, w_product_value. rewrite !version_at_least.
  assert (R31 : forall (f : Z -> product_value), acc (fmap (fun x => f (as_u32 x)) (read_bits B 31)) (w_map f (w_uint 31))).
  { intros f. apply acc_fmap_eq; [apply acc_read_bits; auto|]. intros i a o [Ha _].
    simpl in Ha. rewrite as_u32_id by lia. reflexivity. }
  assert (R14 : forall (f : Z -> product_value), acc (fmap (fun x => f (as_u32 x)) (read_bits_max_computed B 3 14)) (w_map f (w_bounded 14))).
  { intros f. apply acc_fmap_eq; [apply acc_read_bounded; auto; lia|]. intros i a o [Ha _].
    rewrite as_u32_id by lia. reflexivity. }
  destruct (obj =? pd_color_ind P).
  { destruct (at_least (pd_version P) 868 23 8); [apply acc_fmap, acc_read_u32; auto|].
    eapply acc_iff.
    - apply acc_fmap. apply acc_if_get; auto.
    - intros i v o. unfold w_opt, w_map, w_bind, w_ret. split.
      + intros (a & (b & m & Hb & Hv) & ->). destruct b.
        * destruct Hv as (x & (y & Hy & ->) & ->).
          exists (Some y), o. split; [|auto]. exists true, m. split; auto. eauto.
        * destruct Hv as [-> ->]. exists None, m. split; [|auto]. exists false, m. auto.
      + intros (a & m & (b & m' & Hb & Hv) & -> & ->). destruct b.
        * destruct Hv as (x & Hx & ->). eexists. split; [exists true, m'; split; eauto|]. reflexivity.
        * destruct Hv as [-> ->]. eexists. split; [exists false, m'; split; eauto|]. reflexivity. }
  destruct (obj =? pd_painted_ind P); [destruct (at_least (pd_version P) 868 18 0); auto|].
  destruct (obj =? pd_title_ind P); [apply acc_fmap, acc_to_option, acc_text; auto|].
  destruct (obj =? pd_special_edition_ind P); [auto|].
  destruct (obj =? pd_team_edition_ind P); [destruct (at_least (pd_version P) 868 18 0); auto|].
  apply acc_ret.
Qed.

Ltac leaf := first
  [ apply acc_read_bit; assumption | apply acc_read_u8; assumption
  | apply acc_read_u32; assumption | apply acc_read_u64; assumption
  | apply acc_read_f32; assumption | apply acc_read_i8; assumption
  | apply acc_read_i32; assumption | apply acc_read_i64; assumption
  | apply acc_read_bits; assumption | apply acc_vec3f; assumption
  | apply acc_rotation; assumption | apply acc_quat_decode; assumption
  | apply acc_quat_old; assumption | apply acc_active; assumption
  | apply acc_text; assumption | apply acc_velocity; assumption
  | apply acc_unique; assumption ].

Ltac step := lazymatch goal with
  | |- acc (not_enough _ _) _ => apply acc_not_enough
  | |- acc (bind _ _) (w_bind _ _) => apply acc_bind; [|intros ?]
  | |- acc (ret _) (w_ret _) => apply acc_ret
  | |- acc (fmap _ _) (w_map _ _) => apply acc_fmap
  | |- acc (if_get _ _) (w_opt _) => apply acc_if_get; [assumption|]
  | |- acc (let* x := _ in ret _) (w_map _ _) => apply acc_fmap
  | |- _ => leaf
  end.
Ltac go := repeat step.
Ltac chain := repeat first [ eassumption | reflexivity | split | eexists ].
(** the same when the format is still to be found *)
Ltac goE := repeat lazymatch goal with
  | |- acc (bind _ _) _ => eapply acc_bind; [|intros ?]
  | |- acc (ret _) _ => apply acc_ret
  | |- acc _ _ => leaf
  end.

Lemma acc_product D : acc (decode_product B D) (w_product (ad_product D)).
Proof. unfold decode_product, w_product. step; [leaf|]. step; [leaf|]. step; [apply acc_product_value|]. go. Qed.

Lemma acc_online D : acc (inner_decode_online_loadout B D) (w_online (ad_product D)).
Proof.
  unfold inner_decode_online_loadout, w_online. step; [leaf|]. apply acc_rep.
  step; [leaf|]. apply acc_rep, acc_product.
Qed.

Lemma acc_opt_u32 c c' : c = c' -> acc (opt_u32 B c) (w_when c' w_u32).
Proof. intros ->. unfold opt_u32, w_when. destruct c'; go. Qed.

Lemma acc_loadout : acc (decode_loadout B) w_loadout.
Proof.
  unfold decode_loadout, w_loadout.
  do 8 (step; [leaf|]).
  step; [apply acc_opt_u32; destruct (Z.ltb_spec 10 a), (Z.leb_spec 11 a); auto; lia|].
  eapply acc_iff.
  - eapply acc_bind with (P := w_bind (w_when (16 <=? a) w_u32) (fun e =>
      w_bind (w_when (16 <=? a) w_u32) (fun t => w_bind (w_when (16 <=? a) w_u32) (fun g =>
        w_ret (e, t, g))))).
    + destruct (16 <=? a); unfold w_when; [|].
      * eapply acc_iff; [unfold decode_loadout_specials; goE|].
        intros i v o. unfold w_bind, w_map, w_ret. split.
        -- intros (x & m & Hx & y & m2 & Hy & z & m3 & Hz & -> & ->).
           chain.
        -- intros (x & m & (x' & Hx & ->) & y & m2 & (y' & Hy & ->) & z & m3 & (z' & Hz & ->) & -> & ->).
           chain.
      * eapply acc_iff; [goE|]. intros i v o. unfold w_bind, w_ret. split.
        -- intros [-> ->]. chain.
        -- intros (x & m & [-> ->] & y & m2 & [-> ->] & z & m3 & [-> ->] & -> & ->). auto.
    + intros sp. cbv beta. do 2 (eapply acc_bind; [now apply acc_opt_u32|intros ?]).
      eapply acc_bind with (P := w_bind (w_when (22 <=? a) w_u32) (fun _ =>
        w_bind (w_when (22 <=? a) w_u32) (fun _ => w_bind (w_when (22 <=? a) w_u32) (fun _ => w_ret tt)))).
      * destruct (22 <=? a); unfold w_when.
        -- eapply acc_iff; [goE|].
           intros i v o. unfold w_bind, w_map, w_ret. split.
           ++ intros (x & m & Hx & y & m2 & Hy & z & m3 & Hz & -> & ->).
              chain.
           ++ intros (x & m & (x' & Hx & ->) & y & m2 & (y' & Hy & ->) & z & m3 & (z' & Hz & ->) & -> & ->).
              chain.
        -- eapply acc_iff; [goE|]. intros i v o. unfold w_bind, w_ret. split.
           ++ intros [-> ->]. chain.
           ++ intros (x & m & [-> ->] & y & m2 & [-> ->] & z & m3 & [-> ->] & -> & ->). auto.
      * intros u. apply acc_ret.
  - intros i v o. cbv beta. unfold w_bind, w_ret. split.
    + intros (sp & m0 & (e & m1 & He & t & m2 & Ht & g & m3 & Hg & -> & ->) & bn & m4 & Hb & pr & m5 & Hpr
              & u & m6 & (x & m7 & Hx & y & m8 & Hy & z & m9 & Hz & -> & ->) & -> & ->).
      exists e, m1; split; auto. exists t, m2; split; auto. exists g, m3; split; auto.
      exists bn, m4; split; auto. exists pr, m5; split; auto. exists x, m7; split; auto.
      exists y, m8; split; auto. exists z, m9; split; auto.
    + intros (e & m1 & He & t & m2 & Ht & g & m3 & Hg & bn & m4 & Hb & pr & m5 & Hpr
              & x & m7 & Hx & y & m8 & Hy & z & m9 & Hz & -> & ->).
      exists (e, t, g), m3. split.
      { exists e, m1; split; auto. exists t, m2; split; auto. exists g, m3; split; auto. }
      exists bn, m4; split; auto. exists pr, m5; split; auto. exists tt, m9. split; auto.
      exists x, m7; split; auto. exists y, m8; split; auto. exists z, m9; split; auto.
Qed.

Lemma acc_explosion net : acc (decode_explosion B net) (w_explosion net).
Proof. unfold decode_explosion, w_explosion. go. Qed.

Lemma acc_res_name u :
  acc (if negb (ui_system_id u =? 0) then fmap Some (decode_text B)
       else if negb (is_splitscreen0 (ui_remote_id u)) then fmap Some (reservation_name B 256 [])
       else ret None) (w_reservation_name u).
Proof.
  unfold w_reservation_name. destruct (ui_system_id u =? 0); cbn [negb].
  2: { apply acc_fmap, acc_text; auto. }
  assert (N : acc (fmap Some (reservation_name B 256 [])) (w_map Some w_local_name)).
  { apply acc_fmap. eapply acc_iff; [|apply w_name_from_nil]. apply (acc_reservation_name 256 []). simpl. unfold lenZ; simpl. lia. }
  destruct (ui_remote_id u) as [ | | id | | | | | ]; unfold is_splitscreen0; cbn [negb]; auto.
  destruct (Z.eqb_spec id 0) as [->|Hn]; cbn [negb].
  - apply acc_ret.
  - destruct id; [congruence|auto|auto].
Qed.

Lemma acc_attribute D tag : acc (decode_attribute B D tag) (w_attribute D tag).
Proof.
  destruct tag; unfold decode_attribute, decode_uncommon, w_attribute.
  all: try (solve [
    unfold decode_boolean, decode_byte, decode_applied_damage, decode_damage_state,
      decode_club_colors, decode_demolish, decode_demolish_fx, decode_demolish_extended,
      decode_flagged_byte, decode_active_actor, decode_float, decode_int, decode_int64,
      decode_location, decode_music_stinger, decode_pickup, decode_pickup_new, decode_welded,
      decode_title, decode_team_paint, decode_string, decode_unique_id_attr, decode_stat_event,
      decode_rep_stat_title, decode_pickup_info, decode_impulse, decode_replicated_boost,
      decode_logo_data, decode_private_match_settings; go]).
  - unfold decode_cam_settings. rewrite version_at_least. step. do 6 (step; [leaf|]).
    step; [unfold w_when; destruct (at_least (ad_version D) 868 20 0); go|]. go.
  - unfold decode_enum. step. apply acc_fmap_eq; [leaf|]. intros i a o [Ha _]. simpl in Ha.
    unfold as_u16. rewrite mod_small_eq by lia. reflexivity.
  - unfold decode_explosion_attr. step. apply acc_fmap, acc_explosion.
  - unfold decode_extended_explosion. step. step; [apply acc_explosion|]. go.
  - unfold decode_game_mode. rewrite version_at_least. step.
    destruct (at_least (ad_version D) 868 12 0); cbn [negb]; apply acc_fmap_eq; try leaf;
      intros i a o [Ha _]; simpl in Ha; unfold as_u8; rewrite mod_small_eq by lia; reflexivity.
  - unfold decode_loadout_attr. step. apply acc_fmap, acc_loadout.
  - unfold decode_team_loadout. step; [step; apply acc_loadout|]. step; [step; apply acc_loadout|]. go.
  - unfold decode_player_history_key. step. apply acc_fmap_eq; [leaf|]. intros i a o [Ha _]. simpl in Ha.
    unfold as_u16. rewrite mod_small_eq by lia. reflexivity.
  - unfold decode_qword_string, decode_string, decode_qword. destruct (ad_is_rl_223 D); go.
  - unfold decode_rigid_body. step. step; [leaf|]. step; [leaf|].
    step; [destruct (7 <=? v_net (ad_version D)); leaf|]. destruct a; go.
  - apply acc_fail.
  - unfold decode_reservation. rewrite version_at_least.
    step; [|step; [leaf|step; [apply acc_res_name|step; [go|step; [go|step]]]]].
    + step. eapply acc_iff; [apply (acc_fmap_eq _ (fun x : Z => x)); [leaf|]|].
      * intros i a o [Ha _]. simpl in Ha. rewrite as_u32_id by lia. reflexivity.
      * intros i v o. unfold w_map. split; [intros (a & Ha & ->); auto|eauto].
    + unfold w_when. destruct (at_least (ad_version D) 868 12 0); [|go]. step.
      apply acc_fmap_eq; [leaf|]. intros i x o [Ha _]. simpl in Ha.
      unfold as_u8, as_u32. rewrite !mod_small_eq by (rewrite ?mod_small_eq; lia). reflexivity.
    + go.
  - unfold decode_party_leader. step; [go|]. destruct (a =? 0); cbn [negb]; [go|].
    apply acc_fmap, acc_unique_tail; auto.
  - unfold decode_loadout_online. step. apply acc_fmap, acc_online.
  - unfold decode_loadouts_online. step. step; [apply acc_online|]. step; [apply acc_online|]. go.
  - unfold decode_rotation. apply acc_fmap. step. leaf.
Qed.

End Attrs.
