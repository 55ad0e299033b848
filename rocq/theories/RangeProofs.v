(** * Which values can be transmitted: proofs *)

From Coq Require Import ZArith List Bool Lia Floats.SpecFloat.
From Verif Require Import Base F32 NetTypes Header Body Attributes Wire SpecText SpecFile SpecWrite SpecBasic SpecNet SpecFrames SpecSize SpecTail
  SpecRange TextProofs FileFacts TextWireProofs WireFacts WriteProofs.
Open Scope Z_scope.
Open Scope list_scope.
#[local] Opaque hundredths old_part new_part largest_part.

(** ** Sending *)

(** [P] has an encoding of [v], of at most [n] bits, that can be followed by anything *)
Definition sends {A} (P : wire A) (v : A) (n : Z) : Prop :=
  exists w, Z.of_nat (length w) <= n /\ forall o, P (w ++ o) v o.

Lemma sends_le {A} (P : wire A) v n m : sends P v n -> n <= m -> sends P v m.
Proof. intros (w & L & H) Hm. exists w. split; [lia|exact H]. Qed.
Lemma sends_ret {A} (a : A) : sends (w_ret a) a 0.
Proof. exists []. split; [cbn; lia|]. intros o. now split. Qed.
Lemma sends_bind {A C} (P : wire A) (Q : A -> wire C) a v n m :
  sends (Q a) v m -> sends P a n -> sends (w_bind P Q) v (n + m).
Proof.
  intros (w2 & L2 & H2) (w1 & L1 & H1). exists (w1 ++ w2). split; [rewrite app_length; lia|].
  intros o. exists a, (w2 ++ o). rewrite <- app_assoc. split; [apply H1|apply H2].
Qed.
Lemma sends_map {A C} (f : A -> C) P a n : sends P a n -> sends (w_map f P) (f a) n.
Proof. intros (w & L & H). exists w. split; [exact L|]. intros o. exists a. split; [apply H|reflexivity]. Qed.
Lemma sends_bit b : sends w_bit b 1.
Proof. exists [b]. split; [cbn; lia|]. intros o. reflexivity. Qed.
Lemma enc_bits_length n x : length (enc_bits n x) = n.
Proof. unfold enc_bits. now rewrite map_length, seq_length. Qed.
Lemma sends_uint n x : unsigned (Z.of_nat n) x -> sends (w_uint n) x (Z.of_nat n).
Proof. intros H. exists (enc_bits n x). split; [rewrite enc_bits_length; lia|]. intros o. now split. Qed.
Lemma sends_int n x : signed (Z.of_nat n) x -> sends (w_int n) x (Z.of_nat n).
Proof. intros H. exists (enc_bits n x). split; [rewrite enc_bits_length; lia|]. intros o. now split. Qed.
Lemma sends_bytes n l : length l = n -> sends (w_bytes n) l (8 * Z.of_nat n).
Proof. intros H. exists (enc_bytes l). split; [rewrite enc_bytes_length; lia|]. intros o. now split. Qed.
Lemma sends_bounded m x k : 0 <= x < m -> m < 2 ^ k -> 0 <= k -> sends (w_bounded m) x k.
Proof.
  intros H Hk Hk0. exists (enc_bounded m x). split; [|intros o; now split].
  unfold enc_bounded. rewrite app_length, enc_bits_length.
  assert (Z.log2 m < k) by (apply Z.log2_lt_pow2; lia). pose proof (Z.log2_nonneg m).
  destruct (_ <? _); cbn [length]; lia.
Qed.
Lemma sends_opt {A} (P : wire A) v n : 0 <= n -> if_any (fun x => sends P x n) v -> sends (w_opt P) v (1 + n).
Proof.
  intros Hn H. destruct v as [x|].
  - apply sends_bind with (a := true); [|apply sends_bit]. now apply sends_map.
  - apply sends_bind with (a := false); [|apply sends_bit]. eapply sends_le; [apply sends_ret|lia].
Qed.
Lemma sends_when {A} c (P : wire A) (Q : A -> Prop) v n : 0 <= n -> (forall x, Q x -> sends P x n) ->
  present c Q v -> sends (w_when c P) v n.
Proof.
  intros Hn HP H. unfold w_when. destruct v as [x|].
  - destruct H as (-> & H). apply sends_map. now apply HP.
  - cbn in H. rewrite H. eapply sends_le; [apply sends_ret|lia].
Qed.

(** ** Receiving *)

Definition gives {A} (P : wire A) (Q : A -> Prop) : Prop := forall i v o, P i v o -> Q v.

Lemma g_uint n : gives (w_uint n) (unsigned (Z.of_nat n)).
Proof. intros i v o (H & _). exact H. Qed.
Lemma g_int n : gives (w_int n) (signed (Z.of_nat n)).
Proof. intros i v o (H & _). exact H. Qed.
Lemma g_opt {A} (P : wire A) Q : gives P Q -> gives (w_opt P) (if_any Q).
Proof. intros H i v o (b & m & _ & Hv). destruct b; [destruct Hv as (x & Hx & ->); exact (H _ _ _ Hx)|destruct Hv as (-> & _); exact I]. Qed.
Lemma g_when {A} c (P : wire A) Q : gives P Q -> gives (w_when c P) (present c Q).
Proof.
  intros H i v o Hv. unfold w_when in Hv. destruct c.
  - destruct Hv as (x & Hx & ->). split; [reflexivity|exact (H _ _ _ Hx)].
  - destruct Hv as (-> & _). reflexivity.
Qed.

(** ** Vectors *)

Lemma sends_component s x : 0 <= s -> signed (s + 2) x -> sends (w_component s) x (s + 2).
Proof.
  intros Hs H. unfold signed in H. replace (s + 2 - 1) with (s + 1) in H by lia.
  replace x with ((x + 2 ^ (s + 1)) - 2 ^ (s + 1)) by lia. apply (sends_map (fun d => d - 2 ^ (s + 1))).
  eapply sends_le; [apply sends_uint|lia]. unfold unsigned. rewrite Z2Nat.id by lia.
  replace (s + 2) with (Z.succ (s + 1)) by lia. rewrite Z.pow_succ_r by lia. lia.
Qed.

Lemma sends_vec3i net v : vec3i_range net v -> sends (w_vec3i net) v 75.
Proof.
  destruct v as [x y z]. intros (H1 & H2 & H3). cbn [v3i_x v3i_y v3i_z] in *. unfold component_range in *.
  eapply sends_le with (n := 5 + ((vec_bound net + 1) + ((vec_bound net + 1) + ((vec_bound net + 1) + 0)))).
  - unfold w_vec3i. apply sends_bind with (a := vec_bound net - 1).
    + assert (E : vec_bound net + 1 = vec_bound net - 1 + 2) by lia.
      assert (E' : (if net <? 7 then 21 else 23) = vec_bound net - 1 + 2) by (unfold vec_bound; destruct (net <? 7); reflexivity).
      assert (0 <= vec_bound net - 1) by (unfold vec_bound; destruct (net <? 7); lia).
      rewrite E' in H1, H2, H3. rewrite !E.
      apply sends_bind with (a := x); [|apply sends_component; assumption].
      apply sends_bind with (a := y); [|apply sends_component; assumption].
      apply sends_bind with (a := z); [|apply sends_component; assumption].
      apply sends_ret.
    + apply sends_bounded; unfold vec_bound; destruct (net <? 7); lia.
  - unfold vec_bound. destruct (net <? 7); lia.
Qed.

Lemma g_vec3i net : gives (w_vec3i net) (vec3i_range net).
Proof.
  intros i v o (s & m & (Hs & _) & x & m1 & Hx & y & m2 & Hy & z & m3 & Hz & -> & _).
  apply w_component_range in Hx, Hy, Hz; try lia.
  assert (2 ^ (s + 1) <= 2 ^ vec_bound net) by (apply Z.pow_le_mono_r; lia).
  unfold vec3i_range, component_range, signed. cbn [v3i_x v3i_y v3i_z].
  assert (E : (if net <? 7 then 21 else 23) - 1 = vec_bound net) by (unfold vec_bound; destruct (net <? 7); reflexivity).
  rewrite E. lia.
Qed.

Lemma sends_vec3f net v : vec3f_range net v -> sends (w_vec3f net) v 75.
Proof.
  intros (x & y & z & H & ->). unfold w_vec3f.
  apply (sends_map (fun v => mkV3f (hundredths (v3i_x v)) (hundredths (v3i_y v)) (hundredths (v3i_z v))) _ (mkV3i x y z)).
  now apply sends_vec3i.
Qed.
Lemma g_vec3f net : gives (w_vec3f net) (vec3f_range net).
Proof.
  intros i v o ([x y z] & H & ->). apply g_vec3i in H. exists x, y, z. split; [exact H|reflexivity].
Qed.

Lemma sends_rotation r : rotation_range r -> sends w_rotation r 27.
Proof.
  destruct r as [y p r]. intros (H1 & H2 & H3). cbn [r_yaw r_pitch r_roll] in *.
  eapply sends_le with (n := (1 + 8) + ((1 + 8) + ((1 + 8) + 0))); [|lia]. unfold w_rotation.
  apply sends_bind with (a := y); [apply sends_bind with (a := p); [apply sends_bind with (a := r); [apply sends_ret|]|]|];
    apply sends_opt; try lia.
  - destruct r; cbn in *; [|exact I]. now apply (sends_int 8).
  - destruct p; cbn in *; [|exact I]. now apply (sends_int 8).
  - destruct y; cbn in *; [|exact I]. now apply (sends_int 8).
Qed.
Lemma g_rotation : gives w_rotation rotation_range.
Proof.
  intros i v o (y & m & Hy & p & m1 & Hp & r & m2 & Hr & -> & _).
  apply (g_opt _ _ (g_int 8)) in Hy, Hp, Hr. split; [exact Hy|split; [exact Hp|exact Hr]].
Qed.

Lemma sends_quat net q : quat_range net q -> sends (if 7 <=? net then w_quat_new else w_quat_old) q 56.
Proof.
  unfold quat_range. rewrite Z.ltb_antisym. destruct (7 <=? net); cbn [negb].
  - intros (a & b & c & Ha & Hb & Hc & H). cbv zeta in H.
    assert (G : exists k, 0 <= k < 4 /\
      q = let a := new_part a in let b := new_part b in let c := new_part c in
          let e := bits_of_sf (largest_part a b c) in
          let a := bits_of_sf a in let b := bits_of_sf b in let c := bits_of_sf c in
          match k with 0 => mkQuat e a b c | 1 => mkQuat a e b c | 2 => mkQuat a b e c | _ => mkQuat a b c e end).
    { destruct H as [H|[H|[H|H]]]; [exists 0|exists 1|exists 2|exists 3]; (split; [lia|exact H]). }
    destruct G as (k & Hk & ->).
    eapply sends_le with (n := 2 + (18 + (18 + (18 + 0)))); [|lia]. unfold w_quat_new.
    apply sends_bind with (a := k); [|apply (sends_uint 2); exact Hk].
    apply sends_bind with (a := a); [|now apply (sends_uint 18)].
    apply sends_bind with (a := b); [|now apply (sends_uint 18)].
    apply sends_bind with (a := c); [|now apply (sends_uint 18)].
    apply sends_ret.
  - intros (x & y & z & Hx & Hy & Hz & ->).
    eapply sends_le with (n := 16 + (16 + (16 + 0))); [|lia]. unfold w_quat_old.
    apply sends_bind with (a := x); [|now apply (sends_uint 16)].
    apply sends_bind with (a := y); [|now apply (sends_uint 16)].
    apply sends_bind with (a := z); [|now apply (sends_uint 16)].
    apply sends_ret.
Qed.
Lemma g_quat net : gives (if 7 <=? net then w_quat_new else w_quat_old) (quat_range net).
Proof.
  intros i q o H. unfold quat_range. rewrite Z.ltb_antisym. destruct (7 <=? net); cbn [negb].
  - destruct H as (k & m & Hk & a & m1 & Ha & b & m2 & Hb & c & m3 & Hc & -> & _).
    apply (g_uint 2) in Hk. apply (g_uint 18) in Ha, Hb, Hc. exists a, b, c. split; [exact Ha|]. split; [exact Hb|]. split; [exact Hc|].
    cbv zeta. unfold unsigned in Hk. assert (K : k = 0 \/ k = 1 \/ k = 2 \/ k = 3) by (cbn in Hk; lia).
    destruct K as [->|[->|[->| ->]]]; auto.
  - destruct H as (x & m & Hx & y & m1 & Hy & z & m2 & Hz & -> & _).
    apply (g_uint 16) in Hx, Hy, Hz. exists x, y, z. auto.
Qed.

Lemma sends_trajectory sp net t : trajectory_range sp net t -> sends (w_trajectory sp net) t 102.
Proof.
  destruct t as [l r]. unfold trajectory_range, w_trajectory. cbn [t_location t_rotation].
  destruct sp; destruct l as [l|]; destruct r as [r|]; try contradiction; intros H.
  - eapply sends_le; [apply sends_ret|lia].
  - eapply sends_le; [eapply sends_bind; [apply sends_ret|apply sends_vec3i; exact H]|lia].
  - destruct H as (H1 & H2). eapply sends_le; [eapply sends_bind; [eapply sends_bind; [apply sends_ret|apply sends_rotation; exact H2]|
      apply sends_vec3i; exact H1]|lia].
Qed.
Lemma g_trajectory sp net : gives (w_trajectory sp net) (trajectory_range sp net).
Proof.
  intros i t o H. destruct sp; cbn [w_trajectory] in H.
  - destruct H as (-> & _). exact I.
  - destruct H as (l & m & Hl & -> & _). apply g_vec3i in Hl. exact Hl.
  - destruct H as (l & m & Hl & r & m1 & Hr & -> & _). apply g_vec3i in Hl. apply g_rotation in Hr. split; assumption.
Qed.

(** ** Texts *)

Lemma utf8_len_ge cs s : utf8 cs s -> (length (flat_map utf16_units_of cs) <= length s)%nat.
Proof.
  induction 1 as [|c cs s t H _ IH]; cbn [flat_map]; [cbn; lia|]. rewrite !app_length.
  enough (length (utf16_units_of c) <= length s)%nat by lia. unfold utf16_units_of.
  destruct (c <? 65536) eqn:E; inversion H; subst; unfold surrogate in *; cbn [length]; lia.
Qed.
Lemma utf8_count cs s : utf8 cs s -> (length cs <= length s)%nat.
Proof. intros H. pose proof (utf8_len_ge _ _ H). pose proof (units_at_least cs). lia. Qed.
Lemma utf8_split a b : forall s, utf8 (a ++ b) s -> exists s1 s2, utf8 a s1 /\ utf8 b s2 /\ s = s1 ++ s2.
Proof.
  induction a as [|c a IH]; cbn [app]; intros s H.
  - exists [], s. split; [constructor|]. split; [exact H|reflexivity].
  - inversion H as [|? ? s0 t H1 H2]; subst. destruct (IH _ H2) as (s1 & s2 & A & B & ->).
    exists (s0 ++ s1), s2. split; [now constructor|]. split; [exact B|now rewrite app_assoc].
Qed.

Lemma sends_text s : short_text s -> sends w_text s (48 + 16 * text_size s).
Proof.
  intros (cs & U & H). pose proof (utf8_len_ge _ _ U) as UL. pose proof (utf8_count _ _ U) as UC. unfold count, text_size in *.
  destruct H as [[(l & F) L]|L].
  - pose proof (same_length _ _ _ F) as FL. apply sends_le with (n := 32 + 8 * Z.of_nat (length (l ++ [x00])));
      [|rewrite app_length; cbn [length]; lia].
    apply sends_bind with (a := Z.of_nat (length l) + 1); [|apply (sends_int 32); split; cbn; lia].
    replace (_ =? 0) with false by lia. replace (0 <? _) with true by lia. replace (_ <=? 1024) with true by lia.
    exists (enc_bytes (l ++ [x00])). split; [rewrite enc_bytes_length; lia|]. intros o. exists (l ++ [x00]).
    split; [split; [rewrite app_length; cbn [length]; lia|reflexivity]|]. rewrite removelast_snoc. exists cs. split; assumption.
  - pose proof (utf8_scalars _ _ U) as S. pose (l := flat_map (write_int 2) (flat_map utf16_units_of cs)).
    assert (Ll : length l = (2 * length (flat_map utf16_units_of cs))%nat) by apply flat_map_int.
    apply sends_le with (n := 32 + 8 * Z.of_nat (length (l ++ [x00; x00])));
      [|rewrite app_length; cbn [length]; lia].
    apply sends_bind with (a := - (Z.of_nat (length (flat_map utf16_units_of cs)) + 1)); [|apply (sends_int 32); split; cbn; lia].
    replace (_ =? 0) with false by lia. replace (0 <? _) with false by lia. replace (_ <=? 512) with true by lia.
    exists (enc_bytes (l ++ [x00; x00])). split; [rewrite enc_bytes_length; lia|]. intros o. exists (l ++ [x00; x00]).
    split; [split; [rewrite app_length; cbn [length]; lia|reflexivity]|].
    change [x00; x00] with ([x00] ++ [x00]). rewrite app_assoc, !removelast_snoc.
    exists (flat_map utf16_units_of cs), cs. split; [apply write_units, units_range, S|]. split; [|exact U].
    now apply utf16_units_chars.
Qed.
Lemma g_text : gives w_text short_text.
Proof.
  intros i s o (n & m & _ & H). destruct (n =? 0) eqn:E0.
  - destruct H as (-> & _). exists []. split; [constructor|]. right. unfold count. cbn. lia.
  - destruct (0 <? n) eqn:E1; [destruct (n <=? 1024) eqn:E2; [|destruct H]|destruct (- n <=? 512) eqn:E2; [|destruct H]].
    + destruct H as (l & (L & _) & cs & F & U). pose proof (same_length _ _ _ F) as FL. rewrite removelast_length in FL.
      exists cs. split; [exact U|]. left. split; [eexists; exact F|]. unfold count. lia.
    + destruct H as (l & (L & _) & us & cs & F & C & U). apply units_twice in F as [FL FF]. rewrite !removelast_length in FL.
      pose proof (chars_units _ _ C FF) as CU. exists cs. split; [exact U|]. right. unfold count. lia.
Qed.

Lemma before_nul_all l k : ~ In x00 l -> before_nul (l ++ repeat x00 k) = l.
Proof.
  induction l as [|b l IH]; cbn [app].
  - intros _. destruct k; reflexivity.
  - intros H. cbn [before_nul]. rewrite IH by (intros X; apply H; now right).
    destruct b; try reflexivity. exfalso. apply H. now left.
Qed.
Lemma before_nul_none l : ~ In x00 (before_nul l).
Proof.
  induction l as [|b l IH]; cbn [before_nul]; [auto|]. destruct b; cbn [In]; [tauto|..]; intros [H|H]; try discriminate H; auto.
Qed.
Lemma nul_1252 b : windows1252_one b 0 -> b = x00.
Proof.
  intros (x & H & E). destruct (windows1252_high x) as [c|] eqn:Eh.
  - exfalso. subst c. destruct x as [|p|p]; try discriminate Eh. cbn in Eh. repeat (destruct p as [p|p|]; try discriminate Eh).
  - subst x. unfold is in H. destruct b; try discriminate H. reflexivity.
Qed.
Lemma nul_in l cs : Forall2 windows1252_one l cs -> (In x00 l <-> In 0 cs).
Proof.
  induction 1 as [|b c l cs H _ IH]; cbn [In]; [reflexivity|]. rewrite IH.
  enough (b = x00 <-> c = 0) by tauto. split; [intros ->|intros ->; now apply nul_1252].
  destruct H as (x & Hx & ->). unfold is in Hx. cbn in Hx. subst x. reflexivity.
Qed.

Definition w_field : wire str := w_such (fun l s => windows1252 (before_nul l) s) (w_bytes 16).
Lemma sends_field s : field_text s -> sends w_field s 128.
Proof.
  intros (cs & U & (l & F) & L & N). pose proof (same_length _ _ _ F) as FL. unfold count in L.
  exists (enc_bytes (l ++ repeat x00 (16 - length l))). rewrite enc_bytes_length, app_length, repeat_length. split; [lia|].
  intros o. exists (l ++ repeat x00 (16 - length l)). split; [split; [rewrite app_length, repeat_length; lia|reflexivity]|].
  rewrite before_nul_all by (now rewrite (nul_in _ _ F)). exists cs. split; assumption.
Qed.
Lemma before_nul_length l : (length (before_nul l) <= length l)%nat.
Proof. induction l as [|b l IH]; [reflexivity|]. cbn [before_nul length]. destruct b; cbn [length]; lia. Qed.
Lemma g_field : gives w_field field_text.
Proof.
  intros i s o (l & (L & _) & cs & F & U). pose proof (same_length _ _ _ F) as FL. pose proof (before_nul_length l).
  exists cs. split; [exact U|]. split; [eexists; exact F|]. split; [unfold count; lia|].
  rewrite <- (nul_in _ _ F). apply before_nul_none.
Qed.

Lemma sends_local s : local_name s -> sends w_local_name s (8 + 8 * text_size s).
Proof.
  intros (cs & U & F & P). pose proof (utf8_count _ _ U) as UC. unfold text_size.
  assert (P' : forall p c q t, cs = p ++ c :: q -> utf8 p t -> lenZ t < 255).
  { intros p c q t E Ht. destruct q as [|c' q] using rev_ind; [apply (P p c t E Ht)|]. clear IHq.
    subst cs. rewrite app_comm_cons, app_assoc in U, P.
    destruct (utf8_split _ _ _ U) as (s1 & s2 & U1 & U2 & ->).
    specialize (P _ _ _ eq_refl U1). destruct (utf8_split _ _ _ U1) as (s3 & s4 & U3 & _ & ->).
    rewrite (utf8_fun _ _ _ Ht U3). unfold lenZ in *. rewrite app_length in P. lia. }
  assert (Lc : length (concat (map (enc_bits 8) cs)) = (8 * length cs)%nat).
  { clear. induction cs as [|c cs IH]; cbn [map concat length]; [reflexivity|]. rewrite app_length, enc_bits_length, IH. lia. }
  destruct (Z_lt_ge_dec (lenZ s) 255) as [L|L].
  - exists (concat (map (enc_bits 8) cs) ++ enc_bits 8 0). rewrite app_length, Lc, enc_bits_length. split; [lia|].
    intros o. exists cs. split; [exact U|]. split; [exact F|]. split; [exact P'|]. left. split; [exact L|now rewrite <- app_assoc].
  - exists (concat (map (enc_bits 8) cs)). rewrite Lc. split; [lia|].
    intros o. exists cs. split; [exact U|]. split; [exact F|]. split; [exact P'|]. right. split; [lia|reflexivity].
Qed.
Lemma g_local : gives w_local_name local_name.
Proof.
  intros i s o (cs & U & F & P & _). exists cs. split; [exact U|]. split; [exact F|].
  intros p c t E. exact (P p c [] t E).
Qed.

(** ** Lists *)

Lemma sends_times {A} (P : wire A) (c : A -> Z) l : Forall (fun x => sends P x (c x)) l ->
  sends (w_times (length l) P) l (total c l).
Proof.
  induction 1 as [|x l Hx _ IH]; cbn [length w_times total fold_right]; [apply sends_ret|]. change (fold_right _ _ l) with (total c l).
  eapply sends_le; [eapply sends_bind; [eapply sends_bind; [apply sends_ret|exact IH]|exact Hx]|lia].
Qed.
Lemma g_times {A} (P : wire A) Q n : gives P Q -> gives (w_times n P) (fun l => length l = n /\ Forall Q l).
Proof.
  intros H. induction n as [|n IH]; intros i l o Hl; cbn [w_times] in Hl.
  - destruct Hl as (-> & _). split; [reflexivity|constructor].
  - destruct Hl as (x & m & Hx & xs & m1 & Hxs & -> & _). apply H in Hx. apply IH in Hxs as (L & F).
    split; [cbn; lia|now constructor].
Qed.
Lemma total_scale {A} (f : A -> Z) c l : total (fun x => c * f x) l = c * total f l.
Proof. unfold total. induction l as [|x l IH]; cbn [fold_right]; lia. Qed.
Lemma total_nonneg {A} (f : A -> Z) l : (forall x, 0 <= f x) -> 0 <= total f l.
Proof. intros H. unfold total. induction l as [|x l IH]; cbn [fold_right]; [lia|]. specialize (H x). lia. Qed.

(** ** Products *)

Lemma text_size_nonneg s : 0 <= text_size s.
Proof. unfold text_size. lia. Qed.
Lemma sends_value P obj x : value_range P obj x ->
  sends (w_product_value P obj) x (48 + 16 * match x with PVTitle s => text_size s | _ => 0 end).
Proof.
  unfold value_range, w_product_value. cbv zeta. destruct (obj =? pd_color_ind P).
  { destruct x; try contradiction; [intros ->|intros (-> & H)|intros (-> & H)].
    - eapply sends_le; [eapply sends_bind with (a := None); [apply sends_ret|apply (sends_opt _ _ 31); [lia|exact I]]|lia].
    - eapply sends_le; [eapply sends_bind with (a := Some x); [apply sends_ret|apply (sends_opt _ _ 31); [lia|now apply (sends_uint 31)]]|lia].
    - eapply sends_le; [apply sends_map; now apply (sends_uint 32)|lia]. }
  destruct (obj =? pd_painted_ind P).
  { destruct x; try contradiction; intros (-> & H).
    - eapply sends_le; [apply sends_map; apply (sends_bounded 14 x 4); lia|lia].
    - eapply sends_le; [apply sends_map; now apply (sends_uint 31)|lia]. }
  destruct (obj =? pd_title_ind P).
  { destruct x; try contradiction. intros H. apply sends_map. now apply sends_text. }
  destruct (obj =? pd_special_edition_ind P).
  { destruct x; try contradiction. intros H. eapply sends_le; [apply sends_map; now apply (sends_uint 31)|lia]. }
  destruct (obj =? pd_team_edition_ind P).
  { destruct x; try contradiction; intros (-> & H).
    - eapply sends_le; [apply sends_map; apply (sends_bounded 14 x 4); lia|lia].
    - eapply sends_le; [apply sends_map; now apply (sends_uint 31)|lia]. }
  intros ->. eapply sends_le; [apply sends_ret|lia].
Qed.
Lemma g_value P obj : gives (w_product_value P obj) (value_range P obj).
Proof.
  intros i v o. unfold value_range, w_product_value. cbv zeta. destruct (obj =? pd_color_ind P).
  { destruct (at_least _ _ _ _) eqn:E.
    - intros (x & H & ->). apply (g_uint 32) in H. split; [reflexivity|exact H].
    - intros (c & m & H & -> & _). apply (g_opt _ _ (g_uint 31)) in H. destruct c as [c|]; cbn in *; [split; [reflexivity|exact H]|reflexivity]. }
  destruct (obj =? pd_painted_ind P).
  { destruct (at_least _ _ _ _) eqn:E; intros (x & H & ->).
    - apply (g_uint 31) in H. split; [reflexivity|exact H].
    - destruct H as (H & _). split; [reflexivity|exact H]. }
  destruct (obj =? pd_title_ind P). { intros (x & H & ->). now apply g_text in H. }
  destruct (obj =? pd_special_edition_ind P). { intros (x & H & ->). now apply (g_uint 31) in H. }
  destruct (obj =? pd_team_edition_ind P).
  { destruct (at_least _ _ _ _) eqn:E; intros (x & H & ->).
    - apply (g_uint 31) in H. split; [reflexivity|exact H].
    - destruct H as (H & _). split; [reflexivity|exact H]. }
  intros (-> & _). reflexivity.
Qed.

Lemma sends_product P p : product_range P p -> sends (w_product P) p (100 * product_size p).
Proof.
  destruct p as [u ob v]. intros (H1 & H2). cbn [pr_object_ind pr_value] in *.
  eapply sends_le with (n := 1 + (32 + (48 + 16 * match v with PVTitle s => text_size s | _ => 0 end + 0))).
  - unfold w_product. eapply sends_bind; [eapply sends_bind; [eapply sends_bind; [apply sends_ret|]|]|].
    + now apply sends_value.
    + now apply (sends_int 32).
    + apply sends_bit.
  - unfold product_size. cbn [pr_value]. pose proof text_size_nonneg as TS. destruct v; try specialize (TS s); lia.
Qed.
Lemma g_product P : gives (w_product P) (product_range P).
Proof.
  intros i p o (u & m & _ & ob & m1 & H1 & v & m2 & H2 & -> & _). apply (g_int 32) in H1. apply g_value in H2. split; assumption.
Qed.

Lemma sends_online P l : online_range P l -> sends (w_online P) l (8 + 100 * online_size l).
Proof.
  intros (L & F). unfold w_online, online_size, count in *. rewrite <- total_scale.
  apply sends_bind with (a := Z.of_nat (length l)); [|apply (sends_uint 8); split; cbn; lia].
  rewrite Nat2Z.id. apply sends_times. eapply Forall_impl; [|exact F]. cbn beta. intros ps (Lp & Fp).
  apply sends_le with (n := 8 + 100 * total product_size ps); [|lia].
  apply sends_bind with (a := Z.of_nat (length ps)); [|apply (sends_uint 8); split; cbn; lia].
  rewrite Nat2Z.id, <- total_scale. apply sends_times. eapply Forall_impl; [|exact Fp]. apply sends_product.
Qed.
Lemma g_online P : gives (w_online P) (online_range P).
Proof.
  intros i l o (n & m & Hn & Hl). apply (g_uint 8) in Hn. unfold unsigned in Hn. change (2 ^ Z.of_nat 8) with 256 in Hn.
  assert (G : gives (m <- w_uint 8; w_times (Z.to_nat m) (w_product P))%wire
    (fun ps => count ps <= 255 /\ Forall (product_range P) ps)).
  { intros i' ps o' (k & m' & Hk & Hp). apply (g_uint 8) in Hk. unfold unsigned in Hk. change (2 ^ Z.of_nat 8) with 256 in Hk.
    apply (g_times _ _ _ (g_product P)) in Hp as (Lp & Fp). unfold count. split; [lia|exact Fp]. }
  apply (g_times _ _ _ G) in Hl as (L & F). unfold online_range, count in *. split; [lia|exact F].
Qed.

(** ** Unique ids *)

Lemma sends_unique_tail net u : unique_range net u ->
  sends (w_unique_tail net (ui_system_id u)) u (400 + 16 * unique_size u).
Proof.
  destruct u as [sys r l]. intros (H1 & H2). cbn [ui_system_id ui_remote_id ui_local_id] in *. unfold unique_size. cbn [ui_remote_id].
  assert (G : sends (w_remote net sys) r (320 + 16 * remote_size r)).
  { pose proof text_size_nonneg as TS. assert (BS : forall l, 0 <= bytes_size l) by (intros; unfold bytes_size; lia).
    destruct r; cbn [remote_range remote_size] in *.
    - destruct H1 as (-> & H1 & H3 & H4). cbn [w_remote]. specialize (TS name). specialize (BS unknown1).
      eapply sends_le; [eapply sends_bind; [eapply sends_bind; [eapply sends_bind; [apply sends_ret|]|]|]|].
      + now apply (sends_uint 64).
      + apply sends_bytes. exact H4.
      + apply sends_field. exact H3.
      + destruct (net <? 1); lia.
    - destruct H1 as (-> & H1 & H4). cbn [w_remote]. specialize (BS unknown1).
      eapply sends_le; [eapply sends_bind; [eapply sends_bind; [apply sends_ret|]|]|].
      + apply sends_bytes. exact H4.
      + now apply (sends_uint 64).
      + destruct (net <? 10); lia.
    - destruct H1 as (-> & H1). cbn [w_remote]. eapply sends_le; [apply sends_map; now apply (sends_uint 24)|lia].
    - destruct H1 as (-> & H1). cbn [w_remote]. eapply sends_le; [apply sends_map; now apply (sends_uint 64)|lia].
    - destruct H1 as (-> & H1 & H4). cbn [w_remote]. specialize (BS unknown1).
      eapply sends_le; [eapply sends_bind; [eapply sends_bind; [apply sends_ret|]|]|].
      + apply sends_bytes. exact H4.
      + now apply (sends_uint 64).
      + lia.
    - destruct H1 as (-> & H1). cbn [w_remote]. eapply sends_le; [apply sends_map; now apply (sends_uint 64)|lia].
    - destruct H1 as (-> & H1). cbn [w_remote]. eapply sends_le; [apply sends_map; now apply (sends_uint 64)|lia].
    - destruct H1 as (-> & H1). cbn [w_remote]. eapply sends_le; [apply sends_map; now apply sends_text|lia]. }
  eapply sends_le; [eapply sends_bind; [eapply sends_bind; [apply sends_ret|]|exact G]|].
  - now apply (sends_uint 8).
  - lia.
Qed.
Lemma remote_sys net sys r : remote_range net sys r -> 0 <= sys < 256.
Proof. destruct r; cbn [remote_range]; lia. Qed.
Lemma sends_unique net u : unique_range net u -> sends (w_unique net) u (408 + 16 * unique_size u).
Proof.
  intros H. eapply sends_le; [eapply sends_bind; [apply sends_unique_tail; exact H|]|].
  - apply (sends_uint 8). destruct H as (H & _). apply remote_sys in H. exact H.
  - lia.
Qed.
Lemma g_unique_tail net sys : gives (w_unique_tail net sys) (fun u => ui_system_id u = sys /\ unique_range net u).
Proof.
  intros i u o (r & m & Hr & l & m1 & Hl & -> & _). apply (g_uint 8) in Hl.
  split; [reflexivity|]. split; [|exact Hl]. cbn [ui_system_id ui_remote_id].
  assert (K : sys = 0 \/ sys = 1 \/ sys = 2 \/ sys = 4 \/ sys = 5 \/ sys = 6 \/ sys = 7 \/ sys = 11).
  { destruct sys as [|p|p]; cbn [w_remote] in Hr; [now left| |destruct Hr].
    do 4 (destruct p as [p|p|]; cbn [w_remote] in Hr; try (destruct Hr; fail); auto 9). }
  destruct K as [->|[->|[->|[->|[->|[->|[->| ->]]]]]]]; cbn [w_remote] in Hr.
  - destruct Hr as (x & Hx & ->). split; [reflexivity|now apply (g_uint 24) in Hx].
  - destruct Hr as (x & Hx & ->). split; [reflexivity|now apply (g_uint 64) in Hx].
  - destruct Hr as (name & m2 & Hn & un & m3 & (Hu & _) & x & m4 & Hx & -> & _). apply (g_uint 64) in Hx. apply g_field in Hn.
    split; [reflexivity|]. split; [exact Hx|]. split; [exact Hn|exact Hu].
  - destruct Hr as (x & Hx & ->). split; [reflexivity|now apply (g_uint 64) in Hx].
  - destruct Hr as (x & Hx & ->). split; [reflexivity|now apply (g_uint 64) in Hx].
  - destruct Hr as (x & m2 & Hx & un & m3 & (Hu & _) & -> & _). apply (g_uint 64) in Hx. split; [reflexivity|]. split; [exact Hx|exact Hu].
  - destruct Hr as (x & m2 & Hx & un & m3 & (Hu & _) & -> & _). apply (g_uint 64) in Hx. split; [reflexivity|]. split; [exact Hx|exact Hu].
  - destruct Hr as (x & Hx & ->). split; [reflexivity|now apply g_text in Hx].
Qed.
Lemma g_unique net : gives (w_unique net) (unique_range net).
Proof. intros i u o (sys & m & _ & H). now apply g_unique_tail in H. Qed.

Lemma sends_name net u name : unique_range net u -> name_range u name ->
  sends (w_reservation_name u) name (48 + 16 * maybe text_size name).
Proof.
  intros (Hu & _) H. unfold w_reservation_name. destruct name as [s|]; cbn [name_range maybe] in *.
  - destruct (ui_system_id u =? 0) eqn:E.
    + destruct H as (N & H). replace (match ui_remote_id u with RSplitScreen 0 => w_ret None | _ => w_map Some w_local_name end)
        with (w_map Some w_local_name).
      * eapply sends_le; [apply sends_map; now apply sends_local|]. pose proof (text_size_nonneg s). lia.
      * destruct (ui_remote_id u); try reflexivity. destruct id; try reflexivity. congruence.
    + apply sends_map. now apply sends_text.
  - rewrite H in *. cbn [remote_range] in Hu. destruct Hu as (-> & _). cbn. eapply sends_le; [apply sends_ret|lia].
Qed.
Lemma g_name net u : unique_range net u -> gives (w_reservation_name u) (name_range u).
Proof.
  intros (Hu & _) i name o H. unfold w_reservation_name in H. destruct (ui_system_id u =? 0) eqn:E.
  - destruct (ui_remote_id u) as [| |id| | | | |] eqn:R; cbn [remote_range] in Hu; try lia.
    destruct id; [destruct H as (-> & _); exact R|..]; destruct H as (s & H & ->); apply g_local in H; cbn [name_range]; rewrite E, R;
      (split; [congruence|exact H]).
  - destruct H as (s & H & ->). apply g_text in H. cbn [name_range]. now rewrite E.
Qed.

(** ** Loadouts and attributes *)

Ltac one_send :=
  first [ apply sends_bit
        | apply sends_uint; assumption
        | apply sends_int; assumption
        | apply sends_vec3f; assumption
        | apply sends_rotation; assumption
        | apply sends_text; assumption
        | apply sends_online; assumption
        | apply sends_unique; assumption
        | (apply (sends_when _ (w_uint 32) (unsigned 32) _ 32); [lia|intros ?x ?Hx; apply (sends_uint 32); exact Hx|assumption])
        | (apply (sends_when _ (w_uint 6) (unsigned 6) _ 6); [lia|intros ?x ?Hx; apply (sends_uint 6); exact Hx|assumption])
        | (apply (sends_opt (w_int 32) _ 32); [lia|]) ].
Ltac send :=
  cbv beta zeta;
  lazymatch goal with
  | |- sends (w_ret _) _ _ => apply sends_ret
  | |- sends (w_bind _ _) _ _ => eapply sends_bind; [send|try one_send]
  | |- sends (w_map _ _) _ _ => eapply sends_map; try one_send
  | |- _ => idtac
  end.

Lemma sends_active a : active_range a -> sends w_active a 33.
Proof. destruct a as [b x]. intros H. cbn in H. eapply sends_le; [unfold w_active; send|lia]. Qed.
Lemma g_active : gives w_active active_range.
Proof. intros i a o (b & m & _ & x & m1 & H & -> & _). now apply (g_int 32) in H. Qed.
Lemma sends_explosion net x : explosion_range net x -> sends (w_explosion net) x 108.
Proof. destruct x as [f a l]. intros (H1 & H2). cbn in *. eapply sends_le; [unfold w_explosion; send|lia]. Qed.
Lemma g_explosion net : gives (w_explosion net) (explosion_range net).
Proof.
  intros i a o (b & m & _ & x & m1 & H & l & m2 & Hl & -> & _). apply (g_int 32) in H. apply g_vec3f in Hl. split; assumption.
Qed.

Lemma sends_loadout l : loadout_range l -> sends w_loadout l 520.
Proof.
  destruct l as [v b d w r a t u1 u2 en tr go ba pr]. unfold loadout_range.
  cbn [lo_version lo_body lo_decal lo_wheels lo_rocket_trail lo_antenna lo_topper lo_unknown1 lo_unknown2 lo_engine_audio
       lo_trail lo_goal_explosion lo_banner lo_product_id].
  intros (H1 & H2 & H3 & H4 & H5 & H6 & H7 & H8 & H9 & H10 & H11 & H12 & H13 & H14).
  assert (Z0 : exists z, present (22 <=? v) (unsigned 32) z).
  { destruct (22 <=? v); [exists (Some 0)|exists None]; cbn; [split; [reflexivity|unfold unsigned; lia]|reflexivity]. }
  destruct Z0 as (z & Hz).
  assert (Hs : sends (w_when (22 <=? v) (w_uint 32)) z 32) by one_send.
  eapply sends_le; [unfold w_loadout, w_u32; send; exact Hs|lia].
Qed.
Lemma g_loadout : gives w_loadout loadout_range.
Proof.
  intros i l o H. unfold w_loadout, w_u32 in H.
  destruct H as (v & m0 & H0 & H). destruct H as (b & m1 & H1 & H). destruct H as (d & m2 & H2 & H).
  destruct H as (w & m3 & H3 & H). destruct H as (r & m4 & H4 & H). destruct H as (a & m5 & H5 & H).
  destruct H as (t & m6 & H6 & H). destruct H as (u1 & m7 & H7 & H). destruct H as (u2 & m8 & H8 & H).
  destruct H as (en & m9 & H9 & H). destruct H as (tr & m10 & H10 & H). destruct H as (go & m11 & H11 & H).
  destruct H as (ba & m12 & H12 & H). destruct H as (pr & m13 & H13 & H).
  destruct H as (za & m14 & _ & zb & m15 & _ & zc & m16 & _ & -> & _).
  apply (g_uint 8) in H0. apply (g_uint 32) in H1, H2, H3, H4, H5, H6, H7.
  apply (g_when _ _ _ (g_uint 32)) in H8, H9, H10, H11, H12, H13.
  unfold loadout_range. cbn [lo_version lo_body lo_decal lo_wheels lo_rocket_trail lo_antenna lo_topper lo_unknown1 lo_unknown2 lo_engine_audio
       lo_trail lo_goal_explosion lo_banner lo_product_id]. cbv zeta. repeat (split; [assumption|]). assumption.
Qed.

Lemma sends_velocity net v : vec3f_range net v -> sends (w_velocity net) (Some v) 75.
Proof. intros H. exact (sends_vec3f net v H). Qed.
Lemma g_velocity net : gives (w_velocity net) (if_any (vec3f_range net)).
Proof. intros i [v|] o H; [exact (g_vec3f net i v o H)|exact I]. Qed.

#[local] Arguments unsigned : simpl never.
#[local] Arguments signed : simpl never.
#[local] Arguments present : simpl never.
#[local] Arguments if_any : simpl never.
#[local] Arguments vec3f_range : simpl never.
#[local] Arguments rotation_range : simpl never.
#[local] Arguments quat_range : simpl never.
#[local] Arguments active_range : simpl never.
#[local] Arguments explosion_range : simpl never.
#[local] Arguments loadout_range : simpl never.
#[local] Arguments online_range : simpl never.
#[local] Arguments unique_range : simpl never.
#[local] Arguments name_range : simpl never.
#[local] Arguments short_text : simpl never.
#[local] Arguments at_least : simpl never.

Ltac part_send :=
  first [ one_send
        | apply sends_active; assumption
        | apply sends_explosion; assumption
        | apply sends_loadout; assumption
        | apply sends_quat; assumption ].

Lemma unique_size_nonneg u : 0 <= unique_size u.
Proof. unfold unique_size, remote_size, text_size, bytes_size. destruct (ui_remote_id u); lia. Qed.
Lemma product_size_nonneg p : 0 <= product_size p.
Proof. unfold product_size, text_size. destruct (pr_value p); lia. Qed.
Lemma online_size_nonneg l : 0 <= online_size l.
Proof. apply total_nonneg. intros x. pose proof (total_nonneg product_size x product_size_nonneg). lia. Qed.
Ltac sizes :=
  repeat match goal with
  | |- context [text_size ?s] => let v := fresh "v" in let h := fresh "h" in pose proof (text_size_nonneg s) as h; set (v := text_size s) in *; clearbody v
  | |- context [unique_size ?s] => let v := fresh "v" in let h := fresh "h" in pose proof (unique_size_nonneg s) as h; set (v := unique_size s) in *; clearbody v
  | |- context [online_size ?s] => let v := fresh "v" in let h := fresh "h" in pose proof (online_size_nonneg s) as h; set (v := online_size s) in *; clearbody v
  end; lia.

Lemma sends_attribute D tag a : attribute_range D tag a -> not_cut_off a ->
  sends (w_attribute D tag) a (1200 + 100 * attribute_size a).
Proof.
  intros H N. unfold attribute_range in H. cbv zeta in H.
  destruct tag; destruct a; try contradiction;
    try (lazymatch type of x with Z => fail | list _ => fail | _ => destruct x; cbn in H end); repeat match goal with X : _ /\ _ |- _ => destruct X end;
    unfold w_attribute; cbv zeta;
    cbn [attribute_size NetTypes.pm_mutators NetTypes.pm_game_name NetTypes.pm_password NetTypes.lso_blue NetTypes.lso_orange
         NetTypes.rs_name NetTypes.rv_unique_id NetTypes.rv_name maybe].
  all: unfold w_u32, w_f32; try (eapply sends_le; [send; part_send|sizes]).
  - subst init. destruct (at_least (ad_version D) 868 12 0); (eapply sends_le; [send; part_send|lia]).
  - assert (G : sends (w_opt (w_int 32)) pk_instigator 33).
    { apply (sends_opt (w_int 32) _ 32); [lia|]. destruct pk_instigator; cbn in *; [now apply (sends_int 32)|exact I]. }
    eapply sends_le; [eapply sends_bind; [send|exact G]|lia].
  - assert (G : sends (w_opt (w_int 32)) pn_instigator 33).
    { apply (sends_opt (w_int 32) _ 32); [lia|]. destruct pn_instigator; cbn in *; [now apply (sends_int 32)|exact I]. }
    eapply sends_le; [eapply sends_bind; [send|exact G]|lia].
  - rewrite H. eapply sends_le; [send; part_send|lia].
  - rewrite H. eapply sends_le; [send; part_send|sizes].
  - destruct rb_sleeping.
    + destruct H1 as [-> ->]. eapply sends_le; [eapply sends_bind with (a := true); [send; part_send|apply sends_bit]|lia].
    + destruct N as (N1 & N2); [reflexivity|]. cbn in N1, N2.
      destruct rb_linear_velocity as [l|]; [|congruence]. destruct rb_angular_velocity as [g|]; [|congruence].
      destruct H1 as [H1 H2]. cbn in H1, H2.
      eapply sends_le; [eapply sends_bind with (a := false); [|apply sends_bit]|].
      * eapply sends_bind; [|apply sends_vec3f; exact H]. eapply sends_bind; [|apply sends_quat; exact H0].
        eapply sends_bind; [|apply sends_velocity; exact H1]. eapply sends_bind; [|apply sends_velocity; exact H2]. apply sends_ret.
      * lia.
  - eapply sends_le.
    + eapply sends_bind; [|apply (sends_uint 3); exact H]. eapply sends_bind; [|apply sends_unique; exact H0].
      eapply sends_bind; [send|eapply sends_name; eassumption].
    + destruct rv_name; cbn [maybe]; sizes.
  - cbn in H. destruct H as (N0 & H). eapply sends_le; [eapply sends_bind|].
    + replace (ui_system_id u =? 0) with false by lia. apply (sends_map (fun u => APartyLeader (Some u))). apply sends_unique_tail. exact H.
    + apply (sends_uint 8). destruct H as (H & _). apply remote_sys in H. exact H.
    + sizes.
  - eapply sends_le; [eapply sends_bind with (a := 0); [apply sends_ret|apply (sends_uint 8); split; cbn; lia]|lia].
Qed.

Ltac receive :=
  repeat match goal with
  | H : w_bind _ _ _ _ _ |- _ => let x := fresh "x" in let m := fresh "m" in let G := fresh "G" in
      destruct H as (x & m & G & H); cbv beta in H
  | H : w_map _ _ _ _ _ |- _ => let x := fresh "x" in let G := fresh "G" in destruct H as (x & G & ->)
  | H : w_ret _ _ _ _ |- _ => destruct H as (-> & _)
  end.
Ltac received :=
  repeat match goal with
  | H : w_uint ?n _ _ _ |- _ => apply g_uint in H
  | H : w_int ?n _ _ _ |- _ => apply g_int in H
  | H : w_opt (w_int 32) _ _ _ |- _ => apply (g_opt _ _ (g_int 32)) in H
  | H : w_when _ (w_uint ?n) _ _ _ |- _ => apply (g_when _ _ _ (g_uint n)) in H
  | H : w_vec3f _ _ _ _ |- _ => apply g_vec3f in H
  | H : w_rotation _ _ _ |- _ => apply g_rotation in H
  | H : w_text _ _ _ |- _ => apply g_text in H
  | H : w_online _ _ _ _ |- _ => apply g_online in H
  | H : w_unique _ _ _ _ |- _ => apply g_unique in H
  | H : w_active _ _ _ |- _ => apply g_active in H
  | H : w_explosion _ _ _ _ |- _ => apply g_explosion in H
  | H : w_loadout _ _ _ |- _ => apply g_loadout in H
  | H : w_velocity _ _ _ _ |- _ => apply g_velocity in H
  end.

Lemma g_attribute D tag : gives (w_attribute D tag) (attribute_range D tag).
Proof.
  intros i a o H. unfold attribute_range. cbv zeta. destruct tag; unfold w_attribute, w_f32, w_u32 in H; cbv zeta in H.
  all: try (receive; received; cbn; repeat match goal with |- _ /\ _ => split end; first [assumption|exact I]).
  - destruct (at_least (ad_version D) 868 12 0); receive; received; (split; [reflexivity|assumption]).
  - destruct (ad_is_rl_223 D); receive; received; (split; [reflexivity|assumption]).
  - destruct H as (b & m & _ & l & m1 & Hl & q & m2 & Hq & H). apply g_vec3f in Hl. apply g_quat in Hq. destruct b; receive; received; cbn.
    + auto.
    + auto.
  - receive. apply g_unique in G0. apply (g_name _ _ G0) in G1. received. cbn. auto.
  - destruct H as (sys & m & _ & H). destruct (sys =? 0) eqn:E; receive; cbn.
    + exact I.
    + apply g_unique_tail in G as (<- & G). split; [lia|exact G].
Qed.

Lemma attribute_sendable D tag a : not_cut_off a ->
  (attribute_range D tag a <-> exists w, forall o, w_attribute D tag (w ++ o) a o).
Proof.
  intros N. split.
  - intros H. destruct (sends_attribute D tag a H N) as (w & _ & Hw). now exists w.
  - intros (w & H). exact (g_attribute D tag _ _ _ (H [])).
Qed.

(** ** Frames *)

Section Frames.
Context (e : net_env) (HC : e_max_channels e < 2 ^ 32).

Lemma sends_actor id : actor_range e id -> sends (w_actor_id e) id 32.
Proof. intros (x & H & ->). apply sends_map. apply sends_bounded; lia. Qed.
Lemma g_actor : gives (w_actor_id e) (actor_range e).
Proof. intros i id o (x & (H & _) & ->). exists x. split; [exact H|reflexivity]. Qed.

Lemma sends_new a : new_range e a -> sends (w_new e (n_actor_id a)) a 167.
Proof.
  destruct a as [id name obj t]. intros (_ & Hn & Ho & cls & sp & S1 & S2 & Ht). cbn [n_actor_id n_name_id n_object_id n_traj] in *.
  assert (G1 : sends (w_when (e_names e) (w_int 32)) name 32).
  { eapply sends_when; [lia| |exact Hn]. intros x Hx. now apply (sends_int 32). }
  destruct G1 as (w1 & L1 & G1). destruct (sends_int 32 obj Ho) as (w2 & L2 & G2). destruct (sends_trajectory _ _ _ Ht) as (w3 & L3 & G3).
  exists (w1 ++ true :: w2 ++ w3). split; [rewrite !app_length; cbn [length]; rewrite app_length; lia|].
  intros o. exists name, ((true :: w2 ++ w3) ++ o), true, (w2 ++ w3 ++ o), obj, (w3 ++ o), cls, sp, t.
  split; [rewrite <- app_assoc; apply G1|]. split; [cbn [app]; now rewrite <- app_assoc|]. split; [apply G2|].
  split; [exact S1|]. split; [exact S2|]. split; [apply G3|reflexivity].
Qed.
Lemma g_new id : actor_range e id -> gives (w_new e id) (fun a => n_actor_id a = id /\ new_range e a).
Proof.
  intros Hid i a o (name & i1 & b & i2 & obj & i3 & cls & sp & t & H1 & _ & H2 & S1 & S2 & H3 & ->).
  apply (g_when _ _ _ (g_int 32)) in H1. apply (g_int 32) in H2. apply g_trajectory in H3.
  split; [reflexivity|]. split; [exact Hid|]. split; [exact H1|]. split; [exact H2|]. exists cls, sp. auto.
Qed.

Lemma sends_update id cls u : update_range e id cls u -> not_cut_off (u_attribute u) ->
  sends (w_update e id cls) u (1250 + 100 * attribute_size (u_attribute u)).
Proof.
  destruct u as [id' s ob a]. intros (E & bound & p & name & tag & S1 & Hs & S2 & Eo & S3 & S4 & Ha) N.
  cbn [u_actor_id u_stream_id u_object_id u_attribute] in *. subst id' ob.
  assert (Hb : bound < 2 ^ 32).
  { destruct S1 as [(_ & ->)|(s' & p' & _ & _ & ->)]; lia. }
  destruct (sends_bounded bound s 32 Hs Hb) as (w1 & L1 & G1); [lia|]. destruct (sends_attribute _ _ _ Ha N) as (w2 & L2 & G2).
  exists (w1 ++ w2). split; [rewrite app_length; lia|]. intros o. exists bound, s, (w2 ++ o), p, name, tag, a.
  split; [exact S1|]. split; [rewrite <- app_assoc; apply G1|]. split; [exact S2|]. split; [exact S3|]. split; [exact S4|].
  split; [apply G2|reflexivity].
Qed.
Lemma g_update id cls : gives (w_update e id cls) (update_range e id cls).
Proof.
  intros i u o (bound & s & i1 & p & name & tag & a & S1 & (Hs & _) & S2 & S3 & S4 & Ha & ->). apply g_attribute in Ha.
  split; [reflexivity|]. exists bound, p, name, tag. auto 9.
Qed.

Lemma sends_many {A} (P : wire A) c xs : Forall (fun x => sends P x (c x)) xs ->
  sends (w_many P) xs (1 + total (fun x => 1 + c x) xs).
Proof.
  induction 1 as [|x xs (w1 & L1 & G1) _ (w2 & L2 & G2)].
  - exists [false]. split; [cbn; lia|]. intros o. apply many_stop.
  - exists (true :: w1 ++ w2). split.
    + unfold total in *. cbn [length fold_right]. rewrite app_length. lia.
    + intros o. cbn [app]. rewrite <- app_assoc. eapply many_more; [apply G1|apply G2].
Qed.
Lemma g_many {A} (P : wire A) Q : gives P Q -> gives (w_many P) (Forall Q).
Proof. intros H i xs o Hm. induction Hm; constructor; eauto. Qed.

Lemma sends_record h r : record_range e h r -> (forall u, In u (updated_of r) -> not_cut_off (u_attribute u)) ->
  sends (w_record e h) r (record_bits r - 1).
Proof.
  intros H N. destruct r as [a|id|id us]; cbn [record_range record_bits updated_of] in *.
  - destruct (sends_new a H) as (w2 & L2 & G2). destruct H as (H & _). destruct (sends_actor _ H) as (w1 & L1 & G1).
    exists (w1 ++ true :: true :: w2). split; [rewrite app_length; cbn [length]; lia|].
    intros o. exists (n_actor_id a), ((true :: true :: w2) ++ o). split; [rewrite <- app_assoc; apply G1|].
    exists (w2 ++ o). split; [reflexivity|apply G2].
  - destruct (sends_actor _ H) as (w1 & L1 & G1). exists (w1 ++ [false]). split; [rewrite app_length; cbn [length]; lia|].
    intros o. exists id, (false :: o). split; [rewrite <- app_assoc; apply G1|]. split; reflexivity.
  - destruct H as (H & obj & cls & S1 & S2 & F). destruct (sends_actor _ H) as (w1 & L1 & G1).
    assert (F' : Forall (fun u => sends (w_update e id cls) u (1250 + 100 * attribute_size (u_attribute u))) us).
    { rewrite Forall_forall in *. intros u Hu. apply sends_update; auto. }
    destruct (sends_many _ _ _ F') as (w2 & L2 & G2).
    assert (T : total (fun u => 1 + (1250 + 100 * attribute_size (u_attribute u))) us <=
                total (fun u => 1300 + 100 * attribute_size (u_attribute u)) us).
    { clear. unfold total. induction us as [|u us IH]; cbn [fold_right]; lia. }
    exists (w1 ++ true :: false :: w2). split; [rewrite app_length; cbn [length]; lia|].
    intros o. exists id, ((true :: false :: w2) ++ o). split; [rewrite <- app_assoc; apply G1|]. split; [reflexivity|].
    exists (w2 ++ o), obj, cls. split; [reflexivity|]. split; [exact S1|]. split; [exact S2|apply G2].
Qed.
Lemma g_record h : gives (w_record e h) (record_range e h).
Proof.
  intros i r o (id & i1 & Hid & H). apply g_actor in Hid. destruct r as [a|id'|id' us]; cbn [record_range].
  - destruct H as (i2 & _ & H). now apply (g_new _ Hid) in H.
  - destruct H as (-> & _). exact Hid.
  - destruct H as (-> & i2 & obj & cls & _ & S1 & S2 & H). apply (g_many _ _ (g_update id cls)) in H. split; [exact Hid|]. exists obj, cls. auto.
Qed.

Lemma sends_records rs : forall h, records_range e h rs ->
  (forall u, In u (flat_map updated_of rs) -> not_cut_off (u_attribute u)) ->
  sends (w_records e h) rs (1 + total record_bits rs).
Proof.
  induction rs as [|r rs IH]; intros h H N.
  - exists [false]. split; [cbn; lia|]. intros o. constructor.
  - destruct H as (H1 & H2). cbn [flat_map] in N.
    destruct (sends_record h r H1) as (w1 & L1 & G1); [intros u Hu; apply N, in_or_app; now left|].
    destruct (IH _ H2) as (w2 & L2 & G2); [intros u Hu; apply N, in_or_app; now right|].
    exists (true :: w1 ++ w2). split; [unfold total in *; cbn [length fold_right]; rewrite app_length; lia|].
    intros o. cbn [app]. rewrite <- app_assoc. econstructor; [apply G1|apply G2].
Qed.
Lemma g_records h i rs o : w_records e h i rs o -> records_range e h rs.
Proof. induction 1 as [|h i r m rs o H _ IH]; cbn [records_range]; [exact I|]. apply g_record in H. split; assumption. Qed.

Lemma sends_frames fs : forall h, frames_range e h fs -> (forall f, In f (map to_frame fs) -> frame_whole f) ->
  exists w, 64 * Z.of_nat (length fs) <= Z.of_nat (length w) <= frames_bits fs /\ forall o, w_frames e (length fs) h (w ++ o) fs.
Proof.
  induction fs as [|[[t d] rs] fs IH]; intros h H N.
  - exists []. split; [cbn; lia|]. intros o. constructor.
  - cbn [frames_range] in H. destruct H as (Ht & Hd & T1 & T2 & T3 & H1 & H2). cbn [map] in N.
    destruct (sends_records rs h H1) as (w1 & L1 & G1); [intros u Hu; exact (N _ (or_introl eq_refl) u Hu)|].
    destruct (IH _ H2) as (w2 & L2 & G2); [intros f Hf; apply N; now right|].
    exists (enc_bits 32 t ++ enc_bits 32 d ++ w1 ++ w2). split.
    + unfold frames_bits, total in *. cbn [fold_right]. rewrite !app_length, !enc_bits_length. cbn [length]. lia.
    + intros o. cbn [length]. eapply frames_more; [|apply G2].
      exists (enc_bits 32 d ++ w1 ++ w2 ++ o), (w1 ++ w2 ++ o).
      split; [split; [exact Ht|now rewrite <- !app_assoc]|]. split; [split; [exact Hd|reflexivity]|].
      split; [exact T1|]. split; [exact T2|]. split; [exact T3|apply G1].
Qed.
Lemma g_frames n h i fs : w_frames e n h i fs -> frames_range e h fs.
Proof.
  induction 1 as [| | |n h i t d rs m fs (i1 & i2 & (Ht & _) & (Hd & _) & T1 & T2 & T3 & H) _ IH]; cbn [frames_range]; try exact I.
  apply g_records in H. auto 9.
Qed.
End Frames.
