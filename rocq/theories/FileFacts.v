(** * Facts about whole files *)

From Coq Require Import ZArith List Bool Lia ZifyBool ZifyNat.
From Verif Require Import Base Text F32 Crc NetTypes Errors Core Header Body BitReader ObjectIndex
  FrameDecoder Network Parser SpecText TextProofs SpecCrc CrcProofs SpecFile SpecReplay BasicProofs
  CoreLogic FormatProofs FileProofs AppendProofs.
Open Scope Z_scope.

(** ** Texts (C20) and lists (C21) *)

Lemma cok_new data : lenZ data < 2 ^ 31 -> cok (core_new data).
Proof. intros L. unfold cok, core_new. cbn. lia. Qed.

(** acceptance as an equivalence about the whole function *)
Lemma bacc_parses {A} (m : parser A) P data : (forall K, bacc K m P) -> lenZ data < 2 ^ 31 ->
  forall v rest, (exists s, m (core_new data) = (Ok v, s) /\ c_data s = rest) <-> P data v rest.
Proof.
  intros H L v rest. specialize (H (length data) (core_new data) (cok_new _ L) (le_n _)).
  destruct (m (core_new data)) as [[x|e|p] s]; destruct H as (F & H); [| |tauto]; cbn [c_data core_new] in *.
  - rewrite H. split.
    + intros (s' & [= <- <-] & <-). auto.
    + intros [-> ->]. eauto.
  - destruct H as [H _]. split; [intros (s' & [=] & _)|]. intros G. destruct (H _ _ G).
Qed.

Lemma raw_i32_reads data n rest : lenZ data < 2 ^ 31 -> f_i32 data n rest ->
  exists s, raw_i32 (core_new data) = (Ok n, s) /\ c_data s = rest.
Proof. intros L H. exact (proj2 (bacc_parses raw_i32 f_i32 data bacc_raw_i32 L n rest) H). Qed.

Lemma text_too_large data n rest : lenZ data < 2 ^ 31 -> f_i32 data n rest -> (n < -10000 \/ 10000 < n) ->
  exists s, parse_text (core_new data) = (Err (ETextTooLarge n), s) /\ c_data s = rest.
Proof.
  intros L H R. destruct (raw_i32_reads _ _ _ L H) as (s & E & D). exists s. unfold parse_text, bind.
  rewrite E. replace (negb ((-10000 <=? n) && (n <=? 10000))) with true by lia. auto.
Qed.

Lemma list_too_large {A} (f : parser A) data n rest : lenZ data < 2 ^ 31 -> f_i32 data n rest ->
  (n < 0 \/ 25000 < n) ->
  exists s, list_of f (core_new data) = (Err (EListTooLarge (n mod 2 ^ 64)), s) /\ c_data s = rest.
Proof.
  intros L H R. destruct (raw_i32_reads _ _ _ L H) as (s & E & D). exists s. unfold list_of, bind.
  rewrite E. apply f_i32_range in H. unfold repeat_of, as_usize.
  replace (25000 <? n mod 2 ^ 64) with true by (Z.div_mod_to_equations; lia). auto.
Qed.

Lemma f_text_utf8 i s o : f_text i s o -> valid_utf8 s.
Proof.
  intros (n & m & _ & H). destruct (_ || _); [destruct H|]. destruct (n <? 0).
  - destruct H as (l & _ & us & cs & _ & _ & H). now exists cs.
  - destruct H as (l & _ & cs & _ & H). now exists cs.
Qed.

Lemma utf16_units_chars cs : Forall scalar cs -> utf16_chars_of (flat_map utf16_units_of cs) cs.
Proof.
  induction 1 as [|c cs H _ IH]; cbn [flat_map]; [constructor|].
  unfold scalar, surrogate in H. unfold utf16_units_of. destruct (Z.ltb_spec c 0x10000); cbn [app].
  - constructor; auto. unfold surrogate. lia.
  - replace c with (0x10000 + 1024 * (0xD800 + (c - 0x10000) / 1024 - 0xD800)
                    + (0xDC00 + (c - 0x10000) mod 1024 - 0xDC00)) at 3
      by (Z.div_mod_to_equations; lia).
    constructor; auto; unfold lead, trail; Z.div_mod_to_equations; lia.
Qed.

Lemma removelast_snoc {A} (l : list A) x : removelast (l ++ [x]) = l.
Proof. apply removelast_last. Qed.

Lemma text_recovers_1252 count l t cs s rest :
  Forall2 windows1252_one l cs -> utf8 cs s -> Z.of_nat (length l) < 10000 ->
  length count = 4%nat -> little_endian (Z.of_nat (length l) + 1) count ->
  f_text (count ++ (l ++ [t]) ++ rest) s rest.
Proof.
  intros W U L C E. exists (Z.of_nat (length l) + 1), ((l ++ [t]) ++ rest). split.
  - exists count. split; [split; auto|]. split; [lia|auto].
  - replace (_ || _) with false by lia. replace (_ <? 0) with false by lia.
    exists (l ++ [t]). split; [split; auto; rewrite app_length; cbn; lia|].
    rewrite removelast_snoc. exists cs. auto.
Qed.

Lemma text_recovers_utf16 count l t1 t2 cs s rest :
  Forall scalar cs -> units l (flat_map utf16_units_of cs) -> utf8 cs s -> Z.of_nat (length l) < 20000 ->
  length count = 4%nat -> little_endian (- (Z.of_nat (length l / 2) + 1)) count ->
  f_text (count ++ (l ++ [t1; t2]) ++ rest) s rest.
Proof.
  intros S W U L C E. assert (Ev : exists k, length l = (2 * k)%nat).
  { clear - W. induction W as [|a b u l us _ _ [k IH]]; [now exists 0%nat|]. exists (1 + k)%nat. cbn [length]. lia. }
  destruct Ev as [k Ek]. rewrite Ek in *. rewrite (Nat.mul_comm 2 k), Nat.div_mul in E by lia.
  exists (- (Z.of_nat k + 1)), ((l ++ [t1; t2]) ++ rest). split.
  - exists count. split; [split; auto|]. split; [lia|auto].
  - replace (_ || _) with false by lia. replace (_ <? 0) with true by lia.
    exists (l ++ [t1; t2]). split; [split; auto; rewrite app_length; cbn [length]; lia|].
    change (l ++ [t1; t2]) with (l ++ [t1] ++ [t2]). rewrite app_assoc, !removelast_snoc.
    exists (flat_map utf16_units_of cs), cs. split; auto. split; auto. now apply utf16_units_chars.
Qed.

Lemma text_parse_utf8 data s st : lenZ data < 2 ^ 31 -> parse_text (core_new data) = (Ok s, st) -> valid_utf8 s.
Proof.
  intros L E. apply (f_text_utf8 data s (c_data st)).
  apply (bacc_parses parse_text f_text data bacc_text L). eauto.
Qed.

Lemma text_parse_1252 count l t cs s rest :
  Forall2 windows1252_one l cs -> utf8 cs s -> Z.of_nat (length l) < 10000 ->
  length count = 4%nat -> little_endian (Z.of_nat (length l) + 1) count ->
  lenZ (count ++ (l ++ [t]) ++ rest) < 2 ^ 31 ->
  exists st, parse_text (core_new (count ++ (l ++ [t]) ++ rest)) = (Ok s, st) /\ c_data st = rest.
Proof.
  intros W U N C E L. apply (bacc_parses parse_text f_text _ bacc_text L). eapply text_recovers_1252; eauto.
Qed.

Lemma text_parse_utf16 count l t1 t2 cs s rest :
  Forall scalar cs -> units l (flat_map utf16_units_of cs) -> utf8 cs s -> Z.of_nat (length l) < 20000 ->
  length count = 4%nat -> little_endian (- (Z.of_nat (length l / 2) + 1)) count ->
  lenZ (count ++ (l ++ [t1; t2]) ++ rest) < 2 ^ 31 ->
  exists st, parse_text (core_new (count ++ (l ++ [t1; t2]) ++ rest)) = (Ok s, st) /\ c_data st = rest.
Proof.
  intros S W U N C E L. apply (bacc_parses parse_text f_text _ bacc_text L). eapply text_recovers_utf16; eauto.
Qed.

(** ** All lists are small *)

Scheme f_props_m := Minimality for f_props Sort Prop
  with f_value_m := Minimality for f_value Sort Prop
  with f_rows_m := Minimality for f_rows Sort Prop.

Lemma small_props q i ps o : f_props q i ps o -> Forall (fun kv => small_value (snd kv)) ps.
Proof.
  apply (f_props_m q
    (fun _ ps _ => Forall (fun kv => small_value (snd kv)) ps)
    (fun _ _ v _ => small_value v)
    (fun n _ rows _ => length rows = n /\ Forall (Forall (fun kv => small_value (snd kv))) rows));
    try (intros; apply sv_leaf; discriminate).
  - intros. constructor.
  - intros. constructor; auto.
  - auto.
  - intros i' n m rows o' _ R _ [L H]. apply sv_array; auto. unfold props in *. lia.
  - intros. now apply sv_struct.
  - intros. auto.
  - intros n i' r m rows o' _ H _ [L H2]. split; [cbn [length]; lia|]. constructor; auto.
Qed.

Lemma f_times_length {A} (P : form A) n : forall i l o, f_times n P i l o -> length l = n.
Proof.
  induction n as [|n IH]; cbn [f_times]; intros i l o H.
  - destruct H as [-> _]. reflexivity.
  - destruct H as (x & m & _ & xs & m' & H & -> & _). cbn [length]. f_equal. eauto.
Qed.
Lemma f_times_Forall {A} (P : form A) (Q : A -> Prop) n :
  (forall i a o, P i a o -> Q a) -> forall i l o, f_times n P i l o -> Forall Q l.
Proof.
  intros HQ. induction n as [|n IH]; cbn [f_times]; intros i l o H.
  - destruct H as [-> _]. constructor.
  - destruct H as (x & m & H0 & xs & m' & H & -> & _). constructor; eauto.
Qed.
Lemma small_list {A} (P : form A) i l o : f_list P i l o -> small l.
Proof.
  intros (n & m & _ & H). unfold f_counted in H. destruct (_ || _) eqn:E; [destruct H|].
  apply f_times_length in H. unfold small. lia.
Qed.
Lemma list_Forall {A} (P : form A) (Q : A -> Prop) i l o :
  (forall i a o, P i a o -> Q a) -> f_list P i l o -> Forall Q l.
Proof.
  intros HQ (n & m & _ & H). unfold f_counted in H. destruct (_ || _) eqn:E; [destruct H|].
  eapply f_times_Forall; eauto.
Qed.

Lemma file_small data h b o fs : f_file data (h, b) o -> small_lists (replay_of h b fs).
Proof.
  intros (h' & m & (hs & hc & hcov & hm & hv & _ & Hh & Eh) & b' & m' & (bs & bc & bcov & bm & bv & _ & Hb & Eb) & E & _).
  injection E as -> ->. subst h' b'. unfold small_lists, replay_of. cbn.
  destruct Hh as (maj & m1 & _ & min & m2 & _ & net & m3 & _ & gt & m4 & _ & ps & m5 & Hp & -> & _).
  destruct Hb as (lv & n1 & H1 & kf & n2 & H2 & nw & n3 & _ & db & n4 & H4 & tk & n5 & H5 & pk & n6 & H6 &
                  ob & n7 & H7 & nm & n8 & H8 & cl & n9 & H9 & nc & n10 & H10 & -> & _).
  cbn. split; [eapply small_props; eauto|].
  repeat split; try (eapply small_list; eauto).
  eapply list_Forall; [|exact H10]. intros i a o' (x & ? & _ & y & ? & _ & z & ? & _ & ps' & ? & Hps & -> & _).
  cbn. eapply small_list; eauto.
Qed.

(** ** Net version (C23) *)

Lemma header_net i h o : f_header i h o ->
  (h_net h <> None <-> h_major h > 865 /\ h_minor h > 17).
Proof.
  intros (maj & m1 & _ & min & m2 & _ & net & m3 & Hn & gt & m4 & _ & ps & m5 & Hp & -> & _). cbn.
  destruct ((865 <? maj) && (17 <? min)) eqn:E.
  - destruct Hn as (n & _ & ->). split; [lia|discriminate].
  - destruct Hn as [-> _]. split; [congruence|lia].
Qed.

(** ** Acceptance (C25) *)

Section Files.
Context (B : bitter) (ho : hash_order).
Notation parse := (parse_with B ho).

Lemma never_never data : lenZ data < 2 ^ 31 -> forall r,
  parse CrcNever NetNever data = Ok r <-> exists h b rest, f_file data (h, b) rest /\ r = replay_of h b None.
Proof.
  intros L r. destruct (fate_of B ho data L) as
    [e _ ND E|size crc cov m e _ D U NP E|size crc cov m h o e _ D U PH UH ND E
    |size crc cov m h o bsize bcrc bcov bm e _ D U PH UH D' U' NP E
    |size crc cov m h o bsize bcrc bcov bm b o' D U PH UH D' U' PB UB E]; rewrite E.
  - split; [discriminate|]. intros (h & b & rest & (h' & m & (? & ? & ? & ? & ? & D & _) & _) & _).
    destruct (ND _ _ _ _ D).
  - unfold verdict. split; [destruct (crc =? _); discriminate|].
    intros (h & b & rest & (h' & m' & (? & ? & ? & ? & ? & D2 & P2 & _) & _) & _).
    apply U in D2 as (-> & -> & -> & ->). destruct (NP _ _ P2).
  - split; [discriminate|].
    intros (h2 & b & rest & (h' & m' & (? & ? & ? & ? & ? & D2 & P2 & _) & b' & m2 & (? & ? & ? & ? & ? & D3 & _) & _) & _).
    apply U in D2 as (-> & -> & -> & ->). apply UH in P2 as (-> & ->). destruct (ND _ _ _ _ D3).
  - unfold verdict. split; [destruct (bcrc =? _); discriminate|].
    intros (h2 & b & rest & (h' & m' & (? & ? & ? & ? & ? & D2 & P2 & _) & b' & m2 & (? & ? & ? & ? & ? & D3 & P3 & _) & _) & _).
    apply U in D2 as (-> & -> & -> & ->). apply UH in P2 as (-> & ->).
    apply U' in D3 as (-> & -> & -> & ->). destruct (NP _ _ P3).
  - cbn. split.
    + intros [= <-]. exists (mkSection size crc cov h), (mkSection bsize bcrc bcov b), o'. split; auto.
      exists (mkSection size crc cov h), o. split; [unfold f_section; eauto 12|].
      exists (mkSection bsize bcrc bcov b), o'. split; [unfold f_section; eauto 12|]. split; reflexivity.
    + intros (h2 & b2 & rest & (h' & m' & (? & ? & ? & ? & ? & D2 & P2 & ->) & b' & m2 & (? & ? & ? & ? & ? & D3 & P3 & ->) & E' & _) & ->).
      injection E' as -> ->.
      apply U in D2 as (-> & -> & -> & ->). apply UH in P2 as (-> & ->).
      apply U' in D3 as (-> & -> & -> & ->). apply UB in P3 as (-> & ->). reflexivity.
Qed.

(** with which file formats the parser gets to the network data *)
Lemma fate_file data h b rest : lenZ data < 2 ^ 31 -> f_file data (h, b) rest -> forall c n,
  parse c n data =
    if mismatch c (sec_crc h) (sec_bytes h)
    then Err (ECrcMismatch (sec_crc h) (Z.of_N (crc32_unreal (sec_bytes h))))
    else if mismatch c (sec_crc b) (sec_bytes b)
    then Err (ECrcMismatch (sec_crc b) (Z.of_N (crc32_unreal (sec_bytes b))))
    else out_map (replay_of h b) (net_result n (network_parse_frames B ho (sec_value h) (sec_value b))).
Proof.
  intros L (h' & m' & (? & ? & ? & ? & ? & D2 & P2 & ->) & b' & m2 & (? & ? & ? & ? & ? & D3 & P3 & ->) & E' & _).
  assert (EH := f_equal fst E'). assert (EB := f_equal snd E'). cbn in EH, EB. subst h b. clear E'. cbn [sec_crc sec_bytes sec_value].
  destruct (fate_of B ho data L) as
    [e _ ND E|size crc cov m e _ D U NP E|size crc cov m h o e _ D U PH UH ND E
    |size crc cov m h o bsize bcrc bcov bm e _ D U PH UH D' U' NP E
    |size crc cov m h o bsize bcrc bcov bm b o' D U PH UH D' U' PB UB E].
  - destruct (ND _ _ _ _ D2).
  - apply U in D2 as (-> & -> & -> & ->). destruct (NP _ _ P2).
  - apply U in D2 as (-> & -> & -> & ->). apply UH in P2 as (-> & ->). destruct (ND _ _ _ _ D3).
  - apply U in D2 as (-> & -> & -> & ->). apply UH in P2 as (-> & ->).
    apply U' in D3 as (-> & -> & -> & ->). destruct (NP _ _ P3).
  - apply U in D2 as (-> & -> & -> & ->). apply UH in P2 as (-> & ->).
    apply U' in D3 as (-> & -> & -> & ->). destruct (UB _ _ P3) as [EB1 EB2]. rewrite EB1. exact E.
Qed.

Lemma parse_ok_file data c n r : lenZ data < 2 ^ 31 -> parse c n data = Ok r ->
  exists h b rest, f_file data (h, b) rest /\ r = replay_of h b (r_network_frames r).
Proof.
  intros L. destruct (fate_of B ho data L) as
    [e _ ND E|size crc cov m e _ D U NP E|size crc cov m h o e _ D U PH UH ND E
    |size crc cov m h o bsize bcrc bcov bm e _ D U PH UH D' U' NP E
    |size crc cov m h o bsize bcrc bcov bm b o' D U PH UH D' U' PB UB E]; rewrite E.
  - discriminate.
  - unfold verdict. destruct (crc =? _); [discriminate|]. destruct c; discriminate.
  - destruct (mismatch c crc cov); discriminate.
  - destruct (mismatch c crc cov); [discriminate|]. unfold verdict.
    destruct (bcrc =? _); [discriminate|]. destruct c; discriminate.
  - destruct (mismatch c crc cov); [discriminate|]. destruct (mismatch c bcrc bcov); [discriminate|].
    intros H. exists (mkSection size crc cov h), (mkSection bsize bcrc bcov b), o'. split.
    + exists (mkSection size crc cov h), o. split; [unfold f_section; eauto 12|].
      exists (mkSection bsize bcrc bcov b), o'. split; [unfold f_section; eauto 12|]. split; reflexivity.
    + destruct (net_result n _); cbn in H; try discriminate H. injection H as <-. reflexivity.
Qed.

(** ** Error positions (C39) *)

Lemma located_verdict {A} len at_ c crc cov n e e' : located len at_ e ->
  @verdict A c crc cov n (Err e) = Err e' -> located len at_ e'.
Proof.
  intros H. unfold verdict. destruct (crc =? _); [intros [= <-]; auto|].
  destruct c; intros [= <-]; auto; exact I.
Qed.

Lemma error_located data c n e : lenZ data < 2 ^ 31 -> parse c n data = Err e ->
  exists at_, 0 <= at_ <= lenZ data /\ located (lenZ data) at_ e.
Proof.
  intros L. assert (Z0 : 0 <= 0 <= lenZ data) by (pose proof (lenZ_nonneg data); lia).
  destruct (fate_of B ho data L) as
    [e0 G ND E|size crc cov m e0 G D U NP E|size crc cov m h o e0 G D U PH UH ND E
    |size crc cov m h o bsize bcrc bcov bm e0 G D U PH UH D' U' NP E
    |size crc cov m h o bsize bcrc bcov bm b o' D U PH UH D' U' PB UB E]; rewrite E;
    try (apply good_located in G as (at_ & R & G); auto).
  - intros [= <-]. eauto.
  - intros H. exists at_. split; auto. eapply located_verdict; eauto.
  - destruct (mismatch c crc cov); intros [= <-]; eauto. exists 0. split; auto; exact I.
  - destruct (mismatch c crc cov).
    + intros [= <-]. exists 0. split; auto; exact I.
    + intros H. exists at_. split; auto. eapply located_verdict; eauto.
  - destruct (mismatch c crc cov); [intros [= <-]; exists 0; split; auto; exact I|].
    destruct (mismatch c bcrc bcov); [intros [= <-]; exists 0; split; auto; exact I|].
    intros H. exists 0. split; auto.
    unfold net_result in H. destruct n, (network_parse_frames B ho h b); try discriminate H.
    injection H as <-. exact I.
Qed.

(** ** Checksum policies (C05) *)

Lemma on_error_ok data n r : lenZ data < 2 ^ 31 ->
  (parse CrcOnError n data = Ok r <-> parse CrcNever n data = Ok r).
Proof.
  intros L. destruct (fate_of B ho data L) as
    [e0 G ND E|size crc cov m e0 G D U NP E|size crc cov m h o e0 G D U PH UH ND E
    |size crc cov m h o bsize bcrc bcov bm e0 G D U PH UH D' U' NP E
    |size crc cov m h o bsize bcrc bcov bm b o' D U PH UH D' U' PB UB E]; rewrite !E; cbn [mismatch];
    try reflexivity.
  - unfold verdict. destruct (crc =? _); split; discriminate.
  - unfold verdict. destruct (bcrc =? _); split; discriminate.
Qed.

Lemma mismatch_always crc cov : mismatch CrcAlways crc cov = false <-> crc_matches crc cov.
Proof. unfold mismatch, crc_matches. lia. Qed.

Lemma always_ok data n r : lenZ data < 2 ^ 31 ->
  (parse CrcAlways n data = Ok r <->
   parse CrcNever n data = Ok r /\
   exists h b rest, f_file data (h, b) rest /\
     crc_matches (sec_crc h) (sec_bytes h) /\ crc_matches (sec_crc b) (sec_bytes b)).
Proof.
  intros L. split.
  - intros H. destruct (parse_ok_file _ _ _ _ L H) as (h & b & rest & F & _).
    pose proof (fate_file _ _ _ _ L F) as E. rewrite !E in *. cbn [mismatch] in *.
    destruct (negb (sec_crc h =? _)) eqn:M1; [discriminate|].
    destruct (negb (sec_crc b =? _)) eqn:M2; [discriminate|]. split; auto.
    exists h, b, rest. unfold crc_matches. repeat split; auto; lia.
  - intros [H (h & b & rest & F & M1 & M2)]. pose proof (fate_file _ _ _ _ L F) as E.
    rewrite !E in *. apply mismatch_always in M1, M2. rewrite M1, M2. exact H.
Qed.

(** no section header: the same error under every policy *)
Lemma no_header_section data : lenZ data < 2 ^ 31 ->
  (forall size crc cov m, ~ declared data size crc cov m) ->
  exists e, forall c n, parse c n data = Err e.
Proof.
  intros L ND. destruct (fate_of B ho data L); try (exfalso; eapply ND; eassumption). eauto.
Qed.

Lemma header_error data size crc cov m : lenZ data < 2 ^ 31 ->
  declared data size crc cov m -> (forall h o, ~ f_header m h o) ->
  exists e, (forall n, parse CrcNever n data = Err e) /\
    (crc_matches crc cov -> forall c n, parse c n data = Err e) /\
    (~ crc_matches crc cov -> forall n,
       parse CrcOnError n data = Err (ECorruptReplay "header" e) /\
       parse CrcAlways n data = Err (ECrcMismatch crc (Z.of_N (crc32_unreal cov)))).
Proof.
  intros L D ND. destruct (fate_of B ho data L) as
    [e0 G ND' E|size' crc' cov' m' e0 G D' U NP E|size' crc' cov' m' h o e0 G D' U PH UH ND' E
    |size' crc' cov' m' h o bsize bcrc bcov bm e0 G D' U PH UH D'' U' NP E
    |size' crc' cov' m' h o bsize bcrc bcov bm b o' D' U PH UH D'' U' PB UB E].
  1: destruct (ND' _ _ _ _ D).
  all: apply U in D as (-> & -> & -> & ->). 2-4: destruct (ND _ _ PH).
  exists e0. unfold crc_matches. split; [|split].
  - intros n. rewrite E. unfold verdict. now destruct (crc' =? _).
  - intros M c n. rewrite E. unfold verdict. now rewrite (proj2 (Z.eqb_eq _ _) M).
  - intros M n. rewrite !E. unfold verdict. now rewrite (proj2 (Z.eqb_neq _ _) M).
Qed.

(** always: a bad header checksum wins over everything after it *)
Lemma header_mismatch data size crc cov m n : lenZ data < 2 ^ 31 ->
  declared data size crc cov m -> ~ crc_matches crc cov ->
  parse CrcAlways n data = Err (ECrcMismatch crc (Z.of_N (crc32_unreal cov))).
Proof.
  intros L D M. destruct (fate_of B ho data L) as
    [e0 G ND' E|size' crc' cov' m' e0 G D' U NP E|size' crc' cov' m' h o e0 G D' U PH UH ND' E
    |size' crc' cov' m' h o bsize bcrc bcov bm e0 G D' U PH UH D'' U' NP E
    |size' crc' cov' m' h o bsize bcrc bcov bm b o' D' U PH UH D'' U' PB UB E].
  1: destruct (ND' _ _ _ _ D).
  all: apply U in D as (-> & -> & -> & ->); rewrite E; unfold verdict, mismatch;
    unfold crc_matches in M; rewrite (proj2 (Z.eqb_neq _ _) M); reflexivity.
Qed.

Lemma no_body_section data size crc cov m h o : lenZ data < 2 ^ 31 ->
  declared data size crc cov m -> f_header m h o ->
  (forall size crc cov m, ~ declared o size crc cov m) ->
  exists e, (forall n, parse CrcNever n data = Err e /\ parse CrcOnError n data = Err e) /\
    (crc_matches crc cov -> forall n, parse CrcAlways n data = Err e).
Proof.
  intros L D H ND. destruct (fate_of B ho data L) as
    [e0 G ND' E|size' crc' cov' m' e0 G D' U NP E|size' crc' cov' m' h' o' e0 G D' U PH UH ND' E
    |size' crc' cov' m' h' o' bsize bcrc bcov bm e0 G D' U PH UH D'' U' NP E
    |size' crc' cov' m' h' o' bsize bcrc bcov bm b o'' D' U PH UH D'' U' PB UB E].
  1: destruct (ND' _ _ _ _ D).
  all: apply U in D as (-> & -> & -> & ->). 1: destruct (NP _ _ H).
  all: apply UH in H as (-> & ->). 2-3: destruct (ND _ _ _ _ D'').
  exists e0. split.
  - intros n. rewrite !E. auto.
  - intros M n. rewrite E. apply mismatch_always in M. now rewrite M.
Qed.

Lemma body_error data size crc cov m h o bsize bcrc bcov bm : lenZ data < 2 ^ 31 ->
  declared data size crc cov m -> f_header m h o ->
  declared o bsize bcrc bcov bm -> (forall b o, ~ f_body bm b o) ->
  exists e, (forall n, parse CrcNever n data = Err e) /\
    (crc_matches bcrc bcov -> forall n, parse CrcOnError n data = Err e) /\
    (~ crc_matches bcrc bcov -> forall n, parse CrcOnError n data = Err (ECorruptReplay "body" e)) /\
    (crc_matches crc cov -> crc_matches bcrc bcov -> forall n, parse CrcAlways n data = Err e).
Proof.
  intros L D H DB ND. destruct (fate_of B ho data L) as
    [e0 G ND' E|size' crc' cov' m' e0 G D' U NP E|size' crc' cov' m' h' o' e0 G D' U PH UH ND' E
    |size' crc' cov' m' h' o' bsize' bcrc' bcov' bm' e0 G D' U PH UH D'' U' NP E
    |size' crc' cov' m' h' o' bsize' bcrc' bcov' bm' b o'' D' U PH UH D'' U' PB UB E].
  1: destruct (ND' _ _ _ _ D).
  all: apply U in D as (-> & -> & -> & ->). 1: destruct (NP _ _ H).
  all: apply UH in H as (-> & ->). 1: destruct (ND' _ _ _ _ DB).
  all: apply U' in DB as (-> & -> & -> & ->). 2: destruct (ND _ _ PB).
  exists e0. unfold crc_matches. split; [|split; [|split]].
  - intros n. rewrite E. unfold verdict, mismatch. now destruct (bcrc' =? _).
  - intros M n. rewrite E. unfold verdict, mismatch. now rewrite (proj2 (Z.eqb_eq _ _) M).
  - intros M n. rewrite !E. unfold verdict, mismatch. now rewrite (proj2 (Z.eqb_neq _ _) M).
  - intros M M' n. rewrite E. unfold verdict. rewrite (proj2 (mismatch_always _ _) M).
    now rewrite (proj2 (Z.eqb_eq _ _) M').
Qed.

Lemma body_mismatch data size crc cov m h o bsize bcrc bcov bm n : lenZ data < 2 ^ 31 ->
  declared data size crc cov m -> crc_matches crc cov -> f_header m h o ->
  declared o bsize bcrc bcov bm -> ~ crc_matches bcrc bcov ->
  parse CrcAlways n data = Err (ECrcMismatch bcrc (Z.of_N (crc32_unreal bcov))).
Proof.
  intros L D M H DB MB. destruct (fate_of B ho data L) as
    [e0 G ND' E|size' crc' cov' m' e0 G D' U NP E|size' crc' cov' m' h' o' e0 G D' U PH UH ND' E
    |size' crc' cov' m' h' o' bsize' bcrc' bcov' bm' e0 G D' U PH UH D'' U' NP E
    |size' crc' cov' m' h' o' bsize' bcrc' bcov' bm' b o'' D' U PH UH D'' U' PB UB E].
  1: destruct (ND' _ _ _ _ D).
  all: apply U in D as (-> & -> & -> & ->). 1: destruct (NP _ _ H).
  all: apply UH in H as (-> & ->). 1: destruct (ND' _ _ _ _ DB).
  all: apply U' in DB as (-> & -> & -> & ->); rewrite E, (proj2 (mismatch_always _ _) M);
    unfold verdict, mismatch; unfold crc_matches in MB; rewrite (proj2 (Z.eqb_neq _ _) MB); reflexivity.
Qed.

(** the network outcome does not depend on the policy once the checksums match *)
Lemma same_network data h b rest : lenZ data < 2 ^ 31 -> f_file data (h, b) rest ->
  crc_matches (sec_crc h) (sec_bytes h) -> crc_matches (sec_crc b) (sec_bytes b) ->
  forall c c' n, parse c n data = parse c' n data.
Proof.
  intros L F M1 M2 c c' n. rewrite !(fate_file _ _ _ _ L F).
  unfold crc_matches, mismatch in *. rewrite <- M1, <- M2, !Z.eqb_refl.
  destruct c, c'; reflexivity.
Qed.

(** ** Tampering (C09) *)

Lemma declared_prefix pre cov rest size crc covered m :
  length pre = 8%nat -> declared (pre ++ cov ++ rest) size crc covered m ->
  Z.of_nat (length cov) = size -> covered = cov /\ m = cov ++ rest /\
  forall cov' rest', length cov' = length cov ->
    declared (pre ++ cov' ++ rest') size crc cov' (cov' ++ rest').
Proof.
  intros Lp (m1 & (l1 & [L1 E1] & R1) & (l2 & [L2 E2] & R2) & Hs & Hl & (after & Ea)) Lc. subst m1.
  rewrite (app_assoc l1) in E1. apply bytes_unique in E1 as [-> E1]; [|rewrite app_length; lia]. subst m.
  apply bytes_unique in Ea as [<- ->]; [|lia]. split; [reflexivity|]. split; [reflexivity|].
  intros cov' rest' L'. exists (l2 ++ cov' ++ rest'). split.
  - exists l1. split; auto. split; auto. now rewrite <- app_assoc.
  - split; [exists l2; split; auto; split; auto|]. split; [lia|]. split; [lia|]. eauto.
Qed.

(** other bytes in place of the covered ones, with another checksum *)
Lemma swap_header data n r pre cv cv' rest : lenZ data < 2 ^ 31 ->
  parse CrcAlways n data = Ok r ->
  data = pre ++ cv ++ rest -> length pre = 8%nat ->
  Z.of_nat (length cv) = r_header_size r ->
  length cv' = length cv -> calc_crc cv' <> calc_crc cv ->
  parse CrcAlways n (pre ++ cv' ++ rest) =
    Err (ECrcMismatch (r_header_crc r) (Z.of_N (crc32_unreal cv'))).
Proof.
  intros L H E Lp Ls Lw Nw. apply always_ok in H as [H (h & b & o & F & M & _)]; auto.
  rewrite (fate_file _ _ _ _ L F) in H. cbn [mismatch] in H.
  destruct (net_result n _) as [fs|e|pp]; cbn in H; try discriminate H. injection H as <-. cbn in Ls |- *.
  destruct F as (h' & m' & (size & crc & cov & m & hv & D & P & ->) & b' & m2 & _ & Ei & _). injection Ei as -> _.
  cbn in *. subst data. destruct (declared_prefix _ _ _ _ _ _ _ Lp D Ls) as (-> & -> & D').
  apply (header_mismatch _ size crc _ (cv' ++ rest)).
  - revert L. rewrite !lenZ_app. unfold lenZ. lia.
  - apply D'. exact Lw.
  - unfold crc_matches in *. rewrite M, <- !calc_crc_spec. intros EE. apply N2Z.inj in EE. auto.
Qed.

Lemma tamper_header data n r pre p w w' q rest : lenZ data < 2 ^ 31 ->
  parse CrcAlways n data = Ok r ->
  data = pre ++ (p ++ w ++ q) ++ rest -> length pre = 8%nat ->
  Z.of_nat (length (p ++ w ++ q)) = r_header_size r ->
  length w' = length w -> (length w <= 4)%nat -> w' <> w ->
  parse CrcAlways n (pre ++ (p ++ w' ++ q) ++ rest) =
    Err (ECrcMismatch (r_header_crc r) (Z.of_N (crc32_unreal (p ++ w' ++ q)))).
Proof.
  intros L H E Lp Ls Lw L4 Nw. eapply swap_header; eauto; [rewrite !app_length; lia|].
  apply window_detected; auto; lia.
Qed.

Lemma header_extends hb h x : lenZ hb < 2 ^ 31 -> lenZ (hb ++ x) < 2 ^ 31 -> f_header hb h [] -> f_header (hb ++ x) h x.
Proof.
  intros L L' H. apply (bacc_parses parse_header f_header _ bacc_header L) in H as (s & E & D).
  apply (bacc_parses parse_header f_header _ bacc_header L').
  apply (ext_header _ _ _ x) in E. exists (more x s). split; [exact E|]. unfold more. cbn. now rewrite D.
Qed.

Lemma swap_body data n r pre hb h pre2 cv cv' rest : lenZ data < 2 ^ 31 ->
  parse CrcAlways n data = Ok r ->
  data = pre ++ hb ++ pre2 ++ cv ++ rest -> length pre = 8%nat ->
  f_header hb h [] -> r_header_size r <= Z.of_nat (length hb) -> length pre2 = 8%nat ->
  Z.of_nat (length cv) = r_content_size r ->
  length cv' = length cv -> calc_crc cv' <> calc_crc cv ->
  parse CrcAlways n (pre ++ hb ++ pre2 ++ cv' ++ rest) =
    Err (ECrcMismatch (r_content_crc r) (Z.of_N (crc32_unreal cv'))).
Proof.
  intros L H E Lp Fh Lh Lp2 Ls Lw Nw. apply always_ok in H as [H (hs & bs & o & F & M & MB)]; auto.
  rewrite (fate_file _ _ _ _ L F) in H. cbn [mismatch] in H.
  destruct (net_result n _) as [fs|e|pp]; cbn in H; try discriminate H. injection H as <-. cbn in Ls, Lh |- *.
  destruct F as (h' & m' & (size & crc & cov & m & hv & D & P & ->) & b' & m2 & (bsize & bcrc & bcov & bm & bv & DB & PB & ->) & Ei & _).
  injection Ei as -> ->. cbn in *. subst data.
  destruct D as (m1 & (l1 & [L1 E1] & R1) & (l2 & [L2 E2] & R2) & Hs & Hl & (after & Ea)).
  subst m1. rewrite (app_assoc l1) in E1. apply bytes_unique in E1 as [-> E1]; [|rewrite app_length; lia].
  assert (Lall : forall t, lenZ t = lenZ (pre2 ++ cv ++ rest) -> lenZ (hb ++ t) < 2 ^ 31).
  { intros t Ht. revert L. rewrite !(lenZ_app (l1 ++ l2)), !(lenZ_app hb), Ht. pose proof (lenZ_nonneg (l1 ++ l2)). lia. }
  assert (Lhb : lenZ hb < 2 ^ 31).
  { specialize (Lall _ eq_refl). rewrite lenZ_app in Lall. pose proof (lenZ_nonneg (pre2 ++ cv ++ rest)). lia. }
  assert (Lt : forall t, lenZ t = lenZ (pre2 ++ cv ++ rest) -> f_header (hb ++ t) h t).
  { intros t Ht. apply header_extends; auto. }
  rewrite <- E1 in *.
  destruct (bacc_fun _ _ _ _ _ _ _ bacc_header (Lall _ eq_refl) (Lt _ eq_refl) P) as [-> ->].
  destruct (declared_prefix _ _ _ _ _ _ _ Lp2 DB Ls) as (-> & -> & D').
  assert (Hcov : exists k, hb = cov ++ k).
  { exists (skipn (length cov) hb).
    assert (length cov <= length hb)%nat by lia.
    rewrite <- (firstn_skipn (length cov) hb) in Ea at 1. rewrite <- app_assoc in Ea.
    apply bytes_unique in Ea as [Ea _]; [|rewrite firstn_length; lia].
    pose proof (firstn_skipn (length cov) hb) as FS. rewrite Ea in FS. congruence. }
  destruct Hcov as [k Hk].
  set (t := pre2 ++ cv' ++ rest).
  assert (Ht : lenZ t = lenZ (pre2 ++ cv ++ rest)) by (unfold t; rewrite !lenZ_app; unfold lenZ; lia).
  apply (body_mismatch _ size crc cov (hb ++ t) h t bsize bcrc _ (cv' ++ rest)).
  - revert L. rewrite !(lenZ_app (l1 ++ l2)), !(lenZ_app hb), Ht. auto.
  - exists (l2 ++ hb ++ t). split.
    + exists l1. split; auto. split; auto. now rewrite <- app_assoc.
    + split; [exists l2; split; auto; split; auto|]. split; [lia|]. split; [lia|].
      exists (k ++ t). rewrite Hk at 1. now rewrite app_assoc.
  - exact M.
  - apply Lt, Ht.
  - apply D'. exact Lw.
  - unfold crc_matches in *. rewrite MB, <- !calc_crc_spec. intros EE. apply N2Z.inj in EE. auto.
Qed.

Lemma tamper_body data n r pre hb h pre2 p w w' q rest : lenZ data < 2 ^ 31 ->
  parse CrcAlways n data = Ok r ->
  data = pre ++ hb ++ pre2 ++ (p ++ w ++ q) ++ rest -> length pre = 8%nat ->
  f_header hb h [] -> r_header_size r <= Z.of_nat (length hb) -> length pre2 = 8%nat ->
  Z.of_nat (length (p ++ w ++ q)) = r_content_size r ->
  length w' = length w -> (length w <= 4)%nat -> w' <> w ->
  parse CrcAlways n (pre ++ hb ++ pre2 ++ (p ++ w' ++ q) ++ rest) =
    Err (ECrcMismatch (r_content_crc r) (Z.of_N (crc32_unreal (p ++ w' ++ q)))).
Proof.
  intros L H E Lp Fh Lh Lp2 Ls Lw L4 Nw. eapply swap_body; eauto; [rewrite !app_length; lia|].
  apply window_detected; auto; lia.
Qed.

End Files.

Lemma replay_small B ho c n data r : lenZ data < 2 ^ 31 -> parse_with B ho c n data = Ok r -> small_lists r.
Proof.
  intros L H. destruct (parse_ok_file _ _ _ _ _ _ L H) as (h & b & rest & F & ->).
  eapply file_small; eauto.
Qed.

Lemma replay_net_version B ho c n data r : lenZ data < 2 ^ 31 -> parse_with B ho c n data = Ok r ->
  (r_net_version r <> None <-> r_major_version r > 865 /\ r_minor_version r > 17).
Proof.
  intros L H. destruct (parse_ok_file _ _ _ _ _ _ L H) as (h & b & rest & F & ->).
  destruct F as (h' & m' & (size & crc & cov & m & hv & D & P & ->) & b' & m2 & _ & Ei & _).
  injection Ei as -> _. cbn. eapply header_net; eauto.
Qed.
