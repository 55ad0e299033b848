(** * Whole files: sections, policies *)

From Coq Require Import ZArith List Bool Lia ZifyBool ZifyNat.
From Verif Require Import Base Text F32 Crc NetTypes Errors Core Header Body BitReader ObjectIndex
  FrameDecoder Network Parser SpecText TextProofs SpecCrc CrcProofs SpecFile SpecReplay BasicProofs
  CoreLogic FormatProofs.
Open Scope Z_scope.

(** The steps of parse_replay that deal with one section. *)
Definition sect {A} (check : crc_check) (n1 n2 n3 n4 : string) (f : parser A) : parser (section A) :=
  let* size := take_i32 n1 in
  let* crc := take_u32 n2 in
  let* covered := in_section n3 (view_data (as_usize size)) in
  let* x := crc_section check covered crc n4 f in
  ret (mkSection size crc covered x).

Definition header_sect check := sect check "header size" "header crc" "header data" "header" parse_header.
Definition body_sect check := sect check "content size" "content crc" "content data" "body" parse_body.

Section Replay.
Context (B : bitter) (ho : hash_order).

Lemma parse_replay_sections check np s :
  parse_replay B ho check np s =
  (let* h := header_sect check in
   let* b := body_sect check in
   let* fs := parse_network B ho np (sec_value h) (sec_value b) in
   ret (replay_of h b fs)) s.
Proof.
  unfold parse_replay, header_sect, body_sect, sect, bind, ret.
  destruct (take_i32 "header size" s) as [[hs|e|p] s1]; auto.
  destruct (take_u32 "header crc" s1) as [[hc|e|p] s2]; auto.
  destruct (in_section "header data" (view_data (as_usize hs)) s2) as [[hd|e|p] s3]; auto.
  destruct (crc_section check hd hc "header" parse_header s3) as [[h|e|p] s4]; auto. cbn [sec_value].
  destruct (take_i32 "content size" s4) as [[cs|e|p] s5]; auto.
  destruct (take_u32 "content crc" s5) as [[cc|e|p] s6]; auto.
  destruct (in_section "content data" (view_data (as_usize cs)) s6) as [[cd|e|p] s7]; auto.
  destruct (crc_section check cd cc "body" parse_body s7) as [[b|e|p] s8]; auto.
Qed.

End Replay.

Definition f_view (size : Z) : form bytes := fun i l o =>
  0 <= size /\ Z.of_nat (length l) = size /\ (exists after, i = l ++ after) /\ o = i.

Lemma bacc_view K size : - 2 ^ 31 <= size < 2 ^ 31 -> bacc K (view_data (as_usize size)) (f_view size).
Proof.
  intros R s [C1 C2] L. unfold view_data. pose proof (split_at_spec (as_usize size) (c_data s)) as S.
  pose proof (lenZ_nonneg (c_data s)).
  destruct (Z.ltb_spec size 0) as [Neg|Pos].
  - assert (E : as_usize size = size + 2 ^ 64) by (unfold as_usize; Z.div_mod_to_equations; lia).
    destruct (split_at (as_usize size) (c_data s)) as [[h t]|].
    + exfalso. destruct S as [E' Lh]. apply (f_equal lenZ) in E'. rewrite lenZ_app in E'.
      pose proof (lenZ_nonneg t). assert (lenZ h = as_usize size) by (unfold lenZ; lia). lia.
    + split; auto. split; [intros ? ? (? & _); lia|]. cbn.
      rewrite (to_signed_small (lenZ _)), as_i32_usize by lia. auto.
  - rewrite as_usize_nonneg in * by lia. destruct (split_at size (c_data s)) as [[h t]|].
    + destruct S as [E' Lh]. split; auto. intros v' rest'. unfold f_view. split.
      * intros (_ & L' & (after & E2) & ->). split; auto. rewrite E' in E2.
        apply bytes_unique in E2 as [-> _]; auto. lia.
      * intros [-> ->]. split; [lia|]. split; [lia|]. split; [eauto|reflexivity].
    + split; auto. split.
      * intros v' rest' (_ & L' & (after & E2) & _). rewrite E2, lenZ_app in S.
        pose proof (lenZ_nonneg after). unfold lenZ in *. lia.
      * cbn. rewrite (to_signed_small (lenZ _)) by lia. split; auto. right. rewrite to_signed_small; lia.
Qed.

(** ** One section *)

Lemma sect_cases {A} n1 n2 n3 n4 (f : parser A) s : cok s ->
  (exists e s', forward s s' /\ err_at s' e /\
     (forall check, sect check n1 n2 n3 n4 f s = (Err e, s')) /\
     forall size crc cov m, ~ declared (c_data s) size crc cov m) \/
  (exists size crc cov s', forward s s' /\ declared (c_data s) size crc cov (c_data s') /\
     (forall size' crc' cov' m', declared (c_data s) size' crc' cov' m' ->
        size' = size /\ crc' = crc /\ cov' = cov /\ m' = c_data s') /\
     forall check, sect check n1 n2 n3 n4 f s =
       bind (crc_section check cov crc n4 f) (fun x => ret (mkSection size crc cov x)) s').
Proof.
  intros C.
  pose proof (bacc_i32 (length (c_data s)) n1 s C (le_n _)) as H1.
  destruct (take_i32 n1 s) as [[size|e|p] s1] eqn:Q1; destruct H1 as (F1 & H1); [| |tauto].
  2: { left. exists e, s1. destruct H1 as [H1 E1]. split; [auto|]. split; [auto|]. split; [intros; unfold sect, bind; now rewrite Q1|].
       intros size crc cov m (m1 & D1 & _). eapply H1; eauto. }
  pose proof (proj2 (H1 _ _) (conj eq_refl eq_refl)) as R1. apply f_i32_range in R1.
  assert (C1 : cok s1) by eauto.
  pose proof (bacc_take_u32 (length (c_data s1)) n2 s1 C1 (le_n _)) as H2.
  destruct (take_u32 n2 s1) as [[crc|e|p] s2] eqn:Q2; destruct H2 as (F2 & H2); [| |tauto].
  2: { left. exists e, s2. destruct H2 as [H2 E2]. split; [eauto|]. split; [auto|]. split; [intros; unfold sect, bind; now rewrite Q1, Q2|].
       intros size' crc cov m (m1 & D1 & D2 & _). apply H1 in D1 as [-> ->]. eapply H2; eauto. }
  assert (C2 : cok s2) by eauto.
  pose proof (bacc_section _ n3 _ _ (bacc_view (length (c_data s2)) size R1) s2 C2 (le_n _)) as H3.
  destruct (in_section n3 (view_data (as_usize size)) s2) as [[cov|e|p] s3] eqn:Q3; destruct H3 as (F3 & H3); [| |tauto].
  2: { left. exists e, s3. destruct H3 as [H3 E3]. split; [eauto|]. split; [auto|]. split; [intros; unfold sect, bind; now rewrite Q1, Q2, Q3|].
       intros size' crc' cov m (m1 & D1 & D2 & D3 & D4 & D5). apply H1 in D1 as [-> ->].
       apply H2 in D2 as [-> ->]. eapply (H3 cov (c_data s2)). repeat split; auto. }
  right. pose proof (proj2 (H3 _ _) (conj eq_refl eq_refl)) as (V1 & V2 & V3 & V4).
  exists size, crc, cov, s3. split; [eauto|]. rewrite V4. split.
  { exists (c_data s1). split; [now apply H1|]. split; [now apply H2|]. auto. }
  split.
  - intros size' crc' cov' m' (m1 & D1 & D2 & D3 & D4 & D5). apply H1 in D1 as [-> ->].
    apply H2 in D2 as [-> ->]. assert (K : f_view size (c_data s2) cov' (c_data s3)) by (repeat split; auto).
    apply H3 in K as [-> _]. auto.
  - intros check. unfold sect, bind. now rewrite Q1, Q2, Q3.
Qed.

(** ** The policies *)

(** what the policy makes of the result [o] of a section *)
Definition verdict {A} (check : crc_check) (crc : Z) (cov : bytes) (n : string) (o : outcome parse_error A) :
  outcome parse_error A :=
  if crc =? Z.of_N (crc32_unreal cov) then o
  else match check with
       | CrcAlways => Err (ECrcMismatch crc (Z.of_N (crc32_unreal cov)))
       | CrcNever => o
       | CrcOnError => match o with Err e => Err (ECorruptReplay n e) | _ => o end
       end.

Lemma crc_section_verdict {A} check cov crc n (f : parser A) s o s' :
  f s = (o, s') -> (forall p, o <> Panic p) ->
  crc_section check cov crc n f s = (verdict check crc cov n o, s').
Proof.
  intros E NP. unfold crc_section, verdict, calc_crcZ. rewrite E, calc_crc_spec, Z.eqb_sym.
  destruct o as [x|e|p]; [| |now destruct (NP p)]; destruct check; auto;
    destruct (crc =? Z.of_N (crc32_unreal cov)); auto.
Qed.

Lemma bacc_fun {A} (m : parser A) P i v o v' o' :
  (forall K, bacc K m P) -> lenZ i < 2 ^ 31 -> P i v o -> P i v' o' -> v' = v /\ o' = o.
Proof.
  intros H L P1 P2. specialize (H (length i) (core_new i)).
  assert (C : cok (core_new i)) by (unfold cok, core_new; cbn; lia).
  specialize (H C (le_n _)). destruct (m (core_new i)) as [[x|e|p] s']; destruct H as (F & H); [| |tauto].
  - apply H in P1, P2. destruct P1 as [-> ->], P2 as [-> ->]. auto.
  - destruct H as [H _]. destruct (H _ _ P1).
Qed.

Lemma sect_bacc {A} n1 n2 n3 n4 (f : parser A) P s :
  cok s -> (forall K, bacc K f P) ->
  (exists e s', forward s s' /\ err_at s' e /\
     (forall check, sect check n1 n2 n3 n4 f s = (Err e, s')) /\
     forall size crc cov m, ~ declared (c_data s) size crc cov m) \/
  (exists size crc cov m e s', forward s s' /\ err_at s' e /\ declared (c_data s) size crc cov m /\
     (forall size' crc' cov' m', declared (c_data s) size' crc' cov' m' ->
        size' = size /\ crc' = crc /\ cov' = cov /\ m' = m) /\
     (forall x o, ~ P m x o) /\
     forall check, sect check n1 n2 n3 n4 f s = (verdict check crc cov n4 (Err e), s')) \/
  (exists size crc cov m x s', forward s s' /\ declared (c_data s) size crc cov m /\
     (forall size' crc' cov' m', declared (c_data s) size' crc' cov' m' ->
        size' = size /\ crc' = crc /\ cov' = cov /\ m' = m) /\
     P m x (c_data s') /\ (forall x' o', P m x' o' -> x' = x /\ o' = c_data s') /\
     forall check, sect check n1 n2 n3 n4 f s =
       (verdict check crc cov n4 (Ok (mkSection size crc cov x)), s')).
Proof.
  intros C H. destruct (sect_cases n1 n2 n3 n4 f s C) as [Hc|(size & crc & cov & s2 & F & D & U & E)]; auto.
  right. specialize (H (length (c_data s2)) s2 (forward_cok _ _ F C) (le_n _)).
  destruct (f s2) as [[x|e|p] s3] eqn:Ef; destruct H as (F2 & H); [| |tauto].
  - right. exists size, crc, cov, (c_data s2), x, s3. split; [eauto|]. split; [auto|]. split; [auto|].
    split; [now apply H|]. split; [intros; now apply H|]. intros check. rewrite E. unfold bind.
    rewrite (crc_section_verdict _ _ _ _ _ _ _ _ Ef) by discriminate. unfold verdict.
    destruct (crc =? _); [reflexivity|]. destruct check; reflexivity.
  - left. destruct H as [H He]. exists size, crc, cov, (c_data s2), e, s3. split; [eauto|]. split; [auto|].
    split; [auto|]. split; [auto|]. split; [auto|]. intros check. rewrite E. unfold bind.
    rewrite (crc_section_verdict _ _ _ _ _ _ _ _ Ef) by discriminate. unfold verdict.
    destruct (crc =? _); [reflexivity|]. destruct check; reflexivity.
Qed.

(** ** Five kinds of files *)

Lemma err_at_located len s e : c_col s + lenZ (c_data s) = len -> err_at s e -> located len (c_col s) e.
Proof.
  intros L. induction e; cbn; auto; try tauto.
  - intros [-> H]. split; [lia|auto].
Qed.

(** an error without checksum or network part, at a position of the file *)
Definition good_error (data : bytes) (e : parse_error) : Prop :=
  exists s, forward (core_new data) s /\ err_at s e.

Lemma good_located data e : lenZ data < 2 ^ 31 -> good_error data e ->
  exists at_, 0 <= at_ <= lenZ data /\ located (lenZ data) at_ e.
Proof.
  intros L (s & F & E). pose proof (forward_len _ _ F) as (H1 & H2 & H3). cbn in H1, H2.
  exists (c_col s). pose proof (lenZ_nonneg (c_data s)). split; [lia|]. now apply err_at_located.
Qed.

Definition mismatch (check : crc_check) (crc : Z) (cov : bytes) : bool :=
  match check with CrcAlways => negb (crc =? Z.of_N (crc32_unreal cov)) | _ => false end.

Lemma verdict_ok {A} check crc cov n (x : A) : verdict check crc cov n (Ok x) =
  if mismatch check crc cov then Err (ECrcMismatch crc (Z.of_N (crc32_unreal cov))) else Ok x.
Proof. unfold verdict, mismatch. destruct (crc =? _), check; reflexivity. Qed.

Definition net_result {A} (np : network_parse) (o : outcome network_error A) :
  outcome parse_error (option A) :=
  match np, o with
  | NetNever, _ => Ok None
  | _, Ok fs => Ok (Some fs)
  | _, Panic p => Panic p
  | NetAlways, Err e => Err (ENetworkError e)
  | NetIgnoreOnError, Err _ => Ok None
  end.

Definition out_map {E A C} (f : A -> C) (o : outcome E A) : outcome E C :=
  match o with Ok a => Ok (f a) | Err e => Err e | Panic p => Panic p end.

Section Files.
Context (B : bitter) (ho : hash_order).
Notation parse := (parse_with B ho).

Lemma parse_with_eq c n data : parse c n data = fst (parse_replay B ho c n (core_new data)).
Proof. reflexivity. Qed.

Inductive fate (data : bytes) : Prop :=
| fate1 e : good_error data e ->
    (forall size crc cov m, ~ declared data size crc cov m) ->
    (forall c n, parse c n data = Err e) -> fate data
| fate2 size crc cov m e : good_error data e ->
    declared data size crc cov m ->
    (forall size' crc' cov' m', declared data size' crc' cov' m' ->
        size' = size /\ crc' = crc /\ cov' = cov /\ m' = m) ->
    (forall h o, ~ f_header m h o) ->
    (forall c n, parse c n data = verdict c crc cov "header" (Err e)) -> fate data
| fate3 size crc cov m h o e : good_error data e ->
    declared data size crc cov m ->
    (forall size' crc' cov' m', declared data size' crc' cov' m' ->
        size' = size /\ crc' = crc /\ cov' = cov /\ m' = m) ->
    f_header m h o -> (forall h' o', f_header m h' o' -> h' = h /\ o' = o) ->
    (forall size crc cov m, ~ declared o size crc cov m) ->
    (forall c n, parse c n data =
       if mismatch c crc cov then Err (ECrcMismatch crc (Z.of_N (crc32_unreal cov))) else Err e) -> fate data
| fate4 size crc cov m h o bsize bcrc bcov bm e : good_error data e ->
    declared data size crc cov m ->
    (forall size' crc' cov' m', declared data size' crc' cov' m' ->
        size' = size /\ crc' = crc /\ cov' = cov /\ m' = m) ->
    f_header m h o -> (forall h' o', f_header m h' o' -> h' = h /\ o' = o) ->
    declared o bsize bcrc bcov bm ->
    (forall size' crc' cov' m', declared o size' crc' cov' m' ->
        size' = bsize /\ crc' = bcrc /\ cov' = bcov /\ m' = bm) ->
    (forall b o, ~ f_body bm b o) ->
    (forall c n, parse c n data =
       if mismatch c crc cov then Err (ECrcMismatch crc (Z.of_N (crc32_unreal cov)))
       else verdict c bcrc bcov "body" (Err e)) -> fate data
| fate5 size crc cov m h o bsize bcrc bcov bm b o' :
    declared data size crc cov m ->
    (forall size' crc' cov' m', declared data size' crc' cov' m' ->
        size' = size /\ crc' = crc /\ cov' = cov /\ m' = m) ->
    f_header m h o -> (forall h' o', f_header m h' o' -> h' = h /\ o' = o) ->
    declared o bsize bcrc bcov bm ->
    (forall size' crc' cov' m', declared o size' crc' cov' m' ->
        size' = bsize /\ crc' = bcrc /\ cov' = bcov /\ m' = bm) ->
    f_body bm b o' -> (forall b2 o2, f_body bm b2 o2 -> b2 = b /\ o2 = o') ->
    (forall c n, parse c n data =
       if mismatch c crc cov then Err (ECrcMismatch crc (Z.of_N (crc32_unreal cov)))
       else if mismatch c bcrc bcov then Err (ECrcMismatch bcrc (Z.of_N (crc32_unreal bcov)))
       else out_map (replay_of (mkSection size crc cov h) (mkSection bsize bcrc bcov b))
              (net_result n (network_parse_frames B ho h b))) -> fate data.

Lemma fate_of data : lenZ data < 2 ^ 31 -> fate data.
Proof.
  intros L. assert (C : cok (core_new data)) by (unfold cok, core_new; cbn; lia).
  destruct (sect_bacc "header size" "header crc" "header data" "header" parse_header f_header
              (core_new data) C bacc_header) as [A1|[A2|A3]].
  - destruct A1 as (e & s & F & Ee & E & ND). eapply fate1; [eexists; eauto|exact ND|].
    intros c n. rewrite parse_with_eq, parse_replay_sections. unfold bind, header_sect. now rewrite E.
  - destruct A2 as (size & crc & cov & m & e & s & F & Ee & D & U & NP & E).
    eapply fate2; [eexists; eauto|exact D|exact U|exact NP|].
    intros c n. rewrite parse_with_eq, parse_replay_sections. unfold bind, header_sect. rewrite E.
    unfold verdict. destruct (crc =? _); [reflexivity|]. destruct c; reflexivity.
  - destruct A3 as (size & crc & cov & m & h & s & F & D & U & PH & UH & E).
    assert (C1 : cok s) by eauto.
    assert (EQ : forall c n, parse c n data =
      if mismatch c crc cov then Err (ECrcMismatch crc (Z.of_N (crc32_unreal cov)))
      else fst (bind (body_sect c) (fun b => bind (parse_network B ho n h (sec_value b))
                   (fun fs => ret (replay_of (mkSection size crc cov h) b fs))) s)).
    { intros c n. rewrite parse_with_eq, parse_replay_sections. unfold bind at 1, header_sect. rewrite E, verdict_ok.
      destruct (mismatch c crc cov); reflexivity. }
    destruct (sect_bacc "content size" "content crc" "content data" "body" parse_body f_body
              s C1 bacc_body) as [A1|[A2|A3]].
    + destruct A1 as (e & s' & F' & Ee & E' & ND).
      eapply fate3; [eexists; eauto|exact D|exact U|exact PH|exact UH|exact ND|].
      intros c n. rewrite EQ. unfold bind, body_sect. rewrite E'. reflexivity.
    + destruct A2 as (size' & crc' & cov' & m' & e & s' & F' & Ee & D' & U' & NP & E').
      eapply fate4; [eexists; eauto|exact D|exact U|exact PH|exact UH|exact D'|exact U'|exact NP|].
      intros c n. rewrite EQ. unfold bind, body_sect. rewrite E'. unfold verdict.
      destruct (mismatch c crc cov); auto. destruct (crc' =? _); [reflexivity|]. destruct c; reflexivity.
    + destruct A3 as (size' & crc' & cov' & m' & b & s' & F' & D' & U' & PB & UB & E').
      eapply fate5; [exact D|exact U|exact PH|exact UH|exact D'|exact U'|exact PB|exact UB|].
      intros c n. rewrite EQ. unfold bind, body_sect. rewrite E', verdict_ok.
      destruct (mismatch c crc cov); auto. destruct (mismatch c crc' cov'); auto.
      cbn [sec_value]. unfold parse_network, net_result, ret.
      destruct n; [| |]; destruct (network_parse_frames B ho h b); reflexivity.
Qed.

End Files.
