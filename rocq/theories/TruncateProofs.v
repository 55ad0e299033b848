(** * Files cut short *)

From Coq Require Import ZArith List Bool Lia ZifyBool ZifyNat.
From Verif Require Import Base Text F32 Crc NetTypes Errors Core Header Body BitReader ObjectIndex
  FrameDecoder Network Parser SpecFile SpecReplay SpecTruncate BitLemmas CoreLogic FormatProofs FileProofs AppendProofs FileFacts ParseProofs SizeProofs.
Open Scope Z_scope.

Definition with_data (x : list byte) (s : core) : core := mkCore x (c_col s).

(** [m'] on a prefix of the input on which [m] succeeds: the same result, or an
    error for lack of data. *)
Definition cuts {A} (m m' : parser A) : Prop :=
  forall s v s' x y, m s = (Ok v, s') -> c_data s = x ++ y ->
    (exists z, m' (with_data x s) = (Ok v, with_data z s') /\ c_data s' = z ++ y) \/
    (exists e s1, m' (with_data x s) = (Err e, s1) /\ runs_out e) \/
    (exists p s1, m' (with_data x s) = (Panic p, s1)).

Lemma cut_ret {A} (a : A) : cuts (ret a) (ret a).
Proof. intros s v s' x y [= -> ->] E. left. exists x. split; [reflexivity|exact E]. Qed.
Lemma cut_fail {A} e m : cuts (fail e : parser A) m.
Proof. intros s v s' x y [=]. Qed.
Lemma cut_panics {A} p m : cuts (panics p : parser A) m.
Proof. intros s v s' x y [=]. Qed.
Lemma cut_panics_r {A} p (m : parser A) : cuts m (panics p).
Proof. intros s v s' x y _ _. right. right. exists p, (with_data x s). reflexivity. Qed.
Lemma cut_bind {A C} m m' (k k' : A -> parser C) :
  cuts m m' -> (forall a, cuts (k a) (k' a)) -> cuts (bind m k) (bind m' k').
Proof.
  intros Hm Hk s v s' x y E D. unfold bind in *. destruct (m s) as [[a|e|p] s1] eqn:Em; try discriminate E.
  destruct (Hm _ _ _ _ _ Em D) as [(z & Ez & Dz)|[(e & s2 & Ee & R)|(p & s2 & Ep)]].
  - rewrite Ez. apply (Hk a _ _ _ _ _ E Dz).
  - rewrite Ee. right. left. eauto.
  - rewrite Ep. right. right. eauto.
Qed.
Lemma cut_fmap {A C} (f : A -> C) m m' : cuts m m' -> cuts (fmap f m) (fmap f m').
Proof. intros H. apply cut_bind; auto. intros. apply cut_ret. Qed.
Lemma cut_section {A} n (m m' : parser A) : cuts m m' -> cuts (in_section n m) (in_section n m').
Proof.
  intros H s v s' x y E D. unfold in_section, map_err in *. destruct (m s) as [[a|e|p] s1] eqn:Em; try discriminate E.
  injection E as -> ->.
  destruct (H _ _ _ _ _ Em D) as [(z & Ez & Dz)|[(e & s2 & Ee & R)|(p & s2 & Ep)]].
  - rewrite Ez. left. eauto.
  - rewrite Ee. right. left. eexists _, _. split; [reflexivity|exact R].
  - rewrite Ep. right. right. eauto.
Qed.

Lemma split_at_cut {A} : forall (l : list A) n h t x y,
  split_at n l = Some (h, t) -> l = x ++ y ->
  (exists z, split_at n x = Some (h, z) /\ t = z ++ y) \/ split_at n x = None.
Proof.
  induction l as [|a l IH]; intros n h t x y; cbn [split_at].
  - destruct (n <=? 0) eqn:E; [|discriminate]. intros [= <- <-] D. destruct x; [|discriminate D].
    left. exists []. cbn. rewrite E. auto.
  - destruct (n <=? 0) eqn:E.
    + intros [= <- <-] D. left. exists x. split; [|exact D]. destruct x; cbn [split_at]; now rewrite E.
    + destruct (split_at (n - 1) l) as [[h' t']|] eqn:Es; [|discriminate]. intros [= <- <-] D.
      destruct x as [|b x]; [right; cbn; now rewrite E|]. cbn [app] in D. injection D as <- D.
      cbn [split_at]. rewrite E. destruct (IH _ _ _ _ _ Es D) as [(z & -> & ->)| ->]; [left; eauto|right; reflexivity].
Qed.

Lemma cut_view n : cuts (view_data n) (view_data n).
Proof.
  intros s v s' x y. unfold view_data. destruct (split_at n (c_data s)) as [[h t]|] eqn:E; [|discriminate].
  intros [= <- <-] D. cbn. destruct (split_at_cut _ _ _ _ _ _ E D) as [(z & -> & _)| ->].
  - left. exists x. split; [reflexivity|exact D].
  - right. left. eexists _, _. split; [reflexivity|exact I].
Qed.
Lemma cut_take n : cuts (take_data n) (take_data n).
Proof.
  intros s v s' x y. unfold take_data. destruct (split_at n (c_data s)) as [[h t]|] eqn:E; [|discriminate].
  destruct (fits_i32 (c_col s + as_i32 n)) eqn:F; [|discriminate].
  intros [= <- <-] D. cbn. destruct (split_at_cut _ _ _ _ _ _ E D) as [(z & -> & ->)| ->].
  - rewrite F. left. exists z. split; reflexivity.
  - right. left. eexists _, _. split; [reflexivity|exact I].
Qed.

#[local] Hint Resolve cut_ret cut_fail cut_panics cut_view cut_take : cut.

Lemma cut_repeat {A} n (m m' : parser A) : cuts m m' -> cuts (repeat_n n m) (repeat_n n m').
Proof.
  intros H. induction n as [|n IH]; cbn [repeat_n]; [apply cut_ret|].
  apply cut_bind; auto. intros. apply cut_bind; auto with cut.
Qed.
Lemma cut_repeat_of {A} n (m m' : parser A) : cuts m m' -> cuts (repeat_of n m) (repeat_of n m').
Proof. intros H. unfold repeat_of. destruct (25000 <? n); [apply cut_fail|]. now apply cut_repeat. Qed.
Lemma cut_raw_i32 : cuts raw_i32 raw_i32.
Proof. apply cut_fmap, cut_take. Qed.
Lemma cut_raw_f32 : cuts raw_f32 raw_f32.
Proof. apply cut_fmap, cut_take. Qed.
Lemma cut_i32 n : cuts (take_i32 n) (take_i32 n).
Proof. apply cut_section, cut_raw_i32. Qed.
Lemma cut_u32 n : cuts (take_u32 n) (take_u32 n).
Proof. apply cut_section, cut_fmap, cut_take. Qed.
Lemma cut_list {A} (m m' : parser A) : cuts m m' -> cuts (list_of m) (list_of m').
Proof. intros H. apply cut_bind; [apply cut_raw_i32|]. intros. now apply cut_repeat_of. Qed.
Lemma cut_str : cuts parse_str parse_str.
Proof.
  apply cut_bind; [apply cut_raw_i32|]. intros n. apply cut_bind; auto with cut. intros d.
  destruct (decode_str d); auto with cut.
Qed.
Lemma cut_text : cuts parse_text parse_text.
Proof.
  apply cut_bind; [apply cut_raw_i32|]. intros n. destruct (negb _); auto with cut.
  destruct (n <? 0); apply cut_bind; auto with cut.
Qed.
#[local] Hint Resolve cut_raw_i32 cut_raw_f32 cut_i32 cut_u32 cut_str cut_text : cut.

Ltac cut_tac :=
  repeat first
    [ progress auto with cut
    | apply cut_bind; [|intros ?]
    | apply cut_fmap | apply cut_section | apply cut_list | apply cut_repeat_of
    | match goal with |- cuts (if ?b then _ else _) _ => destruct b end ].

(** the fuel for the shorter input may be smaller *)
Lemma cut_rdict mode : forall fuel fuel', cuts (parse_rdict fuel mode) (parse_rdict fuel' mode).
Proof.
  induction fuel as [|fuel IH]; intros fuel'; [apply cut_panics|].
  destruct fuel' as [|fuel']; [apply cut_panics_r|]. assert (R := IH fuel'). clear IH.
  cbn [parse_rdict]. cut_tac.
  all: match goal with a : list byte |- _ => destruct a as [|b l]; cbn [bool_prop]; auto with cut end.
Qed.

Lemma cut_header : cuts parse_header parse_header.
Proof. unfold parse_header. cut_tac. intros s v s' x y E D. exact (cut_rdict _ _ _ s v s' x y E D). Qed.

Lemma cut_body : cuts parse_body parse_body.
Proof.
  unfold parse_body, text_list, parse_keyframe, parse_debuginfo, parse_tickmarks, parse_classindex,
    parse_classcache. cut_tac.
Qed.

Lemma cut_crc {A} check cov crc n (m : parser A) : cuts m m ->
  cuts (crc_section check cov crc n m) (crc_section check cov crc n m).
Proof.
  intros H s v s' x y E D. unfold crc_section in *. destruct (m s) as [[a|e|p] s1] eqn:Em; [| |discriminate].
  - assert (G : a = v /\ s1 = s' /\ (check = CrcAlways -> negb (calc_crcZ cov =? crc) = false)).
    { destruct check; [destruct (negb _); [discriminate E|]|..]; injection E as -> ->; repeat split; discriminate. }
    destruct G as (-> & -> & G). clear E.
    destruct (H _ _ _ _ _ Em D) as [(z & Ez & Dz)|[(e & s2 & Ee & R)|(p & s2 & Ep)]].
    + rewrite Ez. left. exists z. split; [|exact Dz]. destruct check; [rewrite G by reflexivity|..]; reflexivity.
    + rewrite Ee. right. left. destruct check; [rewrite G by reflexivity|..|destruct (negb _)];
        (eexists _, _; split; [reflexivity|exact R]).
    + rewrite Ep. right. right. eauto.
  - destruct check; try discriminate; destruct (negb _); discriminate.
Qed.

Lemma cut_replay B ho c n : cuts (parse_replay B ho c n) (parse_replay B ho c n).
Proof.
  unfold parse_replay.
  assert (N : forall h b, cuts (parse_network B ho n h b) (parse_network B ho n h b)).
  { intros h b s v s' x y. unfold parse_network. destruct n, (network_parse_frames B ho h b);
      try discriminate; intros [= <- <-] D; left; exists x; (split; [reflexivity|exact D]). }
  cut_tac; apply cut_crc; [apply cut_header|apply cut_body].
Qed.

(** ** From the parser to the file *)

Section Files.
Context (B : bitter) (HB : bitter_ok B) (ho : hash_order) (Hho : hash_order_ok ho).

Lemma cut_fate c n data r k : lenZ data < 2 ^ 31 -> parse_with B ho c n data = Ok r ->
  parse_with B ho c n (firstn k data) = Ok r \/
  exists e, parse_with B ho c n (firstn k data) = Err e /\ runs_out e.
Proof.
  intros L E.
  assert (L' : lenZ (firstn k data) < 2 ^ 31) by (unfold lenZ in *; rewrite firstn_length; lia).
  pose proof (parse_total B HB ho Hho c n _ L') as T.
  unfold parse_with, builder_parse, with_network_parse, with_crc_check, builder_new in *.
  cbn [pb_data pb_crc_check pb_network_parse] in *.
  destruct (parse_replay B ho c n (core_new data)) as [o s'] eqn:E0. cbn [fst] in E. subst o.
  destruct (cut_replay B ho c n _ _ _ (firstn k data) (skipn k data) E0) as [(z & Ez & _)|[(e & s1 & Ee & R)|(p & s1 & Ep)]].
  - cbn [core_new c_data]. now rewrite firstn_skipn.
  - left. unfold with_data, core_new in *. cbn [c_col] in Ez. rewrite Ez. reflexivity.
  - right. exists e. unfold with_data, core_new in *. cbn [c_col] in Ee. rewrite Ee. auto.
  - exfalso. unfold with_data, core_new in *. cbn [c_col] in Ep. rewrite Ep in T. cbn [fst] in T.
    destruct T as [[? T]|[? T]]; discriminate T.
Qed.

Lemma least (P : nat -> Prop) n : (forall k, P k \/ ~ P k) -> P n -> exists m, (m <= n)%nat /\ P m /\ forall k, (k < m)%nat -> ~ P k.
Proof.
  intros D. revert n. induction n as [n IH] using (well_founded_induction lt_wf). intros Pn.
  assert (Q : (exists k, (k < n)%nat /\ P k) \/ forall k, (k < n)%nat -> ~ P k).
  { clear -D. induction n as [|n IH]; [right; lia|]. destruct IH as [(k & Hk & Pk)|N].
    - left. exists k. split; [lia|auto].
    - destruct (D n) as [Pn|Nn]; [left; exists n; split; [lia|auto]|].
      right. intros k Hk. destruct (Nat.eq_dec k n) as [->|]; [auto|]. apply N. lia. }
  destruct Q as [(k & Hk & Pk)|N].
  - destruct (IH k Hk Pk) as (m & Hm & Pm & Nm). exists m. split; [lia|auto].
  - exists n. auto.
Qed.

Lemma file_length data h b rest : f_file data (h, b) rest ->
  8 + sec_size h <= lenZ data /\ 16 + sec_size b <= lenZ data.
Proof.
  intros (h' & o & Sh & b' & o' & Sb & [= -> ->] & ->).
  destruct Sh as (size & crc & cov & m & x & (m1 & I1 & U1 & _ & C1 & a1 & M1) & Ph & Eh).
  destruct Sb as (size' & crc' & cov' & m' & x' & (m1' & I1' & U1' & _ & C1' & a1' & M1') & Pb & Eb).
  subst h' b'. cbn [sec_size]. apply fp_i32 in I1, I1'. apply fp_u32 in U1, U1'. apply header_shrinks in Ph.
  apply (f_equal (@length _)) in M1, M1'. rewrite app_length in M1, M1'. unfold lenZ. split; lia.
Qed.

Lemma truncated c n data r : lenZ data < 2 ^ 31 -> parse_with B ho c n data = Ok r ->
  exists need : nat, (need <= length data)%nat /\
    8 + r_header_size r <= Z.of_nat need /\ 16 + r_content_size r <= Z.of_nat need /\
    forall k, ((need <= k)%nat -> parse_with B ho c n (firstn k data) = Ok r) /\
              ((k < need)%nat -> exists e, parse_with B ho c n (firstn k data) = Err e /\ runs_out e).
Proof.
  intros L E.
  destruct (least (fun k => parse_with B ho c n (firstn k data) = Ok r) (length data)) as (need & Hn & Pn & Nn).
  - intros k. destruct (cut_fate c n data r k L E) as [->|(e & -> & _)]; [left; reflexivity|right; discriminate].
  - now rewrite firstn_all.
  - exists need. split; [exact Hn|].
    assert (L' : lenZ (firstn need data) < 2 ^ 31) by (unfold lenZ in *; rewrite firstn_length; lia).
    destruct (parse_ok_file B ho _ _ _ _ L' Pn) as (h & b & rest & F & Er).
    apply file_length in F. unfold lenZ in F. rewrite firstn_length_le in F by exact Hn.
    split; [rewrite Er; exact (proj1 F)|]. split; [rewrite Er; exact (proj2 F)|]. intros k. split; intros Hk.
    + replace (firstn k data) with (firstn need data ++ firstn (k - need) (skipn need data)).
      * exact (append_same _ _ _ _ _ Pn).
      * rewrite <- (firstn_skipn need data) at 3.
        rewrite firstn_app, firstn_firstn, firstn_length_le, Nat.min_r by assumption. reflexivity.
    + destruct (cut_fate c n data r k L E) as [Ek|He]; [destruct (Nn k Hk Ek)|exact He].
Qed.

End Files.
