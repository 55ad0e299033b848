(** * Frames that can be transmitted: whole files *)

From Coq Require Import ZArith List Bool Lia.
From Verif Require Import Base F32 NetTypes Errors Header Body BitReader Attributes ObjectIndex Network Parser Wire SpecText SpecFile SpecWrite
  SpecBasic SpecNet SpecFrames SpecReplay SpecReader SpecSize SpecTail SpecRange
  BitLemmas ReaderLogic CoreLogic TextWireProofs AttrProofs WireFacts FileFacts CacheProofs NetworkProofs ParseProofs TailProofs
  WriteProofs RangeProofs.
Open Scope Z_scope.
Open Scope list_scope.

(** ** Bytes for bits *)

Lemma pack n : forall w : bits, (length w <= 8 * n)%nat -> exists l pad, length l = n /\ enc_bytes l = w ++ pad.
Proof.
  induction n as [|n IH]; intros w L.
  - exists [], []. split; [reflexivity|]. destruct w; [reflexivity|cbn in L; lia].
  - destruct (le_lt_dec 8 (length w)) as [G|G].
    + destruct (IH (skipn 8 w)) as (l & pad & Ll & El); [rewrite skipn_length; lia|].
      exists (byte_of_bits (firstn 8 w) :: l), pad. split; [cbn; lia|].
      rewrite enc_bytes_bits in *. rewrite bytes_bits_cons, byte_bits_of_bits by (rewrite firstn_length; lia).
      rewrite El, app_assoc, firstn_skipn. reflexivity.
    + destruct (IH []) as (l & pad & Ll & El); [cbn; lia|].
      exists (byte_of_bits (w ++ repeat false (8 - length w)) :: l), (repeat false (8 - length w) ++ pad). split; [cbn; lia|].
      rewrite enc_bytes_bits in *. rewrite bytes_bits_cons, byte_bits_of_bits by (rewrite app_length, repeat_length; lia).
      rewrite El, <- app_assoc. reflexivity.
Qed.

(** ** Attributes *)

Lemma decoded_range B D tag r a r' : bitter_ok B -> reader_ok r -> decode_attribute B D tag r = (Ok a, r') ->
  attribute_range D tag a.
Proof.
  intros HB R E. pose proof (acc_attribute B HB D tag r R) as H. rewrite E in H. destruct H as (_ & _ & H).
  exact (g_attribute D tag _ _ _ (proj2 (H a (flat r')) (conj eq_refl eq_refl))).
Qed.
Lemma attribute_sent B D tag a : bitter_ok B -> attribute_range D tag a -> not_cut_off a ->
  exists w, forall r o, reader_ok r -> flat r = w ++ o ->
    exists r', decode_attribute B D tag r = (Ok a, r') /\ flat r' = o.
Proof.
  intros HB H N. destruct (sends_attribute D tag a H N) as (w & _ & Hw). exists w. intros r o R E.
  destruct (acc_implements _ _ (acc_attribute B HB D tag) r R) as (X & _).
  destruct (proj1 (X a o)) as (r' & E' & F & _); [rewrite E; apply Hw|]. exists r'. auto.
Qed.

(** ** Files *)

Lemma env_channels h b e : env_of h b e -> e_max_channels e < 2 ^ 32.
Proof.
  intros (ch & lan & bu & c1 & c2 & c3 & c4 & c5 & rl & _ & _ & _ & _ & _ & _ & _ & _ & _ & ->). cbn [e_max_channels].
  apply Z.mod_pos_bound. lia.
Qed.
Lemma env_network h b l e : env_of h b e -> env_of h (with_network l b) e.
Proof. intros H. exact H. Qed.
Lemma env_exists h b rest data : f_file data (h, b) rest -> exists e, env_of (sec_value h) (sec_value b) e.
Proof.
  intros F. destruct (cost_file _ _ _ _ F) as (_ & (_ & _ & _ & _ & _ & (L & _) & _) & _).
  eexists. apply env_of_spec; [unfold lenZ, count in *; lia|reflexivity].
Qed.

Section Files.
Context (B : bitter) (HB : bitter_ok B) (ho : hash_order) (Hho : hash_order_ok ho).
Notation parse := (parse_with B ho).

Lemma frames_in_range c n data r fs : lenZ data < 2 ^ 31 -> parse c n data = Ok r -> r_network_frames r = Some fs ->
  exists h b rest e xs, f_file data (h, b) rest /\ env_of (sec_value h) (sec_value b) e /\
    fs = map to_frame xs /\ frames_range e [] xs.
Proof.
  intros L E Ef. destruct (parse_frames_inv B HB ho Hho _ _ _ _ _ L E Ef) as (h & b & rest & xs & F & _ & X & M).
  destruct (env_exists _ _ _ _ F) as (e & He). exists h, b, rest, e, xs. split; [exact F|]. split; [exact He|]. split; [exact M|].
  destruct X as (_ & cnt & _ & X). destruct (int_of cnt) as [k|]; [|subst xs; exact I].
  destruct X as (_ & e' & He' & X). 
  assert (e' = e).
  { destruct (cost_file _ _ _ _ F) as (_ & (_ & _ & _ & _ & _ & (Lo & _) & _) & _).
    apply env_of_spec in He, He'; [congruence|unfold lenZ, count in *; lia..]. }
  subst e'. exact (g_frames _ _ _ _ _ X).
Qed.

Lemma body_network l b : body_ok b -> body_ok (with_network l b).
Proof. intros H. exact H. Qed.
Lemma write_network l b : lenZ (write_body (with_network l b)) = lenZ (write_body (with_network [] b)) + lenZ l.
Proof.
  unfold write_body, lenZ, with_network. cbn [b_levels b_keyframes b_network_data b_debug_info b_tick_marks b_packages b_objects b_names b_class_indices b_net_cache].
  rewrite !app_length, !write_int_length. cbn [length]. lia.
Qed.
Lemma write_file_network h l b : lenZ (write_file h (with_network l b)) = lenZ (write_file h (with_network [] b)) + lenZ l.
Proof.
  pose proof (write_network l b) as H. unfold write_file, lenZ in *. rewrite !app_length, !write_section_length. lia.
Qed.

Lemma frames_sent h b e fs c : header_ok h -> body_ok b -> env_of h b e ->
  props_in_range (b_objects b) (b_net_cache b) -> frame_count h (Z.of_nat (length fs)) ->
  frames_range e [] fs -> (forall f, In f (map to_frame fs) -> frame_whole f) ->
  8 * lenZ (write_file h (with_network [] b)) + frames_bits fs + 8 < 2 ^ 34 ->
  exists l, 8 * lenZ l < frames_bits fs + 8 /\
    let b' := with_network l b in
    parse c NetAlways (write_file h b') =
      Ok (replay_of (section_of (write_header h) h) (section_of (write_body b') b') (Some (map to_frame fs))).
Proof.
  intros Hh Hb He Hp (cnt & Hc & Ec) Hf N L.
  destruct (sends_frames e (env_channels _ _ _ He) fs [] Hf N) as (w & Lw & G).
  assert (K : exists n, 8 * Z.of_nat n < Z.of_nat (length w) + 8 /\ (length w <= 8 * n)%nat).
  { exists ((length w + 7) / 8)%nat. pose proof (Nat.div_mod (length w + 7) 8). pose proof (Nat.mod_upper_bound (length w + 7) 8). lia. }
  destruct K as (n & K1 & K2). destruct (pack n w K2) as (l & pad & Ll & El). exists l. split; [unfold lenZ; lia|].
  set (b' := with_network l b). cbv zeta.
  assert (L' : lenZ (write_file h b') < 2 ^ 31) by (unfold b'; rewrite write_file_network; unfold lenZ in *; lia).
  assert (E : parse CrcNever NetAlways (write_file h b') =
    Ok (replay_of (section_of (write_header h) h) (section_of (write_body b') b') (Some (map to_frame fs)))).
  { apply (parse_frames B HB ho Hho _ _ _ _ _ L' (read_file _ _ Hh (body_network l b Hb) L')). exists fs. split; [|reflexivity].
    cbn [sec_value section_of]. split; [exact Hp|]. exists cnt. split; [exact Hc|]. rewrite Ec.
    unfold b'. cbn [b_network_data with_network]. split; [lia|]. exists e. split; [exact He|]. rewrite Nat2Z.id, El. apply G. }
  rewrite <- E. rewrite !parse_written; auto using body_network.
Qed.
End Files.
