(** * Proofs: facts about the frames of a replay *)

From Coq Require Import ZArith List Bool Lia ZifyBool ZifyNat.
From Verif Require Import Base F32 NetTypes Errors Core Header Body BitReader Attributes Data ObjectIndex Network Parser BitLemmas Wire
  SpecBasic SpecNet ReaderLogic VectorProofs TextWireProofs FrameProofs HierarchyProofs LeafProofs BasicProofs TableProofs CacheProofs SpecFrames RecordProofs StreamProofs NetworkProofs SpecCrc SpecFile SpecReplay
  FileProofs FileFacts ParseProofs SpecFacts.
Open Scope Z_scope.
#[local] Opaque PARENT_CLASSES SPAWN_STATS ATTRIBUTES.

(** ** Numbers *)

Lemma some_inj {A} (a b : A) : Some a = Some b -> a = b.
Proof. intros H. now inversion H. Qed.

Lemma time_sane x : 0 <= x < 2 ^ 32 -> time_ok x -> sane x.
Proof.
  intros R T. unfold sane, minus_infinity. split.
  - intros ->. unfold time_ok in T. cbn in T. lia.
  - intros v. unfold f32_scaled.
    set (e := (x / 2 ^ 23) mod 2 ^ 8). set (m := x mod 2 ^ 23).
    assert (Hm : 0 <= m < 2 ^ 23) by (apply Z.mod_pos_bound; lia).
    assert (He : 0 <= e < 2 ^ 8) by (apply Z.mod_pos_bound; lia).
    assert (Sx : x = (x / 2 ^ 31) * 2 ^ 31 + e * 2 ^ 23 + m).
    { subst e m. pose proof (Z.div_mod x (2 ^ 23)). pose proof (Z.div_mod (x / 2 ^ 23) (2 ^ 8)).
      rewrite Z.div_div in * by lia. change (2 ^ 23 * 2 ^ 8) with (2 ^ 31) in *. lia. }
    assert (Hs : x / 2 ^ 31 = if x <? 2 ^ 31 then 0 else 1).
    { destruct (Z.ltb_spec x (2 ^ 31)); [apply Z.div_small; lia|].
      symmetry. apply Z.div_unique with (x - 2 ^ 31); lia. }
    destruct (Z.eqb_spec e 255); [discriminate|].
    unfold time_ok in T.
    assert (M : x mod 2 ^ 31 = e * 2 ^ 23 + m).
    { symmetry. apply Z.mod_unique with (x / 2 ^ 31); lia. }
    destruct T as [->|[->|[T|T]]].
    + cbn. intros [= <-]. auto.
    + cbn. intros [= <-]. auto.
    + assert (x <? 2 ^ 31 = true) as E by lia. rewrite E in Hs. rewrite E, Hs in *.
      destruct (Z.eqb_spec e 0); [lia|]. intros Hv. apply some_inj in Hv. rewrite Z.mul_1_l in Hv. subst v. right.
      assert (P : 0 < 2 ^ (e - 1)) by (apply Z.pow_pos_nonneg; lia).
      assert (K : 0 < 2 ^ 23 + m) by lia. split; [now apply Z.mul_pos_pos|].
      assert (P93 : 2 ^ 149 = 2 ^ 92 * 2 ^ 57) by reflexivity. rewrite P93.
      set (p92 := 2 ^ 92) in *. assert (Q92 : 0 < p92) by reflexivity.
      destruct (Z.eq_dec e 93) as [E93|N].
      * rewrite E93. change (2 ^ (93 - 1)) with p92.
        assert (14411519 <= 2 ^ 23 + m) by lia. 
        rewrite <- (Z.mul_comm p92), <- Z.mul_assoc. apply Z.mul_le_mono_nonneg_l; [lia|].
        change (2 ^ 57) with 144115188075855872. change (10 ^ 10) with 10000000000. lia.
      * assert (Pe : p92 * 2 <= 2 ^ (e - 1)).
        { subst p92. change (2 ^ 92 * 2) with (2 ^ 93). apply Z.pow_le_mono_r; lia. }
        assert (2 ^ 23 * (p92 * 2) <= (2 ^ 23 + m) * 2 ^ (e - 1)) by (apply Z.mul_le_mono_nonneg; lia).
        set (q := (2 ^ 23 + m) * 2 ^ (e - 1)) in *. clearbody q p92. clear - H Q92.
        change (2 ^ 57) with 144115188075855872. change (10 ^ 10) with 10000000000.
        change (2 ^ 23) with 8388608 in H. lia.
    + exfalso. assert (e <= 254) by lia. lia.
Qed.

Lemma time_both t d : 0 <= t < 2 ^ 32 -> 0 <= d < 2 ^ 32 ->
  f32_scaled t = Some 0 -> f32_scaled d = Some 0 -> time_zero t /\ time_zero d.
Proof.
  assert (Z0 : forall x, 0 <= x < 2 ^ 32 -> f32_scaled x = Some 0 -> time_zero x).
  { intros x R. unfold f32_scaled.
    set (e := (x / 2 ^ 23) mod 2 ^ 8). set (m := x mod 2 ^ 23).
    assert (Hm : 0 <= m < 2 ^ 23) by (apply Z.mod_pos_bound; lia).
    assert (He : 0 <= e < 2 ^ 8) by (apply Z.mod_pos_bound; lia).
    assert (Sx : x = (x / 2 ^ 31) * 2 ^ 31 + e * 2 ^ 23 + m).
    { subst e m. pose proof (Z.div_mod x (2 ^ 23)). pose proof (Z.div_mod (x / 2 ^ 23) (2 ^ 8)).
      rewrite Z.div_div in * by lia. change (2 ^ 23 * 2 ^ 8) with (2 ^ 31) in *. lia. }
    destruct (Z.eqb_spec e 255); [discriminate|]. destruct (Z.eqb_spec e 0) as [E|E].
    - intros Hv. apply some_inj in Hv.
      assert (m = 0) by (destruct (x <? 2 ^ 31); lia). unfold time_zero.
      assert (0 <= x / 2 ^ 31 < 2) by (split; [apply Z.div_pos|apply Z.div_lt_upper_bound]; lia). lia.
    - intros H. exfalso. assert (P : 0 < 2 ^ (e - 1)) by (apply Z.pow_pos_nonneg; lia).
      apply some_inj in H. assert (K : 0 < (2 ^ 23 + m) * 2 ^ (e - 1)) by (apply Z.mul_pos_pos; lia).
      destruct (x <? 2 ^ 31); lia. }
  auto.
Qed.

(** ** Places in the grammar *)

Lemma records_at e h i rs o : w_records e h i rs o -> forall r1 r r2, rs = r1 ++ r :: r2 ->
  exists j m, w_record e (h ++ flat_map record_ops r1) j r m.
Proof.
  induction 1 as [h o|h i r' m rs o Hr _ IH]; intros r1 r r2 E.
  - destruct r1; discriminate.
  - destruct r1 as [|x r1]; injection E as -> ->.
    + cbn. rewrite app_nil_r. eauto.
    + destruct (IH _ _ _ eq_refl) as (j & k & H). rewrite <- app_assoc in H. eauto.
Qed.

Lemma frames_at e n h i xs : w_frames e n h i xs -> forall a x b, xs = a ++ x :: b ->
  exists j m, w_frame e (h ++ flat_map record_ops (flat_map snd a)) j x m.
Proof.
  induction 1 as [h i|n h|n h i t i1 d o|n h i t d rs m fs Hf _ IH]; intros a x b E; try (destruct a; discriminate).
  destruct a as [|y a]; injection E as E1 E2; subst.
  - cbn. rewrite app_nil_r. eauto.
  - destruct (IH _ _ _ eq_refl) as (j & k & H). rewrite <- app_assoc in H. cbn [flat_map snd].
    rewrite flat_map_app. eauto.
Qed.

Lemma frames_length e n h i xs : w_frames e n h i xs -> (length xs <= n)%nat.
Proof. induction 1; cbn [length]; lia. Qed.

(** ** The last insertion *)

Lemma map_after_last (h : list (map_op Z)) id obj : map_after 200 h id = Some obj ->
  exists h1 h2, h = h1 ++ MInsert id obj :: h2 /\ (forall o, ~ In (MInsert id o) h2) /\
    (200 <= id -> ~ In (MDelete id) h2).
Proof.
  revert obj. induction h as [|x h IH] using rev_ind; intros obj.
  - discriminate.
  - unfold map_after. rewrite fold_left_app. fold (map_after (V:=Z) 200 h). cbn [fold_left].
    destruct x as [k v|k]; unfold map_step.
    + unfold upd. destruct (Z.eqb_spec id k) as [->|N].
      * intros [= ->]. exists h, []. split; [reflexivity|]. split; intros; auto.
      * intros E. apply IH in E as (h1 & h2 & -> & A & D). exists h1, (h2 ++ [MInsert k v]).
        rewrite <- app_assoc. split; [reflexivity|]. split.
        -- intros o Hin. apply in_app_or in Hin as [Hin|[[= E _]|[]]]; [eapply A; eauto|congruence].
        -- intros Hid Hin. apply in_app_or in Hin as [Hin|[E|[]]]; [exact (D Hid Hin)|discriminate].
    + intros E.
      assert (Q : map_after 200 h id = Some obj /\ (200 <= id -> k <> id)).
      { destruct (Z.leb_spec 0 k), (Z.ltb_spec k 200); cbn [andb] in E; [split; [exact E|lia]|..];
          unfold upd in E; destruct (Z.eqb_spec id k); try discriminate; (split; [exact E|lia]). }
      destruct Q as [E' Nk]. apply IH in E' as (h1 & h2 & -> & A & D). exists h1, (h2 ++ [MDelete k]).
      rewrite <- app_assoc. split; [reflexivity|]. split.
      * intros o Hin. apply in_app_or in Hin as [Hin|[F|[]]]; [eapply A; eauto|discriminate].
      * intros Hid Hin. apply in_app_or in Hin as [Hin|[[= F]|[]]]; [apply D; auto|apply Nk; auto].
Qed.

(** ** Announcements *)

Lemma ops_new rs h1 id obj h2 : flat_map record_ops rs = h1 ++ MInsert id obj :: h2 ->
  exists r1 a r2, rs = r1 ++ RNew a :: r2 /\ n_actor_id a = id /\ n_object_id a = obj /\
    flat_map record_ops r2 = h2.
Proof.
  revert h1. induction rs as [|r rs IH]; intros h1 E; cbn [flat_map] in E.
  - destruct h1; discriminate.
  - destruct r as [a|k|k us]; cbn [record_ops app] in E.
    + destruct h1 as [|x h1].
      * injection E as E1 E2 E3. exists [], a, rs. subst. auto.
      * injection E as E1 E2. destruct (IH _ E2) as (r1 & b & r2 & -> & H). exists (RNew a :: r1), b, r2. auto.
    + destruct h1 as [|x h1]; [discriminate|]. injection E as E1 E2.
      destruct (IH _ E2) as (r1 & b & r2 & -> & H). exists (RDelete k :: r1), b, r2. auto.
    + destruct (IH _ E) as (r1 & b & r2 & -> & H). exists (RUpdate k us :: r1), b, r2. auto.
Qed.

Lemma new_ops rs a : In a (flat_map new_of rs) <-> In (RNew a) rs.
Proof.
  rewrite in_flat_map. split.
  - intros (r & Hr & Ha). destruct r as [b|k|k us]; cbn in Ha; try tauto. destruct Ha as [->|[]]. exact Hr.
  - intros H. exists (RNew a). cbn; auto.
Qed.

Lemma frames_new a : flat_map f_new_actors (map to_frame a) = flat_map new_of (flat_map snd a).
Proof.
  induction a as [|[[t d] rs] a IH]; auto. cbn [map flat_map snd to_frame frame_of f_new_actors].
  now rewrite flat_map_app, IH.
Qed.

Lemma new_insert rs a : In (RNew a) rs -> In (MInsert (n_actor_id a) (n_object_id a)) (flat_map record_ops rs).
Proof. intros H. apply in_flat_map. exists (RNew a). cbn; auto. Qed.

(** the object an id stands for inside a frame *)
Lemma actor_announced a t d r1 r2 id obj :
  actor_object (flat_map record_ops (flat_map snd a) ++ flat_map record_ops r1) id obj ->
  exists n, n_object_id n = obj /\ announces (map to_frame a) (to_frame (t, d, r1 ++ r2)) id n.
Proof.
  intros H. apply map_after_last in H as (h1 & h2 & E & A & _).
  rewrite <- flat_map_app in E. apply ops_new in E as (s1 & n & s2 & E & Hid & Ho & E2). exists n. split; [exact Ho|].
  assert (Nx : forall m, In (RNew m) s2 -> n_actor_id m <> id).
  { intros m Hm Em. apply (A (n_object_id m)). rewrite <- Em, <- E2. now apply new_insert. }
  unfold announces. cbn [to_frame frame_of f_new_actors].
  assert (Q : (exists s, r1 = s ++ RNew n :: s2) \/ exists s, flat_map snd a = s1 ++ RNew n :: s /\ s2 = s ++ r1).
  { apply app_eq_app in E as (l & [[E3 E4]|[E3 E4]]).
    - destruct l as [|y l]; cbn [app] in E4.
      + left. exists []. auto.
      + injection E4 as E4 E5. subst y. right. exists l. auto.
    - left. exists l. exact E4. }
  destruct Q as [(s & ->)|(s & E3 & ->)].
  - left. split; [|exact Hid]. apply new_ops. apply in_or_app. left. apply in_or_app. right. left. reflexivity.
  - right. rewrite frames_new, E3, flat_map_app. cbn [flat_map new_of app].
    exists (flat_map new_of s1), (flat_map new_of s). split; [reflexivity|]. split; [exact Hid|].
    intros m Hm. apply Nx. apply in_or_app. left. now apply new_ops.
Qed.

Lemma spawnable_at objects obj cls : spawnable objects obj cls -> object_at objects obj cls.
Proof. intros [H _]. split; [apply first_index_range in H; lia|now apply first_index_name]. Qed.

Lemma no_new id nw tf df t dl rf x2 r1 r2 : n_actor_id nw = id ->
  (forall x nw, In x (to_frame (tf, df, rf) :: map to_frame x2 ++ [to_frame (t, dl, r1 ++ r2)]) ->
     In nw (f_new_actors x) -> n_actor_id nw <> id) ->
  ~ In (RNew nw) ((rf ++ flat_map snd x2) ++ r1).
Proof.
  intros Hn N H. apply in_app_or in H as [H|H]; [apply in_app_or in H as [H|H]|].
  - eapply N; [left; reflexivity| |exact Hn]. cbn. now apply new_ops.
  - apply in_flat_map in H as ([[t' d'] rs] & Hx & H). cbn [snd] in H. 
    eapply N; [right; apply in_or_app; left; apply in_map; exact Hx| |exact Hn]. cbn. now apply new_ops.
  - eapply N; [right; apply in_or_app; right; left; reflexivity| |exact Hn]. cbn.
    apply new_ops, in_or_app. auto.
Qed.

Lemma file_ints dt h bd rest : f_file dt (h, bd) rest -> forall k x,
  In (lit k, HInt x) (h_properties (sec_value h)) -> is_i32 x.
Proof.
  intros (h' & m & (hs & hc & hcov & hm & hv & _ & Hh & Eh) & b' & m' & _ & Ep & _).
  injection Ep as -> ->. subst h'. cbn [sec_value].
  destruct Hh as (maj & m1 & _ & min & m2 & _ & net & m3 & _ & gt & m4 & _ & ps & m5 & Hp & -> & _). cbn.
  intros k x. eapply props_ints; eauto.
Qed.

Lemma new_shorter e id i a o : w_new e id i a o -> (length o <= length i)%nat.
Proof.
  intros (name & i1 & b & i2 & obj & i3 & cls & sp & t & H1 & H2 & H3 & _ & _ & H4 & _).
  apply (acc_shorter _ _ _ _ _ (acc_trajectory std_bitter std_bitter_ok sp (e_net e))) in H4.
  apply w_int_length in H3. unfold w_bit in H2.
  assert (length i1 <= length i)%nat.
  { unfold w_when in H1. destruct (e_names e); [destruct H1 as (? & H1 & _); apply w_int_length in H1|destruct H1 as [_ ->]]; lia. }
  subst i1. cbn [length] in *. lia.
Qed.

Lemma records_length e h i rs o : w_records e h i rs o -> (length o < length i)%nat.
Proof.
  induction 1 as [h o|h i r m rs o Hr Hrs IH]; cbn [length]; [lia|].
  destruct Hr as (id & i1 & (raw & Hb & _) & Hr). apply w_bounded_shorter in Hb.
  assert (length m < length i1)%nat; [|lia]. destruct r as [a|id'|id' us].
  - destruct Hr as (i2 & -> & H). apply new_shorter in H. cbn [length]. lia.
  - destruct Hr as (_ & ->). cbn [length]. lia.
  - destruct Hr as (_ & i2 & obj & cls & -> & _ & _ & H). apply many_updates_length in H. cbn [length]. lia.
Qed.

Lemma frames_bits e n h i xs : w_frames e n h i xs -> (65 * length xs <= length i)%nat.
Proof.
  induction 1 as [h i|n h|n h i t i1 d o|n h i t d rs m fs Hf _ IH]; cbn [length]; try lia.
  destruct Hf as (i1 & i2 & Ht & Hd & _ & _ & _ & Hr).
  apply w_uint_length in Ht, Hd. apply records_length in Hr. lia.
Qed.

(** ** Kinds *)

Lemma attribute_kind D tag i v o : w_attribute D tag i v o -> has_kind tag v.
Proof.
  destruct tag; cbn [w_attribute]; intros H;
  repeat match goal with
  | H : context [if ?b then _ else _] |- _ => destruct b
  | H : w_map _ _ _ _ _ |- _ => destruct H as (? & ? & ?)
  | H : w_bind _ _ _ _ _ |- _ => destruct H as (? & ? & ? & H)
  | H : w_ret _ _ _ _ |- _ => destruct H
  | H : w_none _ _ _ |- _ => destruct H
  end; subst; cbn [has_kind]; auto.
Qed.

(** ** Frames of an accepted file *)

Section Files.
Context (B : bitter) (HB : bitter_ok B) (ho : hash_order) (Hho : hash_order_ok ho).
Notation parse := (parse_with B ho).
Context (c : crc_check) (n : network_parse) (data : bytes) (r : replay) (fs : list frame).
Context (L : lenZ data < 2 ^ 31) (E : parse c n data = Ok r) (Ef : r_network_frames r = Some fs).

Lemma file_fun h b o h' b' o' : f_file data (h, b) o -> f_file data (h', b') o' -> h = h' /\ b = b'.
Proof.
  intros (h1 & m1 & (? & ? & ? & ? & ? & D1 & P1 & ->) & b1 & n1 & (? & ? & ? & ? & ? & D2 & P2 & ->) & E1 & _)
         (h2 & m2 & (? & ? & ? & ? & ? & D3 & P3 & ->) & b2 & n2 & (? & ? & ? & ? & ? & D4 & P4 & ->) & E2 & _).
  injection E1 as -> ->. injection E2 as -> ->.
  destruct (fate_of B ho data L) as
    [e _ ND _|size crc cov m e _ D U NP _|size crc cov m h o2 e _ D U PH UH ND _
    |size crc cov m h o2 bsize bcrc bcov bm e _ D U PH UH D' U' NP _
    |size crc cov m h o2 bsize bcrc bcov bm b o3 D U PH UH D' U' PB UB _].
  - destruct (ND _ _ _ _ D1).
  - apply U in D1 as (-> & -> & -> & ->). destruct (NP _ _ P1).
  - apply U in D1 as (-> & -> & -> & ->). apply UH in P1 as (-> & ->). destruct (ND _ _ _ _ D2).
  - apply U in D1 as (-> & -> & -> & ->). apply UH in P1 as (-> & ->).
    apply U' in D2 as (-> & -> & -> & ->). destruct (NP _ _ P2).
  - apply U in D1 as (-> & -> & -> & ->). apply UH in P1 as (-> & ->). apply U' in D2 as (-> & -> & -> & ->).
    apply UB in P2 as (-> & ->).
    apply U in D3 as (-> & -> & -> & ->). apply UH in P3 as (-> & ->). apply U' in D4 as (-> & -> & -> & ->).
    apply UB in P4 as (-> & ->). auto.
Qed.

(** where a frame comes from *)
Lemma frame_source a f b : fs = a ++ f :: b ->
  exists h bd rest e xa x xb j m, f_file data (h, bd) rest /\ r = replay_of h bd (Some fs) /\
    env_of (sec_value h) (sec_value bd) e /\ a = map to_frame xa /\ f = to_frame x /\ b = map to_frame xb /\
    w_frame e (flat_map record_ops (flat_map snd xa)) j x m /\
    (exists cnt, w_frames e cnt [] (enc_bytes (b_network_data (sec_value bd))) (xa ++ x :: xb)).
Proof.
  intros Es. destruct (parse_frames_inv B HB ho Hho _ _ _ _ _ L E Ef) as (h & bd & rest & xs & F & Er & (_ & cnt & Hc & H) & Em).
  rewrite Es in Em. symmetry in Em. apply map_eq_app in Em as (xa & xr & -> & <- & Em).
  destruct xr as [|x xb]; [discriminate|]. injection Em as <- <-.
  destruct (int_of cnt) as [k|]; [|destruct xa; discriminate].
  destruct H as (_ & e & He & Hw). destruct (frames_at _ _ _ _ _ Hw _ _ _ eq_refl) as (j & m & Hx).
  exists h, bd, rest, e, xa, x, xb, j, m. repeat (split; [first [assumption|reflexivity]|]). eauto.
Qed.

Lemma w_f32_range i x o : w_f32 i x o -> 0 <= x < 2 ^ 32.
Proof. intros [H _]. exact H. Qed.

Lemma times_sane f : In f fs -> sane (f_time f) /\ sane (f_delta f) /\
  ~ (f32_scaled (f_time f) = Some 0 /\ f32_scaled (f_delta f) = Some 0).
Proof.
  intros Hin. apply in_split in Hin as (a & b & Es).
  destruct (frame_source _ _ _ Es) as (h & bd & rest & e & xa & [[t d] rs] & xb & j & m & _ & _ & _ & _ & -> & _ & Hf & _).
  destruct Hf as (i1 & i2 & Ht & Hd & Tt & Td & N & _). apply w_f32_range in Ht, Hd. cbn [to_frame frame_of f_time f_delta].
  split; [now apply time_sane|]. split; [now apply time_sane|]. intros [Zt Zd]. apply N. now apply time_both.
Qed.

(** where an update comes from *)
Lemma update_source a f b u : fs = a ++ f :: b -> In u (f_updated_actors f) ->
  exists nw cls p name tag, announces a f (u_actor_id u) nw /\
    spawnable (r_objects r) (n_object_id nw) cls /\
    resolves (r_objects r) (r_net_cache r) cls (u_stream_id u) p /\ cp_object_ind p = u_object_id u /\
    object_at (r_objects r) (u_object_id u) name /\ kind_of name tag /\ has_kind tag (u_attribute u).
Proof.
  intros Es Hu.
  destruct (frame_source _ _ _ Es) as (h & bd & rest & e & xa & [[t d] rs] & xb & j & m & _ & Er & He & -> & -> & _ & Hf & _).
  destruct Hf as (i1 & i2 & _ & _ & _ & _ & _ & Hr). cbn [to_frame frame_of f_updated_actors] in Hu.
  apply in_flat_map in Hu as (rc & Hrc & Hu). destruct rc as [nw|k|k us]; try destruct Hu. cbn [updated_of] in Hu.
  apply in_split in Hrc as (r1 & r2 & ->).
  destruct (records_at _ _ _ _ _ Hr _ _ _ eq_refl) as (j' & m' & (id & i3 & _ & -> & i4 & obj & cls & _ & Ha & Hs & Hm)).
  assert (W : exists x y, w_update e id cls x u y).
  { clear - Hm Hu. induction Hm; [destruct Hu|]. destruct Hu as [->|Hu]; eauto. }
  destruct W as (x & y & bound & s & i5 & p & pname & tag & v & _ & _ & Hres & Hat & Hk & Hv & ->).
  destruct (actor_announced xa t d r1 (RUpdate id us :: r2) id obj Ha) as (nw & Ho & Hann).
  destruct He as (? & ? & ? & ? & ? & ? & ? & ? & ? & _ & _ & _ & _ & _ & _ & _ & _ & _ & ->).
  cbn [e_objects e_caches e_attr] in *. rewrite Er. cbn [replay_of r_objects r_net_cache].
  exists nw, cls, p, pname, tag. cbn [u_actor_id u_stream_id u_object_id u_attribute]. rewrite Ho.
  repeat (split; [first [assumption|reflexivity]|]). eapply attribute_kind; eauto.
Qed.

(** where an announcement comes from *)
Lemma new_source f nw : In f fs -> In nw (f_new_actors f) ->
  exists h bd rest e i o, f_file data (h, bd) rest /\ r = replay_of h bd (Some fs) /\
    env_of (sec_value h) (sec_value bd) e /\ (exists j m, w_actor_id e j (n_actor_id nw) m) /\
    w_new e (n_actor_id nw) i nw o.
Proof.
  intros Hin Hn. apply in_split in Hin as (a & b & Es).
  destruct (frame_source _ _ _ Es) as (h & bd & rest & e & xa & [[t d] rs] & xb & j & m & F & Er & He & _ & -> & _ & Hf & _).
  destruct Hf as (i1 & i2 & _ & _ & _ & _ & _ & Hr). cbn [to_frame frame_of f_new_actors] in Hn.
  apply new_ops in Hn. apply in_split in Hn as (r1 & r2 & ->).
  destruct (records_at _ _ _ _ _ Hr _ _ _ eq_refl) as (j' & m' & (id & i3 & Hid & i4 & _ & Hw)).
  assert (n_actor_id nw = id) as ->.
  { destruct Hw as (? & ? & ? & ? & ? & ? & ? & ? & ? & _ & _ & _ & _ & _ & _ & ->). reflexivity. }
  exists h, bd, rest, e. eexists _, _. repeat (split; [first [assumption|reflexivity]|]). split; [eauto|]. exact Hw.
Qed.

Lemma updates_announced a f b u : fs = a ++ f :: b -> In u (f_updated_actors f) ->
  exists nw cls p name tag, announces a f (u_actor_id u) nw /\
    object_at (r_objects r) (n_object_id nw) cls /\
    resolves (r_objects r) (r_net_cache r) cls (u_stream_id u) p /\ cp_object_ind p = u_object_id u /\
    object_at (r_objects r) (u_object_id u) name /\ kind_of name tag /\ has_kind tag (u_attribute u).
Proof.
  intros Es Hu. destruct (update_source _ _ _ _ Es Hu) as (nw & cls & p & name & tag & H1 & H2 & H3).
  exists nw, cls, p, name, tag. split; [exact H1|]. split; [|exact H3]. now apply spawnable_at.
Qed.

Lemma objects_valid f : In f fs ->
  (forall nw, In nw (f_new_actors f) -> exists name, object_at (r_objects r) (n_object_id nw) name) /\
  (forall u, In u (f_updated_actors f) -> exists name, object_at (r_objects r) (u_object_id u) name).
Proof.
  intros Hin. split.
  - intros nw Hn. destruct (new_source _ _ Hin Hn) as (h & bd & rest & e & i & o & _ & Er & He & _ & Hw).
    destruct Hw as (name & i1 & b & i2 & obj & i3 & cls & sp & t & _ & _ & _ & Hs & _ & _ & ->).
    destruct He as (? & ? & ? & ? & ? & ? & ? & ? & ? & _ & _ & _ & _ & _ & _ & _ & _ & _ & ->).
    cbn [e_objects n_object_id] in *. rewrite Er. cbn [replay_of r_objects]. exists cls. now apply spawnable_at.
  - intros u Hu. apply in_split in Hin as (a & b & Es).
    destruct (update_source _ _ _ _ Es Hu) as (nw & cls & p & name & tag & _ & _ & _ & _ & H & _). eauto.
Qed.

(** actor ids from 200 on are forgotten *)
Lemma forgotten a f b g d id : fs = a ++ f :: b ++ g :: d -> 200 <= id -> In id (f_deleted_actors f) ->
  (forall x nw, In x (f :: b ++ [g]) -> In nw (f_new_actors x) -> n_actor_id nw <> id) ->
  forall u, In u (f_updated_actors g) -> u_actor_id u <> id.
Proof.
  intros Es Hid Hd Nn u Hu Eu. assert (Es' : fs = (a ++ f :: b) ++ g :: d) by (rewrite Es, <- app_assoc; reflexivity).
  destruct (frame_source _ _ _ Es') as (h & bd & rest & e & xa & [[t dl] rs] & xb & j & m & _ & Er & He & Ea & -> & _ & Hf & _).
  symmetry in Ea. apply map_eq_app in Ea as (x1 & x2 & -> & <- & Ea).
  destruct x2 as [|xf x2]; [discriminate|]. injection Ea as Ea Eb. subst f b.
  destruct Hf as (i1 & i2 & _ & _ & _ & _ & _ & Hr). cbn [to_frame frame_of f_updated_actors] in Hu.
  apply in_flat_map in Hu as (rc & Hrc & Hu). destruct rc as [nw|k|k us]; try destruct Hu. cbn [updated_of] in Hu.
  apply in_split in Hrc as (r1 & r2 & ->).
  destruct (records_at _ _ _ _ _ Hr _ _ _ eq_refl) as (j' & m' & (id' & i3 & _ & -> & i4 & obj & cls & _ & Ha & Hs & Hm)).
  assert (id' = id) as ->.
  { clear - Hm Hu Eu. induction Hm; [destruct Hu|]. destruct Hu as [->|Hu]; auto.
    destruct H as (? & ? & ? & ? & ? & ? & ? & _ & _ & _ & _ & _ & _ & ->). auto. }
  apply map_after_last in Ha as (h1 & h2 & E1 & _ & Nd). specialize (Nd Hid).
  rewrite <- flat_map_app in E1. apply ops_new in E1 as (s1 & nw & s2 & E1 & Hni & _ & E2).
  rewrite flat_map_app in E1. cbn [flat_map] in E1. rewrite <- app_assoc in E1.
  destruct xf as [[tf df] rf]. cbn [snd] in E1.
  apply app_eq_app in E1 as (l & [[E3 E4]|[E3 E4]]).
  - destruct l as [|y l]; cbn [app] in E4.
    + (* announced in [f], [b] or [g] *)
      assert (Hin : In (RNew nw) ((rf ++ flat_map snd x2) ++ r1)) by (rewrite <- E4; left; reflexivity).
      revert Hin. apply no_new with (id := id) (nw := nw) (tf := tf) (df := df) (t := t) (dl := dl) (r2 := RUpdate id us :: r2); auto.
    + injection E4 as <- E4. apply Nd. rewrite <- E2, E4.
      apply in_flat_map. exists (RDelete id). split; [|cbn; auto].
      apply in_or_app. right. apply in_or_app. left. apply in_or_app. left.
      cbn [to_frame frame_of f_deleted_actors] in Hd. apply in_flat_map in Hd as (rc & Hrc & Hd).
      destruct rc as [|k|]; try destruct Hd as []. { subst k. exact Hrc. } destruct H.
  - assert (Hin : In (RNew nw) ((rf ++ flat_map snd x2) ++ r1)) by (rewrite E4; apply in_or_app; right; left; reflexivity).
    revert Hin. apply no_new with (id := id) (nw := nw) (tf := tf) (df := df) (t := t) (dl := dl) (r2 := RUpdate id us :: r2); auto.
Qed.

(** ** Ranges *)

Lemma record_id e h i rs o rc : w_records e h i rs o -> In rc rs ->
  exists id j m, w_actor_id e j id m /\
    (forall nw, In nw (new_of rc) -> n_actor_id nw = id) /\
    (forall k, In k (deleted_of rc) -> k = id) /\
    (forall u, In u (updated_of rc) -> u_actor_id u = id).
Proof.
  intros Hr Hin. apply in_split in Hin as (r1 & r2 & ->).
  destruct (records_at _ _ _ _ _ Hr _ _ _ eq_refl) as (j & m & (id & i3 & Hid & H)). exists id, j, i3.
  split; [exact Hid|]. destruct rc as [nw|k|k us]; cbn [new_of deleted_of updated_of In].
  - destruct H as (i2 & _ & (? & ? & ? & ? & ? & ? & ? & ? & ? & _ & _ & _ & _ & _ & _ & ->)).
    split; [intros nw [<-|[]]; reflexivity|]. split; intros ? [].
  - destruct H as [-> _]. split; [intros ? []|]. split; [intros ? [<-|[]]; reflexivity|intros ? []].
  - destruct H as (-> & i2 & obj & cls & _ & _ & _ & Hm). split; [intros ? []|]. split; [intros ? []|].
    intros u Hu. clear - Hm Hu. induction Hm; [destruct Hu|]. destruct Hu as [->|Hu]; auto.
    destruct H as (? & ? & ? & ? & ? & ? & ? & _ & _ & _ & _ & _ & _ & ->). auto.
Qed.

Lemma ids_in_range m : replay_int r "MaxChannels" m \/ (forall x, ~ replay_int r "MaxChannels" x) /\ m = 1023 ->
  1 <= m -> forall f id, In f fs -> In id (frame_ids f) -> 0 <= id < m.
Proof.
  intros Hm H1 f id Hin Hid. apply in_split in Hin as (a & b & Es).
  destruct (frame_source _ _ _ Es) as (h & bd & rest & e & xa & [[t d] rs] & xb & j & k & F & Er & He & _ & -> & _ & Hf & _).
  destruct Hf as (i1 & i2 & _ & _ & _ & _ & _ & Hr).
  assert (Em : e_max_channels e = m /\ m < 2 ^ 31).
  { destruct He as (ch & ? & ? & ? & ? & ? & ? & ? & ? & Hc & _ & _ & _ & _ & _ & _ & _ & _ & ->).
    cbn [e_max_channels]. unfold replay_int in Hm. rewrite Er in Hm. cbn [replay_of r_properties] in Hm.
    assert (Q : (match int_of ch with Some x => x | None => 1023 end) = m /\ m < 2 ^ 31).
    { destruct Hm as [Hm|[Hm ->]].
      - assert (ch = Some (HInt m)) as ->.
        { apply entry_find in Hc. apply find_prop_first in Hm. congruence. }
        split; [reflexivity|]. destruct Hm as (bf & af & Ep & _).
        destruct (file_ints _ _ _ _ F "MaxChannels" m) as [_ ?]; [|assumption].
        rewrite Ep. apply in_or_app. right. left. reflexivity.
      - split; [|lia]. apply entry_find in Hc. destruct ch as [p|]; [|reflexivity].
        destruct p; try reflexivity. exfalso. eapply Hm. apply find_prop_first. symmetry. exact Hc. }
    destruct Q as [-> ?]. split; [apply Z.mod_small; lia|assumption]. }
  assert (Q : exists rc, In rc rs /\ ((exists nw, In nw (new_of rc) /\ n_actor_id nw = id) \/ In id (deleted_of rc) \/
     exists u, In u (updated_of rc) /\ u_actor_id u = id)).
  { unfold frame_ids in Hid. cbn [to_frame frame_of f_new_actors f_deleted_actors f_updated_actors] in Hid.
    apply in_app_or in Hid as [Hid|Hid]; [|apply in_app_or in Hid as [Hid|Hid]].
    - apply in_map_iff in Hid as (nw & <- & Hn). apply in_flat_map in Hn as (rc & ? & ?). exists rc. eauto.
    - apply in_flat_map in Hid as (rc & ? & ?). exists rc. eauto.
    - apply in_map_iff in Hid as (u & <- & Hn). apply in_flat_map in Hn as (rc & ? & ?). exists rc. eauto 7. }
  destruct Q as (rc & Hrc & Hid').
  destruct (record_id _ _ _ _ _ _ Hr Hrc) as (id' & j' & m' & (raw & [Rr _] & Eid) & Q1 & Q2 & Q3).
  assert (id = id') as ->.
  { destruct Hid' as [(nw & Hn & <-)|[Hn|(u & Hn & <-)]]; auto. }
  destruct Em as [Em Hlt]. rewrite Em in Rr. rewrite Eid. unfold signed32. destruct (Z.ltb_spec raw (2 ^ 31)); lia.
Qed.

(** ** Announcements *)

Lemma new_facts f nw : In f fs -> In nw (f_new_actors f) ->
  (let v := mkVersion (r_major_version r) (r_minor_version r) (match r_net_version r with Some x => x | None => 0 end) in
   n_name_id nw <> None <->
     at_least v 868 20 0 = true \/ at_least v 868 14 0 = true /\ ~ replay_text r "MatchType" (lit "Lan")) /\
  exists cls sp, object_at (r_objects r) (n_object_id nw) cls /\ spawns_as (r_objects r) cls sp /\
    (t_location (n_traj nw) <> None <-> sp <> SpNone) /\
    (t_rotation (n_traj nw) <> None <-> sp = SpLocationAndRotation).
Proof.
  intros Hin Hn. destruct (new_source _ _ Hin Hn) as (h & bd & rest & e & i & o & _ & Er & He & _ & Hw).
  destruct Hw as (name & i1 & b & i2 & obj & i3 & cls & sp & t & H1 & _ & _ & Hs & Hsp & Ht & ->).
  destruct He as (? & lan & ? & ? & ? & ? & ? & ? & ? & _ & Hl & _ & _ & _ & _ & _ & _ & _ & ->).
  cbn [e_objects e_names e_net e_attr ad_version v_net n_name_id n_object_id n_traj] in *. rewrite Er.
  cbn [replay_of r_objects r_major_version r_minor_version r_net_version r_properties]. split.
  - set (v := mkVersion _ _ _) in *. 
    assert (Q : (match text_of lan with Some s => str_eqb s (lit "Lan") | None => false end) = true <->
                replay_text (replay_of h bd (Some fs)) "MatchType" (lit "Lan")).
    { unfold replay_text. cbn [replay_of r_properties]. rewrite <- !find_prop_first. apply entry_find in Hl. rewrite <- Hl.
      destruct lan as [p|]; [|split; [discriminate|intros [?|?]; discriminate]].
      destruct p; cbn [text_of]; try (split; [discriminate|intros [?|?]; discriminate]);
        rewrite str_eqb_spec; (split; [intros ->; auto|intros [E'|E']; try discriminate; apply some_inj in E'; inversion E'; reflexivity]). }
    cbv zeta. rewrite <- Q. unfold w_when in H1.
    destruct (at_least v 868 20 0); cbn [orb] in H1.
    { destruct H1 as (? & _ & ->). split; [auto|discriminate]. }
    destruct (at_least v 868 14 0); cbn [andb] in H1.
    2: { destruct H1 as [-> _]. split; [congruence|]. intros [?|[? _]]; discriminate. }
    destruct (match text_of lan with Some s => str_eqb s (lit "Lan") | None => false end); cbn [negb] in H1.
    + destruct H1 as [-> _]. split; [congruence|]. intros [?|[_ Hc]]; [discriminate|]. destruct Hc. reflexivity.
    + destruct H1 as (? & _ & ->). split; [|discriminate]. intros _. right. split; [reflexivity|discriminate].
  - exists cls, sp. split; [now apply spawnable_at|]. split; [exact Hsp|].
    destruct sp; cbn [w_trajectory] in Ht.
    + destruct Ht as [-> _]. cbn. split; split; congruence.
    + destruct Ht as (l & ? & _ & -> & _). cbn. split; split; congruence.
    + destruct Ht as (l & ? & _ & rt & ? & _ & -> & _). cbn. split; split; congruence.
Qed.

(** ** Numbers of frames *)

Lemma frame_count h bd rest : f_file data (h, bd) rest ->
  match fs with
  | [] => True
  | _ => exists k, replay_int r "NumFrames" k /\ lenZ fs <= k /\ 65 * lenZ fs <= 8 * lenZ (b_network_data (sec_value bd))
  end.
Proof.
  intros F. destruct (parse_frames_inv B HB ho Hho _ _ _ _ _ L E Ef) as (h' & bd' & rest' & xs & F' & Er & (_ & cnt & Hc & H) & ->).
  destruct (file_fun _ _ _ _ _ _ F F') as [-> ->].
  destruct (int_of cnt) as [k|] eqn:Ei; [|now subst].
  destruct H as (Hk & e & He & Hw). destruct xs as [|x xs]; [exact I|]. cbn [map]. change (to_frame x :: map to_frame xs) with (map to_frame (x :: xs)).
  exists k. split; [|split].
  - unfold replay_int. rewrite Er. cbn [replay_of r_properties]. apply find_prop_first. apply entry_find in Hc. rewrite <- Hc.
    destruct cnt as [[]|]; try discriminate. cbn in Ei. now injection Ei as ->.
  - apply frames_length in Hw. unfold lenZ. rewrite map_length. lia.
  - apply frames_bits in Hw. rewrite enc_bytes_length in Hw. unfold lenZ. rewrite map_length. lia.
Qed.

Lemma no_frame_count : (forall x, ~ replay_int r "NumFrames" x) -> fs = [].
Proof.
  intros N. destruct (parse_frames_inv B HB ho Hho _ _ _ _ _ L E Ef) as (h & bd & rest & xs & F & Er & (_ & cnt & Hc & H) & ->).
  apply entry_find in Hc. unfold replay_int in N. rewrite Er in N. cbn [replay_of r_properties] in N.
  destruct (int_of cnt) as [k|] eqn:Ei; [|now subst]. destruct cnt as [[]|]; try discriminate. 
  exfalso. eapply N. apply find_prop_first. symmetry. exact Hc.
Qed.

End Files.
