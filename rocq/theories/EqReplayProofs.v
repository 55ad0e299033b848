(** * Proofs: comparison of replays *)

From Coq Require Import ZArith List Bool Lia.
From Verif Require Import Base F32 Text NetTypes Errors Header Body BitReader ObjectIndex Parser Wire EqNet EqReplay SpecBasic SpecNet SpecWrite SpecFile SpecReplay SpecFacts
  SpecJson SpecEq SpecBlank SpecEqReplay BasicProofs FileFacts SendProofs FloatBits EqLogic EqNetProofs AlikeProofs.
Open Scope Z_scope.

(** ** Numbers *)

Lemma same_value_sym x y : same_value x y -> same_value y x.
Proof. intros [(v & E & F)|[-> H]]; [left; eauto|right; auto]. Qed.
Lemma same_value_trans x y z : same_value x y -> same_value y z -> same_value x z.
Proof.
  assert (N : f32_scaled plus_infinity = None /\ f32_scaled minus_infinity = None) by (split; reflexivity).
  intros [(v & E & F)|[-> H]] [(w & G & K)|[-> L]].
  - left. exists w. split; [congruence|assumption].
  - left. eauto.
  - left. eauto.
  - right. auto.
Qed.
Lemma same_value_refl x : same_value x x <-> numeric x.
Proof.
  unfold same_value, numeric. split.
  - intros [(v & E & _)|[_ H]]; [left; congruence|auto].
  - intros [H|H]; [left|auto]. destruct (f32_scaled x) as [v|] eqn:E; [eauto|congruence].
Qed.

(** ** Lists, options and pairs *)

Section Lists.
Context {A : Type} (e : A -> A -> bool) (R : A -> A -> Prop) (P : A -> Prop).
Lemma vec_each l : Forall (fun a => P a -> forall b, P b -> (e a b = true <-> R a b)) l -> Forall P l ->
  forall m, Forall P m -> (eq_vec e l m = true <-> Forall2 R l m).
Proof.
  induction l as [|a l IH]; intros H Hl [|b m] Hm; cbn [eq_vec].
  - split; auto.
  - split; [discriminate|inversion 1].
  - split; [discriminate|inversion 1].
  - inversion H; inversion Hl; inversion Hm; subst. rewrite andb_true_iff, H2, IH by auto. split.
    + intros []. now constructor.
    + inversion 1; auto.
Qed.
Lemma vec_all : (forall a b, P a -> P b -> (e a b = true <-> R a b)) -> forall l m, Forall P l -> Forall P m ->
  (eq_vec e l m = true <-> Forall2 R l m).
Proof. intros H l m Hl Hm. apply vec_each; auto. apply Forall_forall. auto. Qed.
End Lists.

Lemma Forall2_eq {A} (l m : list A) : Forall2 eq l m <-> l = m.
Proof.
  split; [induction 1; congruence|]. intros ->. induction m; auto.
Qed.
Lemma Forall2_sym {A} (R : A -> A -> Prop) l : Forall (fun a => forall b, R a b -> R b a) l -> forall m, Forall2 R l m -> Forall2 R m l.
Proof.
  induction 1 as [|a l Ha _ IH]; intros m H; inversion H; subst; auto.
Qed.
Lemma Forall2_trans {A} (R : A -> A -> Prop) l : Forall (fun a => forall b c, R a b -> R b c -> R a c) l ->
  forall m n, Forall2 R l m -> Forall2 R m n -> Forall2 R l n.
Proof.
  induction 1 as [|a l Ha _ IH]; intros m n H K; inversion H; subst; inversion K; subst; eauto.
Qed.
Lemma Forall2_diag {A} (R : A -> A -> Prop) l : Forall2 R l l <-> Forall (fun a => R a a) l.
Proof. induction l; [split; auto|]. split; inversion 1; subst; constructor; tauto. Qed.

(** ** Header values *)

Definition bits_prop (p : header_prop) : Prop := Forall is_u32 (prop_floats p).
Definition bits_pairs (l : props) : Prop := Forall (fun kv => bits_prop (snd kv)) l.
Definition eq_pairs (a b : str * header_prop) : Prop := fst a = fst b /\ equal_prop (snd a) (snd b).

Lemma pairs_exact l : Forall (fun kv => bits_prop (snd kv) -> forall q, bits_prop q -> (eq_header_prop (snd kv) q = true <-> equal_prop (snd kv) q)) l ->
  bits_pairs l -> forall m, bits_pairs m -> (eq_vec (eq_pair eq_header_prop) l m = true <-> Forall2 eq_pairs l m).
Proof.
  intros H Hl m Hm. apply (vec_each _ _ (fun kv => bits_prop (snd kv))); auto.
  eapply Forall_impl; [|exact H]. intros [k v] K Hv [k' v'] Hv'. unfold eq_pair, eq_pairs. cbn [fst snd] in *.
  rewrite andb_true_iff, str_eqb_spec, K by auto. reflexivity.
Qed.

Lemma flat_bits l : Forall is_u32 (flat_map (fun kv : str * header_prop => prop_floats (snd kv)) l) <-> bits_pairs l.
Proof. apply Forall_flat_map. Qed.
Lemma flat_rows rows : Forall is_u32 (flat_map (flat_map (fun kv : str * header_prop => prop_floats (snd kv))) rows) <-> Forall bits_pairs rows.
Proof.
  rewrite Forall_flat_map. split; apply Forall_impl; intros l; apply flat_bits.
Qed.

Lemma leaf_equal v w : (forall x, v <> HFloat x) -> (forall rows, v <> HArray rows) -> (forall name fields, v <> HStruct name fields) ->
  (equal_prop v w <-> v = w).
Proof.
  intros H1 H2 H3. split.
  - inversion 1; subst; try reflexivity; exfalso; [eapply H1|eapply H3|eapply H2]; reflexivity.
  - intros <-. now apply ep_other.
Qed.

Ltac leaf := rewrite leaf_equal by discriminate; cbn [eq_header_prop].
Lemma prop_exact p : bits_prop p -> forall q, bits_prop q -> (eq_header_prop p q = true <-> equal_prop p q).
Proof.
  unfold bits_prop. induction p using header_prop_nested; cbn [prop_floats].
  - rewrite flat_rows. intros Hp q Hq. destruct q; cbn [eq_header_prop]; try (split; [discriminate|inversion 1; congruence]).
    cbn [prop_floats] in Hq. rewrite flat_rows in Hq. rewrite (vec_each _ (Forall2 eq_pairs) bits_pairs); auto.
    + split; [apply ep_array|inversion 1; auto; congruence].
    + eapply Forall_impl; [|exact H]. intros l Hl Bl m Bm. now apply pairs_exact.
  - intros _ q _. leaf. destruct q; try (split; discriminate). rewrite eqb_true_iff. split; congruence.
  - intros _ q _. leaf. destruct q; try (split; discriminate).
    rewrite andb_true_iff, str_eqb_spec, (exact_iff _ (eqs_opt_exact _ eqs_str)). split; [intros [-> ->]; reflexivity|intros [= -> ->]; auto].
  - intros Hp q Hq. destruct q; cbn [eq_header_prop]; try (split; [discriminate|inversion 1; congruence]).
    cbn [prop_floats] in Hq. inversion Hp; inversion Hq; subst. rewrite f32_same by auto.
    split; [apply ep_float|inversion 1; auto; congruence].
  - intros _ q _. leaf. destruct q; try (split; discriminate). rewrite Z.eqb_eq. split; congruence.
  - intros _ q _. leaf. destruct q; try (split; discriminate). rewrite str_eqb_spec. split; congruence.
  - intros _ q _. leaf. destruct q; try (split; discriminate). rewrite Z.eqb_eq. split; congruence.
  - intros _ q _. leaf. destruct q; try (split; discriminate). rewrite str_eqb_spec. split; congruence.
  - rewrite flat_bits. intros Hp q Hq. destruct q; cbn [eq_header_prop]; try (split; [discriminate|inversion 1; congruence]).
    cbn [prop_floats] in Hq. rewrite flat_bits in Hq. rewrite andb_true_iff, str_eqb_spec, pairs_exact by auto.
    split; [intros [-> K]; now apply ep_struct|inversion 1; subst; [auto|congruence]].
Qed.

Lemma props_exact f g : bits_pairs f -> bits_pairs g -> (eq_vec (eq_pair eq_header_prop) f g = true <-> equal_props f g).
Proof. intros Hf Hg. apply pairs_exact; auto. apply Forall_forall. intros kv _. apply prop_exact. Qed.

Lemma prop_sym p : forall q, equal_prop p q -> equal_prop q p.
Proof.
  induction p using header_prop_nested; intros q E; inversion E; subst; try now apply ep_other; try congruence.
  all: try (apply ep_other; assumption).
  - apply ep_array. eapply Forall2_sym; [|eassumption]. eapply Forall_impl; [|exact H]. cbv beta. intros l Hl m Hm.
    eapply Forall2_sym; [|exact Hm]. eapply Forall_impl; [|exact Hl]. intros [k v] K [k' v'] [? ?]. cbn [fst snd] in *. auto.
  - apply ep_float. now apply same_value_sym.
  - apply ep_struct. eapply Forall2_sym; [|eassumption]. eapply Forall_impl; [|exact H]. intros [k v] K [k' v'] [? ?]. cbn [fst snd] in *. auto.
Qed.
Lemma prop_trans p : forall q r, equal_prop p q -> equal_prop q r -> equal_prop p r.
Proof.
  assert (Pairs : forall l, Forall (fun kv : str * header_prop => forall q r, equal_prop (snd kv) q -> equal_prop q r -> equal_prop (snd kv) r) l ->
    forall m n, Forall2 eq_pairs l m -> Forall2 eq_pairs m n -> Forall2 eq_pairs l n).
  { intros l H. apply Forall2_trans. eapply Forall_impl; [|exact H]. intros [k v] K [k' v'] [k'' v''] [? ?] [? ?].
    cbn [fst snd] in *. split; cbn [fst snd]; [congruence|eauto]. }
  induction p using header_prop_nested; intros q r E F; inversion E; subst; auto.
  - inversion F; subst.
    + apply ep_array. eapply Forall2_trans; [|eassumption|eassumption]. eapply Forall_impl; [|exact H]. intros l Hl m n Hm Hn.
      exact (Pairs l Hl m n Hm Hn).
    + now apply ep_array.
  - inversion F; subst; [|exact E]. apply ep_float. eapply same_value_trans; eauto.
  - inversion F; subst; [|exact E]. apply ep_struct. eapply Pairs; eauto.
Qed.

Lemma prop_self p : equal_prop p p <-> Forall numeric (prop_floats p).
Proof.
  induction p using header_prop_nested; cbn [prop_floats]; try (split; [constructor|intros _; now apply ep_other]).
  - rewrite Forall_flat_map. split.
    + intros E. assert (D : Forall2 (Forall2 eq_pairs) rows rows) by (inversion E; subst; [assumption|exfalso; congruence]).
      rewrite Forall2_diag in D. revert H D. rewrite !Forall_forall. intros H D r Hr. specialize (H r Hr). specialize (D r Hr).
      rewrite Forall2_diag in D. rewrite Forall_flat_map. revert H D. rewrite !Forall_forall. intros H D kv Hkv.
      now apply H, D.
    + intros D. apply ep_array. apply Forall2_diag. revert H D. rewrite !Forall_forall. intros H D r Hr. specialize (H r Hr). specialize (D r Hr).
      apply Forall2_diag. rewrite Forall_flat_map in D. revert H D. rewrite !Forall_forall. intros H D kv Hkv. split; [reflexivity|]. now apply H, D.
  - split.
    + intros E. constructor; [|constructor]. apply same_value_refl. inversion E; subst; [assumption|exfalso; congruence].
    + intros D. inversion D; subst. apply ep_float. now apply same_value_refl.
  - rewrite Forall_flat_map. split.
    + intros E. assert (D : Forall2 eq_pairs f f) by (inversion E; subst; [assumption|exfalso; congruence]).
      rewrite Forall2_diag in D. revert H D. rewrite !Forall_forall. intros H D kv Hkv. now apply H, D.
    + intros D. apply ep_struct. apply Forall2_diag. revert H D. rewrite !Forall_forall. intros H D kv Hkv. split; [reflexivity|]. now apply H, D.
Qed.

(** ** Frames and key frames *)

Lemma frame_exact f g : Forall is_u32 (floats_frame f) -> Forall is_u32 (floats_frame g) -> (eq_frame f g = true <-> equal_frame f g).
Proof. intros Hf Hg. apply (proj2 (eqs_frame f g)); assumption. Qed.
Lemma frame_sym f g : equal_frame f g -> equal_frame g f.
Proof.
  intros [E F]. split; [auto|]. eapply Forall2_sym; [|exact F]. apply Forall_forall. intros x _ y. apply same_value_sym.
Qed.
Lemma frame_trans f g h : equal_frame f g -> equal_frame g h -> equal_frame f h.
Proof.
  intros [E F] [E' F']. split; [congruence|]. eapply Forall2_trans; [|exact F|exact F']. apply Forall_forall. intros x _ y z. apply same_value_trans.
Qed.
Lemma frame_self f : equal_frame f f <-> Forall numeric (floats_frame f).
Proof.
  unfold equal_frame. rewrite Forall2_diag. split.
  - intros [_ H]. eapply Forall_impl; [|exact H]. intros x. apply same_value_refl.
  - intros H. split; [reflexivity|]. eapply Forall_impl; [|exact H]. intros x. apply same_value_refl.
Qed.

Lemma key_frame_exact k l : is_u32 (kf_time k) -> is_u32 (kf_time l) -> (eq_key_frame k l = true <-> equal_key_frame k l).
Proof.
  intros Hk Hl. unfold eq_key_frame, equal_key_frame. rewrite !andb_true_iff, !Z.eqb_eq, f32_same by auto. tauto.
Qed.

Lemma eqs_tick_mark : exact eq_tick_mark.
Proof. apply eqs_exact. intros [a b] [c d]. unfold eq_tick_mark. cbn. exact_solve. Qed.
Lemma eqs_debug_info : exact eq_debug_info.
Proof. apply eqs_exact. intros [a b x] [c d y]. unfold eq_debug_info. cbn. exact_solve. Qed.
Lemma eqs_class_index : exact eq_class_index.
Proof. apply eqs_exact. intros [a b] [c d]. unfold eq_class_index. cbn. exact_solve. Qed.
Lemma eqs_cache_prop : exact eq_cache_prop.
Proof. apply eqs_exact. intros [a b] [c d]. unfold eq_cache_prop. cbn [cp_object_ind cp_stream_id]. exact_solve. Qed.
#[local] Hint Resolve eqs_tick_mark eqs_debug_info eqs_class_index eqs_cache_prop : eqs.
Lemma eqs_class_net_cache : exact eq_class_net_cache.
Proof. apply eqs_exact. intros [a b x p] [c d y q]. unfold eq_class_net_cache. cbn [nc_object_ind nc_parent_id nc_cache_id nc_properties]. exact_solve. Qed.
#[local] Hint Resolve eqs_class_net_cache : eqs.

(** ** Replays *)

Definition bits_replay (r : replay) : Prop := Forall is_u32 (replay_floats r).

Lemma bits_parts r : bits_replay r <-> bits_pairs (r_properties r) /\
  (forall fs, r_network_frames r = Some fs -> Forall (fun f => Forall is_u32 (floats_frame f)) fs) /\
  Forall (fun k => is_u32 (kf_time k)) (r_keyframes r).
Proof.
  unfold bits_replay, replay_floats. rewrite !Forall_app, flat_bits, Forall_map.
  destruct (r_network_frames r) as [fs|].
  - rewrite Forall_flat_map. split; [intros (H1 & H2 & H3); split; [auto|]; split; [intros ? [= <-]; auto|auto]|intros (H1 & H2 & H3); auto].
  - split; [intros (H1 & H2 & H3); split; [auto|]; split; [discriminate|auto]|intros (H1 & H2 & H3); auto].
Qed.

Theorem replay_exact r s : bits_replay r -> bits_replay s -> (eq_replay r s = true <-> equal_replay r s).
Proof.
  rewrite !bits_parts. intros (P1 & F1 & K1) (P2 & F2 & K2). unfold eq_replay, equal_replay.
  assert (N : eq_opt (eq_vec eq_frame) (r_network_frames r) (r_network_frames s) = true <->
    equal_option (Forall2 equal_frame) (r_network_frames r) (r_network_frames s)).
  { destruct (r_network_frames r) as [f|], (r_network_frames s) as [g|]; cbn [eq_opt equal_option]; try (split; [discriminate|tauto]); [|tauto].
    apply (vec_all _ _ (fun f => Forall is_u32 (floats_frame f))); auto. intros; now apply frame_exact. }
  rewrite !andb_true_iff, N, (props_exact _ _ P1 P2), (vec_all _ _ _ key_frame_exact _ _ K1 K2). exact_fields.
  split; [intros; eqs_conj; repeat split; auto; congruence|]. intros (H1 & H2 & H3 & [=] & [=] & [=]). repeat split; auto.
Qed.

Lemma replay_sym r s : equal_replay r s -> equal_replay s r.
Proof.
  intros (H1 & H2 & H3 & H4 & H5 & H6). unfold equal_replay. repeat split; auto.
  - eapply Forall2_sym; [|exact H1]. apply Forall_forall. intros [k v] _ [k' v'] [? ?]. cbn [fst snd] in *. split; [auto|]. now apply prop_sym.
  - destruct (r_network_frames r), (r_network_frames s); cbn [equal_option] in *; auto.
    eapply Forall2_sym; [|exact H2]. apply Forall_forall. intros f _ g. apply frame_sym.
  - eapply Forall2_sym; [|exact H3]. apply Forall_forall. intros k _ l (A & E & F). split; [now apply same_value_sym|auto].
Qed.
Lemma replay_trans r s t : equal_replay r s -> equal_replay s t -> equal_replay r t.
Proof.
  intros (H1 & H2 & H3 & H4 & H5 & H6) (G1 & G2 & G3 & G4 & G5 & G6). unfold equal_replay. rewrite H4, H5, H6. repeat split; auto.
  - eapply Forall2_trans; [|exact H1|exact G1]. apply Forall_forall. intros [k v] _ [k' v'] [k'' v''] [? ?] [? ?]. cbn [fst snd] in *.
    split; [congruence|]. eapply prop_trans; eauto.
  - destruct (r_network_frames r), (r_network_frames s), (r_network_frames t); cbn [equal_option] in *; auto; try contradiction.
    eapply Forall2_trans; [|exact H2|exact G2]. apply Forall_forall. intros f _ g h. apply frame_trans.
  - eapply Forall2_trans; [|exact H3|exact G3]. apply Forall_forall. intros k _ l m (A & E & F) (A' & E' & F').
    split; [eapply same_value_trans; eauto|split; congruence].
Qed.
Lemma replay_self r : equal_replay r r <-> Forall numeric (replay_floats r).
Proof.
  unfold equal_replay, replay_floats, equal_props. rewrite !Forall_app, Forall_flat_map, Forall_map, !Forall2_diag.
  assert (A : Forall (fun a : str * header_prop => fst a = fst a /\ equal_prop (snd a) (snd a)) (r_properties r) <->
    Forall (fun x : str * header_prop => Forall numeric (prop_floats (snd x))) (r_properties r)).
  { split; apply Forall_impl; intros kv; rewrite prop_self; tauto. }
  assert (N : equal_option (Forall2 equal_frame) (r_network_frames r) (r_network_frames r) <->
    Forall numeric match r_network_frames r with Some fs => flat_map floats_frame fs | None => [] end).
  { destruct (r_network_frames r); cbn [equal_option]; [|split; auto]. rewrite Forall2_diag, Forall_flat_map.
    split; apply Forall_impl; intros f; apply frame_self. }
  assert (K : Forall (fun k => equal_key_frame k k) (r_keyframes r) <-> Forall (fun k => numeric (kf_time k)) (r_keyframes r)).
  { split; apply Forall_impl; intros k; unfold equal_key_frame; rewrite same_value_refl; tauto. }
  rewrite A, N, K. tauto.
Qed.

(** ** Parsed replays *)

Lemma prop_bits q i ps o : f_props q i ps o -> bits_pairs ps.
Proof.
  revert i ps o. unfold bits_pairs.
  apply (f_props_m q
    (fun _ ps _ => Forall (fun kv => bits_prop (snd kv)) ps)
    (fun _ _ v _ => bits_prop v)
    (fun n _ rows _ => Forall (Forall (fun kv => bits_prop (snd kv))) rows)); unfold bits_prop; cbn [prop_floats snd];
    try (intros; constructor; fail).
  - intros. constructor; auto.
  - auto.
  - intros i n m rows o _ _ _ H. apply flat_rows. exact H.
  - intros i x o (l & _ & R & _). constructor; [exact R|constructor].
  - intros. apply flat_bits. assumption.
  - intros. now constructor.
Qed.

Section Parse.
Context (B : bitter) (HB : bitter_ok B) (ho : hash_order) (Hho : hash_order_ok ho).

Lemma parsed_bits c n data r : lenZ data < 2 ^ 31 -> parse_with B ho c n data = Ok r -> bits_replay r.
Proof.
  intros L E. apply bits_parts.
  assert (W : forall fs, r_network_frames r = Some fs -> Forall is_u32 (flat_map floats_frame fs)).
  { intros fs Ef. destruct (frames_in_range B HB ho Hho _ _ _ _ _ L E Ef) as (h & b & rest & e & xs & _ & _ & -> & R). eapply bits_frames; exact R. }
  destruct (parse_ok_file _ _ _ _ _ _ L E) as (h & b & rest & F & Er).
  assert (P : bits_pairs (r_properties r) /\ Forall (fun k => is_u32 (kf_time k)) (r_keyframes r)).
  { rewrite Er. cbn [r_properties r_keyframes replay_of].
    destruct F as (h' & m & (hs & hc & hcov & hm & hv & _ & Hh & Eh) & b' & m' & (bs & bc & bcov & bm & bv & _ & Hb & Eb) & E' & _).
    injection E' as -> ->. subst h' b'. cbn [sec_value].
    destruct Hh as (maj & m1 & _ & min & m2 & _ & net & m3 & _ & gt & m4 & _ & ps & m5 & Hp & -> & _).
    destruct Hb as (lv & m6 & _ & ks & m7 & Hk & nd & m8 & _ & dbg & m9 & _ & tk & m10 & _ & pk & m11 & _ & ob & m12 & _ & nm & m13 & _ & cl & m14 & _ & ch & m15 & _ & -> & _).
    split; [eapply prop_bits; exact Hp|eapply key_times; exact Hk]. }
  destruct P as [P K]. split; [exact P|]. split; [|exact K]. intros fs Ef. apply Forall_flat_map. auto.
Qed.

Theorem parsed_equal c n data r c' n' data' s : lenZ data < 2 ^ 31 -> lenZ data' < 2 ^ 31 ->
  parse_with B ho c n data = Ok r -> parse_with B ho c' n' data' = Ok s -> (eq_replay r s = true <-> equal_replay r s).
Proof. intros L L' E E'. apply replay_exact; [exact (parsed_bits _ _ _ _ L E)|exact (parsed_bits _ _ _ _ L' E')]. Qed.
Theorem parsed_self c n data r : lenZ data < 2 ^ 31 -> parse_with B ho c n data = Ok r ->
  (eq_replay r r = true <-> Forall numeric (replay_floats r)).
Proof. intros L E. rewrite (parsed_equal c n data r c n data r) by assumption. apply replay_self. Qed.
Theorem parsed_sym c n data r c' n' data' s : lenZ data < 2 ^ 31 -> lenZ data' < 2 ^ 31 ->
  parse_with B ho c n data = Ok r -> parse_with B ho c' n' data' = Ok s -> eq_replay r s = eq_replay s r.
Proof.
  intros L L' E E'. pose proof (parsed_equal _ _ _ _ _ _ _ _ L L' E E') as H. pose proof (parsed_equal _ _ _ _ _ _ _ _ L' L E' E) as K.
  pose proof (replay_sym r s) as S. pose proof (replay_sym s r) as S'.
  destruct (eq_replay r s), (eq_replay s r); auto; [symmetry|]; tauto.
Qed.
Theorem parsed_trans c n data r c' n' data' s c'' n'' data'' t : lenZ data < 2 ^ 31 -> lenZ data' < 2 ^ 31 -> lenZ data'' < 2 ^ 31 ->
  parse_with B ho c n data = Ok r -> parse_with B ho c' n' data' = Ok s -> parse_with B ho c'' n'' data'' = Ok t ->
  eq_replay r s = true -> eq_replay s t = true -> eq_replay r t = true.
Proof.
  intros L L' L'' E E' E''. rewrite (parsed_equal _ _ _ _ _ _ _ _ L L' E E'), (parsed_equal _ _ _ _ _ _ _ _ L' L'' E' E''), (parsed_equal _ _ _ _ _ _ _ _ L L'' E E'').
  apply replay_trans.
Qed.
End Parse.
