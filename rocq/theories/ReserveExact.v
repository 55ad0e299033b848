(** * Proofs: an accepted file has reserved exactly what the replay contains *)

From Coq Require Import ZArith List Bool Lia.
From Verif Require Import Base Text F32 Errors NetTypes Core Header Body BitReader ObjectIndex FrameDecoder Network Crc Parser
  Reserve SpecReserve SpecBasic SpecFacts SpecCrc SpecFile SpecNet SpecReplay BasicProofs BitLemmas CoreLogic FileFacts NetworkProofs ParseProofs ErrorFacts ReserveProofs.
Open Scope Z_scope.
Local Arguments Z.mul : simpl never.
Local Arguments Z.sub : simpl never.
Local Arguments Z.add : simpl never.

(** [m] reserves [v x] elements when it gives [x] *)
Definition counts {A} (m : counter A) (v : A -> Z) : Prop :=
  forall s n x s' n', m (s, n) = (Ok x, (s', n')) -> n' = n + v x.

Lemma ct_keep {A} (m : parser A) v : (forall x, v x = 0) -> counts (keep m) v.
Proof. intros V s n x s' n'. unfold keep. cbn. destruct (m s). intros [= -> <- <-]. rewrite V. lia. Qed.
Lemma ct_ret {A} (x : A) v : v x = 0 -> counts (ret x) v.
Proof. intros V s n y s' n' [= <- _ <-]. lia. Qed.
Lemma ct_fail {A} e v : counts (@fail _ _ A e) v.
Proof. intros s n x s' n'. discriminate. Qed.
Lemma ct_panics {A} e v : counts (@panics _ _ A e) v.
Proof. intros s n x s' n'. discriminate. Qed.
Lemma bind_inv {S E A C} (m : comp S E A) (k : A -> comp S E C) s y s' : bind m k s = (Ok y, s') ->
  exists x s1, m s = (Ok x, s1) /\ k x s1 = (Ok y, s').
Proof. unfold bind. destruct (m s) as [[x|e|p] s1]; try discriminate. eauto. Qed.
Lemma ct_bind {A C} (m : counter A) (k : A -> counter C) v w :
  counts m v -> (forall x, counts (k x) (fun y => w y - v x)) -> counts (bind m k) w.
Proof.
  intros H K s n y s' n' E. apply bind_inv in E as (x & [s1 n1] & E1 & E2).
  apply H in E1. apply K in E2. lia.
Qed.
Lemma ct_section {A} t (m : counter A) v : counts m v -> counts (c_in_section t m) v.
Proof.
  intros H s n x s' n'. unfold c_in_section, map_err. destruct (m (s, n)) as [[y|e|p] [s1 n1]] eqn:E; try discriminate.
  intros [= <- <- <-]. eapply H. exact E.
Qed.
Lemma ct_crc {A} check d crc t (m : counter A) v : counts m v -> counts (c_crc_section check d crc t m) v.
Proof.
  intros H s n x s' n'. unfold c_crc_section. destruct (m (s, n)) as [[y|e|p] [s1 n1]] eqn:E; destruct check; cbn;
    try destruct (negb _); try discriminate; intros [= <- <- <-]; eapply H; exact E.
Qed.

Fixpoint total {A} (v : A -> Z) (l : list A) : Z := match l with [] => 0 | x :: t => v x + total v t end.
Lemma ct_repeat_n {A} (f : counter A) v k : counts f v -> counts (c_repeat_n k f) (total v).
Proof.
  intros H. induction k as [|k IH]; [apply ct_ret; reflexivity|]. cbn [c_repeat_n].
  eapply ct_bind; [exact H|intros x]. eapply ct_bind; [exact IH|intros l]. apply ct_ret. cbn. lia.
Qed.
Lemma repeat_len {A} (f : counter A) k : forall s l s', c_repeat_n k f s = (Ok l, s') -> length l = k.
Proof.
  induction k as [|k IH]; intros s l s'; cbn [c_repeat_n]; [now intros [= <- _]|].
  intros E. apply bind_inv in E as (x & s1 & _ & E). apply bind_inv in E as (xs & s2 & E & E2).
  apply IH in E. injection E2 as <- _. cbn. now rewrite E.
Qed.
Lemma ct_repeat_of {A} (f : counter A) v z : 0 <= z -> counts f v -> counts (c_repeat_of z f) (fun l => lenZ l + total v l).
Proof.
  intros Hz H s n l s' n'. unfold c_repeat_of. destruct (25000 <? z); [discriminate|].
  unfold reserve, bind at 1. cbn [fst snd]. intros E. pose proof (repeat_len _ _ _ _ _ E) as L.
  apply (ct_repeat_n f v _ H) in E. unfold lenZ. lia.
Qed.
Lemma ct_list_of {A} (f : counter A) v : counts f v -> counts (c_list_of f) (fun l => lenZ l + total v l).
Proof.
  intros H. apply (ct_bind _ _ (fun _ => 0)); [now apply ct_keep|intros z].
  intros s n l s' n' E. apply (ct_repeat_of f v _ (usize_pos z) H) in E. lia.
Qed.
Lemma total_zero {A} (l : list A) : total (fun _ => 0) l = 0.
Proof. induction l; cbn; lia. Qed.
Lemma ct_flat {A} (f : parser A) : counts (c_list_of (keep f)) (fun l => lenZ l).
Proof.
  intros s n l s' n' E. apply (ct_list_of (keep f) (fun _ => 0)) in E; [|now apply ct_keep]. rewrite total_zero in E. lia.
Qed.

Lemma total_rows rs : total (rows_in rows) rs = rows_all rows rs.
Proof. induction rs; cbn; congruence. Qed.
Lemma ct_rdict fuel mode : counts (c_parse_rdict fuel mode) (rows_in rows).
Proof.
  induction fuel as [|fuel IH]; [apply ct_panics|]. cbn [c_parse_rdict].
  apply (ct_bind _ _ (fun _ => 0)); [now apply ct_keep|intros key].
  destruct (str_eqb key (lit "None")); [now apply ct_ret|].
  apply (ct_bind _ _ (fun _ => 0)); [now apply ct_keep|intros kind].
  apply (ct_bind _ _ (fun _ => 0)); [now apply ct_keep|intros z0].
  apply (ct_bind _ _ (fun _ => 0)); [now apply ct_keep|intros z1].
  apply (ct_bind _ _ (fun v => match v with Some p => rows p | None => 0 end)).
  2: { intros v. apply (ct_bind _ _ (rows_in rows)); [exact IH|intros rest]. apply ct_ret.
       destruct v; cbn [rows_in]; lia. }
  assert (Z : forall A (m : parser A) (f : A -> option header_prop), (forall x, match f x with Some p => rows p | None => 0 end = 0) ->
    counts (keep (fmap f m)) (fun v => match v with Some p => rows p | None => 0 end)).
  { intros A m f F s n x s' n'. unfold keep, fmap, bind, ret. cbn [fst snd]. destruct (m s) as [[y|e|p] s1]; try discriminate.
    intros [= <- <- <-]. rewrite F. lia. }
  assert (K : forall m : parser (option header_prop), (forall s x s', m s = (Ok x, s') -> match x with Some p => rows p | None => 0 end = 0) ->
    counts (keep m) (fun v => match v with Some p => rows p | None => 0 end)).
  { intros m F s n x s' n'. unfold keep. cbn [fst snd]. destruct (m s) as [o s1] eqn:E. intros [= -> <- <-]. rewrite (F _ _ _ E). lia. }
  destruct (str_eqb kind (lit "BoolProperty")).
  { destruct mode; apply K; intros s x s' E; apply bind_inv in E as (d & s1 & _ & E); apply bind_inv in E as (p & s2 & E & E2);
      injection E2 as <- _; (destruct d; [discriminate|]); injection E as <- _; reflexivity. }
  destruct (str_eqb kind (lit "ByteProperty")).
  { destruct mode; [|now apply Z]. apply K. intros s x s' E. apply bind_inv in E as (k & s1 & _ & E).
    destruct (str_eqb k _); apply bind_inv in E as (d & s2 & _ & E); injection E as <- _; reflexivity. }
  destruct (str_eqb kind (lit "ArrayProperty")).
  { apply (ct_bind _ _ (fun _ => 0)); [now apply ct_keep|intros z].
    eapply ct_bind; [apply (ct_repeat_of _ (rows_in rows)); [apply usize_pos|exact IH]|intros rs].
    apply ct_ret. cbn [rows]. rewrite total_rows. lia. }
  repeat match goal with
  | |- counts (if str_eqb kind (lit "StructProperty") then _ else _) _ => fail 1
  | |- counts (if ?c then _ else _) _ => destruct c; [now apply Z|]
  end.
  destruct (str_eqb kind (lit "StructProperty")); [|apply ct_fail].
  apply (ct_bind _ _ (fun _ => 0)); [now apply ct_keep|intros name].
  apply (ct_bind _ _ (rows_in rows)); [exact IH|intros fields]. apply ct_ret. cbn [rows]. lia.
Qed.

Lemma ct_header : counts c_parse_header (fun h => rows_in rows (h_properties h)).
Proof.
  unfold c_parse_header.
  apply (ct_bind _ _ (fun _ => 0)); [now apply ct_keep|intros major].
  apply (ct_bind _ _ (fun _ => 0)); [now apply ct_keep|intros minor].
  apply (ct_bind _ _ (fun _ => 0)); [destruct (_ && _); [now apply ct_keep|now apply ct_ret]|intros net].
  apply (ct_bind _ _ (fun _ => 0)); [now apply ct_keep|intros g].
  apply (ct_bind _ _ (rows_in rows)); [|intros ps; apply ct_ret; cbn [h_properties]; lia].
  apply ct_section. intros s n x s' n'. apply ct_rdict.
Qed.

Definition body_elements (b : body) : Z :=
  lenZ (b_levels b) + lenZ (b_keyframes b) + lenZ (b_debug_info b) + lenZ (b_tick_marks b) + lenZ (b_packages b) +
  lenZ (b_objects b) + lenZ (b_names b) + lenZ (b_class_indices b) + lenZ (b_net_cache b) + cached (b_net_cache b).
Lemma total_cached l : total (fun c => lenZ (nc_properties c)) l = cached l.
Proof. induction l; cbn; congruence. Qed.
Lemma ct_body : counts c_parse_body body_elements.
Proof.
  unfold c_parse_body.
  eapply ct_bind; [apply ct_section, ct_flat|intros levels].
  eapply ct_bind; [apply ct_section, ct_flat|intros kf].
  apply (ct_bind _ _ (fun _ => 0)); [now apply ct_keep|intros size].
  apply (ct_bind _ _ (fun _ => 0)); [now apply ct_keep|intros net].
  eapply ct_bind; [apply ct_section, ct_flat|intros dbg].
  eapply ct_bind; [apply ct_section, ct_flat|intros ticks].
  eapply ct_bind; [apply ct_section, ct_flat|intros packages].
  eapply ct_bind; [apply ct_section, ct_flat|intros objects].
  eapply ct_bind; [apply ct_section, ct_flat|intros names].
  eapply ct_bind; [apply ct_section, ct_flat|intros ci].
  eapply ct_bind; [apply ct_section, (ct_list_of _ (fun c => lenZ (nc_properties c)))|intros nc].
  - apply (ct_bind _ _ (fun _ => 0)); [now apply ct_keep|intros o].
    apply (ct_bind _ _ (fun _ => 0)); [now apply ct_keep|intros p].
    apply (ct_bind _ _ (fun _ => 0)); [now apply ct_keep|intros c].
    eapply ct_bind; [apply ct_flat|intros ps]. apply ct_ret. cbn [nc_properties]. lia.
  - apply ct_ret. unfold body_elements. cbn [b_levels b_keyframes b_debug_info b_tick_marks b_packages b_objects b_names b_class_indices b_net_cache].
    rewrite total_cached. lia.
Qed.

Section Exact.
Context (B : bitter) (ho : hash_order).

Lemma replay_count check np s n r s' n' : c_parse_replay B ho check np (s, n) = (Ok r, (s', n')) ->
  exists h b st, r_properties r = h_properties h /\
    n' = n + elements r + frame_slots ho np h b /\
    parse_network B ho np h b st = (Ok (r_network_frames r), st).
Proof.
  intros E. unfold c_parse_replay in E.
  apply bind_inv in E as (hs & [s1 n1] & E1 & E). apply (ct_keep _ (fun _ => 0)) in E1; [|reflexivity].
  apply bind_inv in E as (hc & [s2 n2] & E2 & E). apply (ct_keep _ (fun _ => 0)) in E2; [|reflexivity].
  apply bind_inv in E as (hd & [s3 n3] & E3 & E). apply (ct_keep _ (fun _ => 0)) in E3; [|reflexivity].
  apply bind_inv in E as (h & [s4 n4] & E4 & E). apply (ct_crc _ _ _ _ _ _ ct_header) in E4.
  apply bind_inv in E as (cs & [s5 n5] & E5 & E). apply (ct_keep _ (fun _ => 0)) in E5; [|reflexivity].
  apply bind_inv in E as (cc & [s6 n6] & E6 & E). apply (ct_keep _ (fun _ => 0)) in E6; [|reflexivity].
  apply bind_inv in E as (cd & [s7 n7] & E7 & E). apply (ct_keep _ (fun _ => 0)) in E7; [|reflexivity].
  apply bind_inv in E as (b & [s8 n8] & E8 & E). apply (ct_crc _ _ _ _ _ _ ct_body) in E8.
  apply bind_inv in E as (u & [s9 n9] & E9 & E). injection E9 as _ <- <-.
  apply bind_inv in E as (fs & [s10 n10] & E10 & E). injection E as <- <- <-.
  exists h, b, s8. split; [reflexivity|]. pose proof E10 as E11. apply (ct_keep _ (fun _ => 0)) in E10; [|reflexivity]. split.
  - unfold elements. cbn. unfold body_elements in E8. lia.
  - unfold keep in E11. cbn [fst snd] in E11. cbn [r_network_frames].
    revert E11. unfold parse_network. destruct np; try (intros [= <-]; reflexivity);
      destruct (network_parse_frames B ho h b); try discriminate; intros [= <-]; reflexivity.
Qed.

Lemma slots_frames np h b fs st : parse_network B ho np h b st = (Ok (Some fs), st) ->
  frame_slots ho np h b = match num_frames h with Some k => as_usize k | None => 0 end.
Proof.
  intros E. assert (N : np <> NetNever /\ network_parse_frames B ho h b = Ok fs).
  { revert E. unfold parse_network. destruct np; try discriminate; destruct (network_parse_frames B ho h b); try discriminate;
      intros [= ->]; split; congruence. }
  destruct N as [N E']. revert E'. unfold network_parse_frames, frame_slots.
  destruct np; [|congruence|];
    (destruct (compute_spawns _ _); try discriminate; cbn [obind];
     destruct (compute_caches _ _ _ _); try discriminate; cbn [obind];
     destruct (num_frames h) as [k|]; [|reflexivity]; destruct (_ <? _); [discriminate|reflexivity]).
Qed.

Context (HB : bitter_ok B) (Hho : hash_order_ok ho).
Lemma reserved_exact c n data r : lenZ data < 2 ^ 31 -> parse_with B ho c n data = Ok r ->
  let R := snd (reserved B ho c n data) in
  (n = NetNever -> R = elements r) /\
  (r_network_frames r <> None ->
     (forall k, replay_int r "NumFrames" k -> R = elements r + k) /\
     ((forall k, ~ replay_int r "NumFrames" k) -> R = elements r)).
Proof.
  intros L E. pose proof (parse_ok_file B ho data c n r L E) as (h0 & b0 & rest & F & Er).
  pose proof (nr_frames _ _ (file_ready _ _ _ _ F)) as NR.
  assert (Ep : h_properties (sec_value h0) = r_properties r) by (rewrite Er; reflexivity).
  pose proof (reserved_accepted B ho c n data r E) as Bd.
  rewrite <- reserved_same in E. unfold reserved in *.
  destruct (c_parse_replay B ho c n (core_new data, 0)) as [o [s' n']] eqn:E'. cbn [fst snd] in *. subst o.
  apply replay_count in E' as (h & b & st & P & -> & N). cbn [snd].
  assert (EL : 0 <= elements r).
  { assert (RP : forall f, (forall p, 0 <= f p) -> forall ps, 0 <= rows_in f ps).
    { intros f Hf ps. induction ps as [|[k p] ps IH]; cbn; [lia|]. specialize (Hf p). lia. }
    assert (RR : forall p, 0 <= rows p).
    { fix IH 1. intros [rs| | | | | | | |nm fs]; cbn [rows]; try lia.
      - pose proof (lenZ_nonneg rs). enough (0 <= rows_all rows rs) by lia.
        revert rs H. fix IHr 1. intros [|r0 rs] H; cbn [rows_all]; [lia|]. specialize (IHr rs (lenZ_nonneg rs)).
        enough (0 <= rows_in rows r0) by lia. clear IHr H. revert r0. fix IHp 1. intros [|[k p] ps]; cbn [rows_in]; [lia|].
        specialize (IHp ps). specialize (IH p). lia.
      - revert fs. fix IHp 1. intros [|[k p] ps]; cbn [rows_in]; [lia|]. specialize (IHp ps). specialize (IH p). lia. }
    specialize (RP rows RR (r_properties r)). unfold elements.
    assert (0 <= cached (r_net_cache r)).
    { induction (r_net_cache r) as [|x l IH]; cbn; [lia|]. pose proof (lenZ_nonneg (nc_properties x)). lia. }
    pose proof (lenZ_nonneg (r_levels r)). pose proof (lenZ_nonneg (r_keyframes r)). pose proof (lenZ_nonneg (r_debug_info r)).
    pose proof (lenZ_nonneg (r_tick_marks r)). pose proof (lenZ_nonneg (r_packages r)). pose proof (lenZ_nonneg (r_objects r)).
    pose proof (lenZ_nonneg (r_names r)). pose proof (lenZ_nonneg (r_class_indices r)). pose proof (lenZ_nonneg (r_net_cache r)). lia. }
  split.
  - intros ->. unfold frame_slots. cbn. lia.
  - intros SF. destruct (r_network_frames r) as [fs|]; [|congruence]. apply slots_frames in N. rewrite N in *. split.
    + intros k Hk. unfold replay_int in Hk. rewrite P in Hk. apply num_frames_entry in Hk. rewrite Hk in *.
      assert (I : is_i32 k).
      { apply NR. apply num_frames_entry. rewrite Ep, P. apply num_frames_entry. exact Hk. }
      unfold is_i32 in I. pose proof (usize_pos k).
      assert (as_usize k = k); [|lia].
      unfold as_usize in *. Z.div_mod_to_equations. lia.
    + intros Hk. destruct (num_frames h) as [k|] eqn:Ek; [|lia]. exfalso. apply (Hk k). unfold replay_int. rewrite P.
      now apply num_frames_entry.
Qed.
End Exact.
