(** * How large the attribute tables get *)

From Coq Require Import ZArith List Bool Lia ZifyBool ZifyNat Permutation.
From Verif Require Import Base F32 Text NetTypes SegArray Errors Core Header Body BitReader NetModels Data ObjectIndex
  Network Parser SpecText SpecBasic SpecNet SpecFrames SpecFile SpecReplay SpecSize SpecTable
  BasicProofs HierarchyProofs MapProofs TableProofs CacheProofs TableFacts NetworkProofs TextProofs CoreLogic
  FormatProofs FileProofs FileFacts ParseProofs SizeProofs NestProofs.
Open Scope Z_scope.
#[local] Opaque PARENT_CLASSES SPAWN_STATS ATTRIBUTES.

(** ** Upper bound *)

Lemma total_le {A} (f : A -> Z) l k : (forall x, In x l -> f x <= k) -> total f l <= len l * k.
Proof.
  induction l as [|x l IH]; intros H; [reflexivity|]. rewrite total_cons. cbn [length].
  pose proof (H x (or_introl eq_refl)). assert (total f l <= len l * k) by (apply IH; intros y Hy; apply H; now right).
  nia.
Qed.
Lemma total_ge {A} (f : A -> Z) l k : (forall x, In x l -> k <= f x) -> len l * k <= total f l.
Proof.
  induction l as [|x l IH]; intros H; [reflexivity|]. rewrite total_cons. cbn [length].
  pose proof (H x (or_introl eq_refl)). assert (len l * k <= total f l) by (apply IH; intros y Hy; apply H; now right).
  nia.
Qed.

Lemma setZ_total {A} (l : list (option A)) : forall i x l', setZ i (Some x) l = Some l' ->
  total (maybe (fun _ => 1)) l' <= total (maybe (fun _ => 1)) l + 1.
Proof.
  induction l as [|y l IH]; intros i x l' H; cbn [setZ] in H; [discriminate|].
  destruct (i =? 0).
  - injection H as <-. rewrite !total_cons. cbn [maybe]. destruct y; cbn [maybe]; lia.
  - destruct (setZ (i - 1) (Some x) l) as [m|] eqn:E; [|discriminate]. injection H as <-.
    apply IH in E. rewrite !total_cons. lia.
Qed.
Lemma map_insert_len {V} k (v : V) m : len (map_insert k v m) <= len m + 1.
Proof.
  induction m as [|[j w] m IH]; cbn [map_insert length]; [lia|].
  destruct (_ <? _); [|destruct (_ =? _)]; cbn [length] in *; lia.
Qed.
Lemma filled_insert k v s : filled (seg_insert k v s) <= filled s + 1.
Proof.
  unfold seg_insert, raw_insert, filled. destruct (setZ _ _ _) as [a|] eqn:E; cbn [sg_array sg_map].
  - apply setZ_total in E. lia.
  - pose proof (map_insert_len (as_usize k) v (sg_map s)). lia.
Qed.
Lemma filled_fill l : forall s : seg_array object_attribute,
  filled (fold_left (fun a kv => seg_insert (fst kv) (snd kv) a) l s) <= filled s + len l.
Proof.
  induction l as [|x l IH]; intros s; cbn [fold_left length]; [lia|].
  pose proof (IH (seg_insert (fst x) (snd x) s)). pose proof (filled_insert (fst x) (snd x) s). lia.
Qed.

Lemma listed_length caches : properties_listed caches = len (flat_map nc_properties caches).
Proof.
  unfold properties_listed. induction caches as [|c caches IH]; [reflexivity|].
  rewrite total_cons, IH. cbn [flat_map]. rewrite app_length. lia.
Qed.

Lemma table_length objects caches ids :
  len (table objects caches ids) <= properties_listed caches.
Proof.
  rewrite listed_length.
  assert (H : (length (map fst (table objects caches ids)) <= length (map cp_stream_id (flat_map nc_properties caches)))%nat).
  { apply NoDup_incl_length.
    - apply sorted_nodup, table_sorted.
    - intros k Hk. destruct (map_get k (table objects caches ids)) as [a|] eqn:E.
      2: { apply map_get_none in E. tauto. }
      unfold table in E. rewrite map_get_extend in E. cbn [map_get] in E.
      destruct (last_of k (tbl objects caches ids)) as [a'|] eqn:E'; [|discriminate].
      apply last_of_in in E'. unfold tbl in E'. apply in_flat_map in E' as (id & _ & Hin).
      apply in_map_iff in Hin as (p & Ep & Hp). unfold listed in Hp.
      apply in_flat_map in Hp as (c & Hc & Hp). apply filter_In in Hc as [Hc _].
      unfold conv in Ep. injection Ep as <- _. apply in_map_iff. exists p. split; [reflexivity|].
      apply in_flat_map. eauto. }
  rewrite !map_length in H. lia.
Qed.

Lemma tables_bound ho objects caches v : hash_order_ok ho -> lenZ objects <= 2 ^ 31 -> net_cache_ok caches ->
  compute_caches ho (object_index_new objects) objects caches = Ok v ->
  tables_size v <= lenZ objects * properties_listed caches.
Proof.
  intros Ho L CI Ev. destruct (compute_caches_ok objects L caches ho Ho CI) as [[G (v' & Ev' & Lv & Hv)]|(x & _ & E)]; [|congruence].
  rewrite Ev in Ev'. injection Ev' as <-. unfold lenZ. rewrite <- Lv. apply total_le.
  intros [ci|] Hx; cbn [maybe].
  2: { rewrite listed_length. lia. }
  apply In_nth_error in Hx as [i Hi].
  assert (getZ (Z.of_nat i) v = Some (Some ci)) as Hg by (rewrite getZ_nth, Nat2Z.id by lia; exact Hi).
  apply Hv in Hg as (m & (name & ids & _ & _ & ->) & ->). unfold cache_info_at, cache_info_of. cbn [ci_attributes].
  eapply Z.le_trans; [apply filled_fill|]. pose proof (table_length objects caches (Z.of_nat i :: ids)).
  change (filled (seg_new 64)) with 0. lia.
Qed.

(** eight bytes for every listed property *)
Lemma fp_cache_prop_64 : fpays f_cache_prop (fun _ => 64).
Proof. intros i v o H. unfold f_cache_prop in H. spread. lia. Qed.
Lemma fp_net_cache_64 : fpays f_net_cache (fun c => 64 * len (nc_properties c)).
Proof.
  intros i v o H. unfold f_net_cache in H. spread.
  match goal with H : f_list _ _ _ _ |- _ => apply (fp_list _ _ fp_cache_prop_64) in H end.
  assert (E : forall l : list cache_prop, total (fun _ => 64) l = 64 * len l).
  { induction l as [|y l IH]; [reflexivity|]. rewrite total_cons, IH. cbn [length]. lia. }
  rewrite E in *. cbn [nc_properties]. lia.
Qed.
Lemma fp_body_props : fpays f_body (fun b => 64 * properties_listed (b_net_cache b)).
Proof.
  intros i v o H. unfold f_body in H. spread.
  assert (E : forall l, total (fun c => 64 * len (nc_properties c)) l = 64 * properties_listed l).
  { unfold properties_listed. induction l as [|y l IH]; [reflexivity|]. rewrite !total_cons, IH. lia. }
  repeat match goal with
  | H : f_list f_text _ ?l _ |- _ => apply fp_texts in H; assert (0 <= texts_size l) by
      (apply total_nonneg; intros s; pose proof (text_nonneg s); lia)
  | H : f_list f_keyframe _ _ _ |- _ => apply (fp_list _ _ fp_keyframe) in H; rewrite total_one in H
  | H : f_list f_debug _ ?l _ |- _ => apply (fp_list _ _ fp_debug) in H;
      assert (0 <= total (fun d => 1 + text_size (di_user d) + text_size (di_text d)) l) by
      (apply total_nonneg; intros s; pose proof (text_nonneg (di_user s)); pose proof (text_nonneg (di_text s)); lia)
  | H : f_list f_tickmark _ ?l _ |- _ => apply (fp_list _ _ fp_tickmark) in H;
      assert (0 <= total (fun t => 1 + text_size (tm_description t)) l) by
      (apply total_nonneg; intros s; pose proof (text_nonneg (tm_description s)); lia)
  | H : f_list f_class_index _ ?l _ |- _ => apply (fp_list _ _ fp_class_index) in H;
      assert (0 <= total (fun t => 1 + text_size (cx_class t)) l) by
      (apply total_nonneg; intros s; pose proof (text_nonneg (cx_class s)); lia)
  | H : f_list f_net_cache _ _ _ |- _ => apply (fp_list _ _ fp_net_cache_64) in H; rewrite E in H
  | H : f_network _ _ _ |- _ => apply fp_network in H
  end.
  cbn [b_net_cache]. lia.
Qed.

Lemma tables_bound_file ho data h b rest v : hash_order_ok ho -> f_file data (h, b) rest ->
  compute_caches ho (object_index_new (b_objects (sec_value b))) (b_objects (sec_value b)) (b_net_cache (sec_value b)) = Ok v ->
  8 * tables_size v <= 25000 * lenZ data.
Proof.
  intros Ho F Ev. pose proof (file_ready _ _ _ _ F) as [Lo _ Hc _].
  pose proof (tables_bound _ _ _ _ Ho Lo Hc Ev) as T.
  assert (lenZ (b_objects (sec_value b)) <= 25000).
  { pose proof (file_small _ _ _ _ None F) as (_ & S). unfold lenZ. cbn in S. tauto. }
  assert (64 * properties_listed (b_net_cache (sec_value b)) <= 8 * lenZ data).
  { destruct F as (h' & m & Hh & b' & m' & Hb & E & _). injection E as -> ->.
    destruct Hh as (hs & hc & hcov & hm & hv & (m1 & D1 & D2 & _) & Hh & _).
    apply fp_i32 in D1. apply fp_u32 in D2. apply header_shrinks in Hh.
    destruct Hb as (bs & bc & bcov & bm & bv & (m2 & D3 & D4 & _) & Hb & ->).
    apply fp_i32 in D3. apply fp_u32 in D4. apply fp_body_props in Hb. cbn [sec_value]. unfold lenZ. lia. }
  assert (0 <= properties_listed (b_net_cache (sec_value b))) by (rewrite listed_length; lia).
  nia.
Qed.

(** ** Files whose tables are large *)

(** [x] as four little-endian bytes *)
Definition le1 (x : Z) : byte := match Byte.of_N (Z.to_N (x mod 256)) with Some b => b | None => x00 end.
Definition le4 (x : Z) : bytes := [le1 x; le1 (x / 256); le1 (x / 256 / 256); le1 (x / 256 / 256 / 256)].

Lemma le1_is x : is (le1 x) (x mod 256).
Proof.
  unfold le1, is. pose proof (Z.mod_pos_bound x 256 ltac:(lia)) as R.
  destruct (Byte.of_N (Z.to_N (x mod 256))) as [b|] eqn:E.
  - apply Byte.to_of_N in E. rewrite E. lia.
  - apply Byte.of_N_None_iff in E. lia.
Qed.
Lemma le4_little x : little_endian x (le4 x).
Proof. unfold le4, little_endian. repeat split; apply le1_is. Qed.
Lemma f_le4 x rest : - 2 ^ 31 <= x < 2 ^ 31 -> f_i32 (le4 x ++ rest) x rest.
Proof. intros R. apply f_i32_le; [reflexivity|exact R|apply le4_little]. Qed.

Lemma f_times_enc {A C} (P : form C) (enc : A -> bytes) (val : A -> C) l :
  (forall x rest, In x l -> P (enc x ++ rest) (val x) rest) ->
  forall rest, f_times (length l) P (concat (map enc l) ++ rest) (map val l) rest.
Proof.
  induction l as [|x l IH]; intros H rest; cbn [length f_times map concat app]; [split; reflexivity|].
  rewrite <- app_assoc. eexists _, _. split; [apply H; now left|].
  eexists _, _. split; [apply IH; intros y r Hy; apply H; now right|]. split; reflexivity.
Qed.
Lemma f_list_enc {A C} (P : form C) (enc : A -> bytes) (val : A -> C) l :
  (length l <= Z.to_nat 25000)%nat ->
  (forall x rest, In x l -> P (enc x ++ rest) (val x) rest) ->
  forall rest, f_list P (le4 (len l) ++ concat (map enc l) ++ rest) (map val l) rest.
Proof.
  intros L H rest. exists (len l). eexists. split; [apply f_le4; lia|].
  unfold f_counted. replace ((len l <? 0) || (25000 <? len l)) with false by lia.
  rewrite Nat2Z.id. now apply f_times_enc.
Qed.

Definition text_bytes (s : str) : bytes := le4 (len s + 1) ++ s ++ [x00].
Definition plain (b : byte) : Prop := utf8_encode [cp1252_char b] = [b].
Lemma plain_text s rest : Forall plain s -> len s < 1000 -> f_text (text_bytes s ++ rest) s rest.
Proof.
  intros H L. unfold text_bytes. rewrite <- !app_assoc. exists (len s + 1). eexists. split; [apply f_le4; lia|].
  replace ((len s + 1 <? -10000) || (10000 <? len s + 1)) with false by lia.
  replace (len s + 1 <? 0) with false by lia.
  exists (s ++ [x00]). split; [split; [rewrite app_length; cbn [length]; lia|now rewrite <- app_assoc]|].
  rewrite removelast_snoc. apply decode_cp1252_spec. unfold decode_cp1252.
  clear L. induction H as [|b s Hb _ IH]; [reflexivity|]. cbn [map].
  unfold utf8_encode in *. cbn [flat_map map concat] in *. unfold plain in Hb. cbn in Hb. rewrite app_nil_r in Hb.
  rewrite Hb. cbn [app]. now rewrite <- IH.
Qed.

Definition digit (x : Z) : byte := nth (Z.to_nat (x mod 16)) (lit "0123456789abcdef") x00.
(** an instance of a level class, told apart by four digits *)
Definition crowd (i : Z) : str :=
  lit "TheWorld:PersistentLevel.CrowdActor_TA_" ++ [digit (i / 16 / 16 / 16); digit (i / 16 / 16); digit (i / 16); digit i].

Lemma below_16 (P : nat -> Prop) : P 0%nat -> P 1%nat -> P 2%nat -> P 3%nat -> P 4%nat -> P 5%nat -> P 6%nat -> P 7%nat ->
  P 8%nat -> P 9%nat -> P 10%nat -> P 11%nat -> P 12%nat -> P 13%nat -> P 14%nat -> P 15%nat -> forall n, (n < 16)%nat -> P n.
Proof. intros. do 16 (destruct n as [|n]; [assumption|]). lia. Qed.
Lemma digit_plain x : plain (digit x).
Proof.
  unfold digit. assert (H : (Z.to_nat (x mod 16) < 16)%nat) by (pose proof (Z.mod_pos_bound x 16 ltac:(lia)); lia).
  revert H. generalize (Z.to_nat (x mod 16)). apply below_16; reflexivity.
Qed.
Lemma digit_inj x y : digit x = digit y -> x mod 16 = y mod 16.
Proof.
  unfold digit. pose proof (Z.mod_pos_bound x 16 ltac:(lia)) as Hx. pose proof (Z.mod_pos_bound y 16 ltac:(lia)) as Hy.
  assert (Kx : (Z.to_nat (x mod 16) < 16)%nat) by lia. assert (Ky : (Z.to_nat (y mod 16) < 16)%nat) by lia.
  intros E. enough (Z.to_nat (x mod 16) = Z.to_nat (y mod 16)) by lia.
  assert (N : NoDup (lit "0123456789abcdef")).
  { repeat constructor; cbn [In lit]; vm_compute; intuition discriminate. }
  rewrite (NoDup_nth _ x00) in N. apply N; auto.
Qed.
Lemma crowd_inj i j : 0 <= i < 65536 -> 0 <= j < 65536 -> crowd i = crowd j -> i = j.
Proof.
  intros Hi Hj E. unfold crowd in E. apply app_inv_head in E. injection E as E1 E2 E3 E4.
  apply digit_inj in E1, E2, E3, E4.
  assert (i / 16 / 16 / 16 < 16) by (rewrite !Z.div_div by lia; apply Z.div_lt_upper_bound; lia).
  assert (j / 16 / 16 / 16 < 16) by (rewrite !Z.div_div by lia; apply Z.div_lt_upper_bound; lia).
  assert (0 <= i / 16 / 16 / 16) by (rewrite !Z.div_div by lia; apply Z.div_pos; lia).
  assert (0 <= j / 16 / 16 / 16) by (rewrite !Z.div_div by lia; apply Z.div_pos; lia).
  rewrite (Z.mod_small (i / 16 / 16 / 16)), (Z.mod_small (j / 16 / 16 / 16)) in E1 by lia.
  pose proof (Z.div_mod i 16 ltac:(lia)). pose proof (Z.div_mod j 16 ltac:(lia)).
  pose proof (Z.div_mod (i / 16) 16 ltac:(lia)). pose proof (Z.div_mod (j / 16) 16 ltac:(lia)).
  pose proof (Z.div_mod (i / 16 / 16) 16 ltac:(lia)). pose proof (Z.div_mod (j / 16 / 16) 16 ltac:(lia)). lia.
Qed.
Lemma crowd_plain i : Forall plain (crowd i).
Proof.
  unfold crowd. apply Forall_app. split; [repeat (apply Forall_cons; [reflexivity|]); apply Forall_nil|].
  repeat (apply Forall_cons; [apply digit_plain|]). apply Forall_nil.
Qed.
Lemma crowd_length i : len (crowd i) = 43.
Proof. reflexivity. Qed.

Definition actor : str := lit "TAGame.CrowdActor_TA".
Definition first_n (n : nat) : list Z := map Z.of_nat (seq 0 n).
Definition crowd_names (n : nat) : list str := actor :: map crowd (first_n n).
Definition crowd_props (m : nat) : list cache_prop := map (fun s => mkCacheProp 0 s) (first_n m).
Definition crowd_cache (m : nat) : list class_net_cache := [mkNetCache 0 0 0 (crowd_props m)].
Definition crowd_body (n m : nat) : body := mkBody [] [] [] [] [] (crowd_names n) [] [] (crowd_cache m) [].

Definition crowd_bytes (n m : nat) : bytes :=
  repeat x00 24 ++
  (le4 (len (actor :: map crowd (first_n n))) ++ concat (map text_bytes (actor :: map crowd (first_n n)))) ++
  repeat x00 8 ++
  le4 1 ++ repeat x00 12 ++
  (le4 (len (first_n m)) ++ concat (map (fun s => le4 0 ++ le4 s) (first_n m))).
Definition crowd_file (n m : nat) : bytes :=
  repeat x00 8 ++ deep_header 0 ++ repeat x00 8 ++ crowd_bytes n m.

Lemma in_first_n n x : In x (first_n n) <-> 0 <= x < Z.of_nat n.
Proof.
  unfold first_n. rewrite in_map_iff. split.
  - intros (i & <- & Hi). apply in_seq in Hi. lia.
  - intros H. exists (Z.to_nat x). split; [lia|]. apply in_seq. lia.
Qed.
Lemma first_n_length n : length (first_n n) = n.
Proof. unfold first_n. now rewrite map_length, seq_length. Qed.

Lemma no_list {A} (P : form A) rest : f_list P (repeat x00 4 ++ rest) [] rest.
Proof.
  exists 0. eexists. split; [apply (f_le4 0); lia|]. split; reflexivity.
Qed.

Lemma crowd_parses n m : (n < Z.to_nat 25000)%nat -> (m <= Z.to_nat 25000)%nat ->
  f_body (crowd_bytes n m) (crowd_body n m) [].
Proof.
  intros Ln Lm. unfold crowd_bytes.
  change (repeat x00 24) with (repeat x00 4 ++ repeat x00 4 ++ repeat x00 4 ++ repeat x00 4 ++ repeat x00 4 ++ repeat x00 4).
  change (repeat x00 8) with (repeat x00 4 ++ repeat x00 4).
  change (repeat x00 12) with (le4 0 ++ le4 0 ++ le4 0). rewrite <- !app_assoc.
  eexists _, _. split; [apply no_list|]. eexists _, _. split; [apply no_list|].
  eexists [], _. split.
  { exists 0. eexists. split; [apply (f_le4 0); lia|]. split; reflexivity. }
  eexists _, _. split; [apply no_list|]. eexists _, _. split; [apply no_list|]. eexists _, _. split; [apply no_list|].
  exists (crowd_names n). eexists. split.
  { unfold crowd_names at 1. pose proof (f_list_enc f_text text_bytes (fun s => s) (crowd_names n)) as H.
    rewrite map_id in H. apply H.
    - unfold crowd_names. cbn [length]. rewrite map_length, first_n_length. lia.
    - intros s rest [<-|Hs].
      + apply plain_text; [repeat (apply Forall_cons; [reflexivity|]); apply Forall_nil|cbn; lia].
      + apply in_map_iff in Hs as (i & <- & _). apply plain_text; [apply crowd_plain|rewrite crowd_length; lia]. }
  eexists _, _. split; [apply no_list|]. eexists _, _. split; [apply no_list|].
  exists (crowd_cache m), []. split; [|split; reflexivity].
  exists 1. eexists. split; [apply f_le4; lia|]. cbn [f_counted].
  eexists _, _. split; [|eexists _, _; split; [split; reflexivity|split; reflexivity]].
  eexists _, _. split; [apply f_le4; lia|]. eexists _, _. split; [apply f_le4; lia|]. eexists _, _. split; [apply f_le4; lia|].
  exists (crowd_props m), []. split; [|split; reflexivity].
  rewrite <- (app_nil_r (concat _)).
  apply (f_list_enc f_cache_prop (fun s => le4 0 ++ le4 s) (fun s => mkCacheProp 0 s)).
  - rewrite first_n_length. lia.
  - intros x rest Hx. apply in_first_n in Hx. rewrite <- app_assoc.
    eexists _, _. split; [apply f_le4; lia|]. eexists _, _. split; [apply f_le4; lia|]. split; reflexivity.
Qed.

Lemma crowd_file_length n m : len (crowd_file n m) = 48 * Z.of_nat n + 8 * Z.of_nat m + 118.
Proof.
  assert (H1 : forall l, len (concat (map text_bytes (map crowd l))) = 48 * len l).
  { induction l as [|x l IH]; [reflexivity|]. cbn [map concat]. rewrite app_length, Nat2Z.inj_add, IH.
    change (length (text_bytes (crowd x))) with 48%nat. cbn [length]. lia. }
  assert (H2 : forall l, len (concat (map (fun s => le4 0 ++ le4 s) l)) = 8 * len l).
  { induction l as [|x l IH]; [reflexivity|]. cbn [map concat]. rewrite app_length, Nat2Z.inj_add, IH.
    cbn [length]. change (length (le4 0 ++ le4 x)) with 8%nat. lia. }
  unfold crowd_file, crowd_bytes. rewrite !app_length, !Nat2Z.inj_add, H2. cbn [map concat]. rewrite app_length, Nat2Z.inj_add, H1.
  rewrite !first_n_length, !repeat_length.
  change (length (text_bytes actor)) with 25%nat. change (length (deep_header 0)) with 21%nat.
  change (length (le4 1)) with 4%nat.
  change (length (le4 (len (actor :: map crowd (first_n n))))) with 4%nat.
  change (length (le4 (Z.of_nat m))) with 4%nat. lia.
Qed.

Lemma crowd_file_parses n m : (n < Z.to_nat 25000)%nat -> (m <= Z.to_nat 25000)%nat ->
  f_file (crowd_file n m) (mkSection 0 0 [] (mkHeader 1 0 None [] []), mkSection 0 0 [] (crowd_body n m)) [].
Proof.
  intros Ln Lm. eexists. eexists. split.
  - eexists _, _, _, _, _. split; [apply declared_zero|]. split; [apply (deep_header_parses 0)|reflexivity].
  - eexists. eexists. split; [|split; reflexivity].
    eexists _, _, _, _, _. split; [apply declared_zero|]. split; [now apply crowd_parses|reflexivity].
Qed.

(** positions of the filled cells *)
Fixpoint cells {V} (i : Z) (l : list (option V)) : list Z :=
  match l with
  | [] => []
  | Some _ :: t => i :: cells (i + 1) t
  | None :: t => cells (i + 1) t
  end.
Lemma cells_length {V} (l : list (option V)) : forall i, len (cells i l) = total (maybe (fun _ => 1)) l.
Proof.
  induction l as [|[v|] l IH]; intros i; cbn [cells length]; [reflexivity| |]; rewrite total_cons; cbn [maybe]; rewrite <- (IH (i + 1)); lia.
Qed.
Lemma cells_in {V} (l : list (option V)) : forall i k v, getZ k l = Some (Some v) -> In (i + k) (cells i l).
Proof.
  induction l as [|x l IH]; intros i k v H; cbn [getZ] in H; [discriminate|].
  destruct (Z.eqb_spec k 0) as [->|N].
  - injection H as ->. cbn [cells]. left. lia.
  - apply (IH (i + 1)) in H. replace (i + 1 + (k - 1)) with (i + k) in H by lia.
    destruct x; cbn [cells In]; auto.
Qed.
Lemma filled_keys (s : seg_array object_attribute) keys : NoDup keys ->
  (forall k, In k keys -> raw_get k s <> None) -> len keys <= filled s.
Proof.
  intros N H. unfold filled. rewrite <- (cells_length _ 0).
  assert (I : (length keys <= length (cells 0 (sg_array s) ++ map fst (sg_map s)))%nat).
  { apply NoDup_incl_length; auto. intros k Hk. apply H in Hk. unfold raw_get in Hk. apply in_or_app.
    destruct (getZ k (sg_array s)) as [[v|]|] eqn:E; [left|congruence|right].
    - apply (cells_in _ 0) in E. now rewrite Z.add_0_l in E.
    - destruct (map_get k (sg_map s)) as [v|] eqn:E'; [|congruence].
      destruct (in_dec Z.eq_dec k (map fst (sg_map s))) as [K|K]; auto. apply map_get_none in K. congruence. }
  rewrite app_length, map_length in I. lia.
Qed.

Lemma crowd_parent i : parent (crowd i) actor.
Proof. apply parent_spec. change (normalize_object (crowd i)) with (lit "TheWorld:PersistentLevel.CrowdActor_TA"). vm_compute. reflexivity. Qed.

Lemma crowd_index n i : 0 <= i < Z.of_nat n -> Z.of_nat n <= 65536 -> first_index (crowd_names n) (crowd i) (i + 1).
Proof.
  intros Hi Hn. exists (actor :: map crowd (first_n (Z.to_nat i))).
  exists (map crowd (map Z.of_nat (seq (S (Z.to_nat i)) (n - S (Z.to_nat i))))).
  split; [|split].
  - unfold crowd_names. cbn [app]. f_equal. unfold first_n.
    replace n with (Z.to_nat i + S (n - S (Z.to_nat i)))%nat at 1 by lia.
    rewrite seq_app, !map_app. f_equal. cbn [seq map plus]. f_equal. f_equal. lia.
  - cbn [In]. intros [E|E]; [discriminate|]. apply in_map_iff in E as (j & E & Hj). apply in_first_n in Hj.
    apply crowd_inj in E; lia.
  - cbn [length]. rewrite map_length, first_n_length. lia.
Qed.

Lemma crowd_resolves n m i s : 0 <= i < Z.of_nat n -> Z.of_nat n <= 65536 -> 0 <= s < Z.of_nat m ->
  resolves (crowd_names n) (crowd_cache m) (crowd i) s (mkCacheProp 0 s).
Proof.
  intros Hi Hn Hs.
  assert (L : lenZ (crowd_names n) <= 2 ^ 31).
  { unfold lenZ, crowd_names. cbn [length]. rewrite map_length, first_n_length. lia. }
  destruct (class_ids_total (crowd_names n) L actor) as (ids0 & (l0 & Hl & Hids) & _).
  assert (F : first_index (crowd_names n) actor 0).
  { exists [], (map crowd (first_n n)). split; [reflexivity|]. split; [intros []|reflexivity]. }
  assert (exists t, ids0 = 0 :: t) as [t ->].
  { inversion Hl as [x T E1 E2|x q l P Q E1 E2]; subst.
    - exfalso. apply (T (lit "Engine.ReplicationInfo")). apply parent_spec. vm_compute. reflexivity.
    - inversion Hids as [|? ? j js J Js|? ? js J Js]; subst.
      + rewrite (first_index_fun _ _ _ _ L J F) in *. eauto.
      + exfalso. apply J. left. reflexivity. }
  exists (i + 1 :: 0 :: t). split.
  - exists (crowd i :: l0). split; [apply lin_up with actor; [apply crowd_parent|exact Hl]|].
    constructor; [now apply crowd_index|exact Hids].
  - exists [i + 1], 0, t. split; [reflexivity|]. split.
    + unfold mention, listed, crowd_cache. cbn [filter nc_object_ind Z.eqb flat_map nc_properties]. rewrite app_nil_r.
      exists (map (fun s => mkCacheProp 0 s) (first_n (Z.to_nat s))).
      exists (map (fun s => mkCacheProp 0 s) (map Z.of_nat (seq (S (Z.to_nat s)) (m - S (Z.to_nat s))))).
      split; [|split; [reflexivity|]].
      * unfold crowd_props, first_n. replace m with (Z.to_nat s + S (m - S (Z.to_nat s)))%nat at 1 by lia.
        rewrite seq_app, !map_app. f_equal. cbn [seq map plus]. f_equal. f_equal. lia.
      * intros q Hq. apply in_map_iff in Hq as (y & <- & Hy). apply in_map_iff in Hy as (z & <- & Hz).
        apply in_seq in Hz. cbn [cp_stream_id]. lia.
    + intros y z [<-|[]] (b & a & E & _). unfold listed, crowd_cache in E. cbn [filter nc_object_ind] in E.
      replace (0 =? i + 1) with false in E by lia. destruct b; discriminate E.
Qed.

Lemma crowd_tables ho n m : hash_order_ok ho -> Z.of_nat n <= 65536 -> Z.of_nat m < 2 ^ 31 ->
  exists v, compute_caches ho (object_index_new (crowd_names n)) (crowd_names n) (crowd_cache m) = Ok v /\
    Z.of_nat n * Z.of_nat m <= tables_size v.
Proof.
  intros Ho Hn Hm.
  assert (Ll : length (crowd_names n) = S n).
  { unfold crowd_names. cbn [length]. now rewrite map_length, first_n_length. }
  assert (L : lenZ (crowd_names n) <= 2 ^ 31) by (unfold lenZ; rewrite Ll; lia).
  assert (CI : net_cache_ok (crowd_cache m)).
  { repeat constructor. cbn [nc_properties]. apply Forall_forall. intros p Hp. apply in_map_iff in Hp as (s & <- & Hs).
    apply in_first_n in Hs. unfold is_i32. cbn [cp_object_ind cp_stream_id]. lia. }
  assert (Pr : props_in_range (crowd_names n) (crowd_cache m)).
  { intros p Hp. cbn [crowd_cache flat_map nc_properties] in Hp. rewrite app_nil_r in Hp.
    apply in_map_iff in Hp as (s & <- & _). exists actor. split; [reflexivity|]. reflexivity. }
  destruct (attribute_table ho _ _ Ho L CI Pr) as (v & Ev & Hv). exists v. split; [exact Ev|].
  assert (Lv : length v = S n).
  { destruct (compute_caches_ok _ L _ ho Ho CI) as [[G (v' & Ev' & Lv & _)]|(x & _ & E)]; [|congruence].
    rewrite Ev in Ev'. injection Ev' as <-. congruence. }
  destruct v as [|first v]; [discriminate Lv|]. cbn [length] in Lv. injection Lv as Lv.
  unfold tables_size. rewrite total_cons.
  assert (0 <= maybe (fun ci => filled (ci_attributes ci)) first).
  { destruct first as [ci|]; cbn [maybe]; [|lia]. unfold filled.
    assert (0 <= total (maybe (fun _ => 1)) (sg_array (ci_attributes ci))); [|lia].
    apply total_nonneg. intros [x|]; cbn [maybe]; lia. }
  enough (len v * Z.of_nat m <= total (maybe (fun ci => filled (ci_attributes ci))) v) by (rewrite Lv in *; lia).
  apply total_ge. intros x Hx. apply In_nth_error in Hx as [i Hi].
  assert (i < n)%nat by (rewrite <- Lv; apply nth_error_Some; congruence).
  destruct (Hv (Z.of_nat i + 1) (crowd (Z.of_nat i))) as (ci & Hci & T).
  { split; [apply crowd_index; lia|]. exists actor. apply crowd_parent. }
  cbn [getZ] in Hci. replace (Z.of_nat i + 1 =? 0) with false in Hci by lia.
  rewrite Z.add_simpl_r, getZ_nth, Nat2Z.id, Hi in Hci by lia. injection Hci as ->. cbn [maybe].
  rewrite <- (first_n_length m). apply filled_keys.
  - unfold first_n. apply FinFun.Injective_map_NoDup; [exact Nat2Z.inj|apply seq_NoDup].
  - intros s Hs. apply in_first_n in Hs. rewrite <- (as_usize_nonneg s) by lia.
    change (seg_get s (ci_attributes ci) <> None).
    assert (exists tag, kind_of actor tag) as [tag Ht] by (eexists; now apply kind_of_spec).
    assert (E : seg_get s (ci_attributes ci) = Some (mkObjAttr tag 0)).
    { apply T; [unfold is_i32; lia|]. exists (mkCacheProp 0 s), actor.
      split; [apply crowd_resolves; lia|]. split; [split; reflexivity|]. split; [exact Ht|reflexivity]. }
    congruence.
Qed.

(** the files are accepted with the default settings *)
Lemma crowd_accepted B ho n m : hash_order_ok ho -> (n < Z.to_nat 25000)%nat -> (m <= Z.to_nat 25000)%nat ->
  parse_with B ho CrcOnError NetIgnoreOnError (crowd_file n m) =
    Ok (replay_of (mkSection 0 0 [] (mkHeader 1 0 None [] [])) (mkSection 0 0 [] (crowd_body n m)) (Some [])).
Proof.
  intros Ho Ln Lm. assert (L : lenZ (crowd_file n m) < 2 ^ 31) by (unfold lenZ; rewrite crowd_file_length; lia).
  rewrite (fate_file B ho _ _ _ _ L (crowd_file_parses n m Ln Lm)).
  cbn [mismatch sec_crc sec_bytes sec_value].
  unfold network_parse_frames. cbn [crowd_body b_objects b_net_cache].
  destruct (spawn_table (crowd_names n)) as (sp & -> & _).
  { unfold lenZ, crowd_names. cbn [length]. rewrite map_length, first_n_length. lia. }
  destruct (crowd_tables ho n m Ho ltac:(lia) ltac:(lia)) as (v & -> & _). reflexivity.
Qed.

Lemma tables_grow n m : 0 <= n < 25000 -> 0 <= m <= 25000 -> exists data h b rest,
  f_file data (h, b) rest /\ lenZ data = 48 * n + 8 * m + 118 /\
  forall B ho, hash_order_ok ho ->
    (exists r, parse_with B ho CrcOnError NetIgnoreOnError data = Ok r) /\
    exists v, compute_caches ho (object_index_new (b_objects (sec_value b))) (b_objects (sec_value b))
                (b_net_cache (sec_value b)) = Ok v /\ n * m <= tables_size v.
Proof.
  intros Hn Hm. exists (crowd_file (Z.to_nat n) (Z.to_nat m)). eexists _, _, _.
  split; [apply crowd_file_parses; lia|]. split; [unfold lenZ; rewrite crowd_file_length; lia|].
  intros B ho Ho. split; [eexists; apply crowd_accepted; auto; lia|].
  destruct (crowd_tables ho (Z.to_nat n) (Z.to_nat m) Ho ltac:(lia) ltac:(lia)) as (v & Ev & Hv).
  exists v. split; [exact Ev|]. lia.
Qed.

Lemma tables_refuted : exists data h b rest, f_file data (h, b) rest /\ lenZ data < 2 ^ 31 /\
  forall B ho, hash_order_ok ho ->
    (exists r, parse_with B ho CrcOnError NetIgnoreOnError data = Ok r) /\
    exists v, compute_caches ho (object_index_new (b_objects (sec_value b))) (b_objects (sec_value b))
                (b_net_cache (sec_value b)) = Ok v /\ 400 * lenZ data < tables_size v.
Proof.
  destruct (tables_grow 24999 25000 ltac:(lia) ltac:(lia)) as (data & h & b & rest & F & L & H).
  exists data, h, b, rest. split; [exact F|]. split; [lia|]. intros B ho Ho.
  destruct (H B ho Ho) as (Hr & v & Ev & T). split; [exact Hr|]. exists v. split; [exact Ev|]. lia.
Qed.
