(** * Proofs: strings, builder, lookups, stores, level objects *)

From Coq Require Import ZArith List Bool Lia ZifyBool ZifyNat.
From Verif Require Import Base Text F32 NetTypes SegArray Core Header Body NetModels
  Data ObjectIndex Parser SpecBasic.
Open Scope Z_scope.

(** ** Strings *)

Lemma byte_eqb_spec a b : Byte.eqb a b = true <-> a = b.
Proof. split; [apply Byte.byte_dec_bl|apply Byte.byte_dec_lb]. Qed.

Lemma str_eqb_spec a b : str_eqb a b = true <-> a = b.
Proof.
  revert b; induction a as [|x a IH]; intros [|y b]; simpl; split; try discriminate; auto.
  - intros H. apply andb_true_iff in H as [H1 H2]. apply byte_eqb_spec in H1. apply IH in H2. congruence.
  - intros [= -> ->]. apply andb_true_iff. split; [now apply byte_eqb_spec|now apply IH].
Qed.

Lemma str_eqb_refl a : str_eqb a a = true.
Proof. now apply str_eqb_spec. Qed.

Lemma str_eqb_neq a b : str_eqb a b = false <-> a <> b.
Proof.
  rewrite <- str_eqb_spec. destruct (str_eqb a b); split; congruence.
Qed.

Lemma str_dec (a b : str) : {a = b} + {a <> b}.
Proof. destruct (str_eqb a b) eqn:E; [left; now apply str_eqb_spec|right; now apply str_eqb_neq]. Qed.

Lemma str_assoc_first {V} k (m : list (str * V)) v :
  str_assoc k m = Some v <-> exists b a, m = b ++ (k, v) :: a /\ ~ In k (map fst b).
Proof.
  induction m as [|[k' v'] m IH]; simpl.
  - split; [discriminate|]. intros ([|] & ? & E & _); discriminate.
  - destruct (str_eqb k k') eqn:E.
    + apply str_eqb_spec in E as <-. split.
      * intros [= ->]. exists [], m. split; auto.
      * intros ([|[k2 v2] b] & a & Eq & N); simpl in *; [congruence|].
        injection Eq as <- <- ->. tauto.
    + apply str_eqb_neq in E. rewrite IH. split.
      * intros (b & a & -> & N). exists ((k', v') :: b), a. split; auto. simpl. intuition.
      * intros ([|[k2 v2] b] & a & Eq & N); simpl in *; [congruence|].
        injection Eq as <- <- ->. exists b, a. intuition.
Qed.

Lemma str_assoc_none {V} k (m : list (str * V)) : str_assoc k m = None <-> ~ In k (map fst m).
Proof.
  induction m as [|[k' v'] m IH]; simpl; [tauto|].
  destruct (str_eqb k k') eqn:E.
  - apply str_eqb_spec in E. split; [discriminate|]. intros H. exfalso. apply H. auto.
  - apply str_eqb_neq in E. rewrite IH. intuition.
Qed.

Lemma str_assoc_nodup {V} k v (m : list (str * V)) :
  NoDup (map fst m) -> (str_assoc k m = Some v <-> In (k, v) m).
Proof.
  intros N. rewrite str_assoc_first. split.
  - intros (b & a & -> & _). apply in_or_app. simpl; auto.
  - intros H. apply in_split in H as (b & a & ->). exists b, a. split; auto.
    rewrite map_app in N. apply NoDup_remove_2 in N. intros H. apply N, in_or_app. auto.
Qed.

Lemma strip_prefix_spec p s r : strip_prefix p s = Some r <-> s = p ++ r.
Proof.
  revert s; induction p as [|x p IH]; intros s; simpl; [split; congruence|].
  destruct s as [|y s]; [split; discriminate|].
  destruct (Byte.eqb x y) eqn:E.
  - apply byte_eqb_spec in E as <-. rewrite IH. split; congruence.
  - split; [discriminate|]. intros [= -> _].
    rewrite (proj2 (byte_eqb_spec x x)) in E by auto. discriminate.
Qed.

Lemma strip_prefix_none p s : strip_prefix p s = None <-> ~ exists r, s = p ++ r.
Proof.
  split.
  - intros H [r E]. apply strip_prefix_spec in E. congruence.
  - intros H. destruct (strip_prefix p s) eqn:E; auto. apply strip_prefix_spec in E. exfalso; eauto.
Qed.

Lemma starts_with_spec p s : starts_with p s = true <-> exists r, s = p ++ r.
Proof.
  unfold starts_with. destruct (strip_prefix p s) eqn:E.
  - apply strip_prefix_spec in E. split; eauto.
  - apply strip_prefix_none in E. split; [discriminate|]. tauto.
Qed.

Lemma after_first_spec c s r : after_first c s = Some r <-> exists p, ~ In c p /\ s = p ++ c :: r.
Proof.
  revert r; induction s as [|x s IH]; intros r; simpl.
  - split; [discriminate|]. intros ([|] & _ & E); discriminate.
  - destruct (Byte.eqb x c) eqn:E.
    + apply byte_eqb_spec in E as ->. split.
      * intros [= ->]. exists []. auto.
      * intros ([|y p] & N & Eq); simpl in *; injection Eq; [now intros ->|]. intros. subst. tauto.
    + assert (x <> c) by (intros ->; rewrite (proj2 (byte_eqb_spec c c)) in E; congruence).
      rewrite IH. split.
      * intros (p & N & ->). exists (x :: p). split; auto. simpl. intuition.
      * intros ([|y p] & N & Eq); simpl in *; injection Eq; intros; [now subst|]. subst.
        exists p. intuition.
Qed.

(** ** Builder *)

Definition apply_call (p : parser_builder) (c : call) : parser_builder :=
  match c with
  | CAlwaysCrc => always_check_crc p
  | CNeverCrc => never_check_crc p
  | COnErrorCrc => on_error_check_crc p
  | CWithCrc k => with_crc_check k p
  | CMustNet => must_parse_network_data p
  | CNeverNet => never_parse_network_data p
  | CIgnoreNet => ignore_network_data_on_error p
  | CWithNet k => with_network_parse k p
  end.
Definition apply_calls (data : list byte) (calls : list call) : parser_builder :=
  fold_left apply_call calls (builder_new data).

Lemma last_wish_snoc {A} (w : call -> option A) calls c d r :
  last_wish w (calls ++ [c]) d r <->
  match w c with Some x => r = x | None => last_wish w calls d r end.
Proof.
  unfold last_wish. destruct (w c) as [x|] eqn:E.
  - split.
    + intros [(b & c' & a & Eq & W & Fa)|[Fa _]].
      * destruct a as [|c2 a] using rev_ind.
        -- apply app_inj_tail in Eq as [_ <-]. congruence.
        -- clear IHa. replace (b ++ c' :: a ++ [c2]) with ((b ++ c' :: a) ++ [c2]) in Eq
             by now rewrite <- app_assoc.
           apply app_inj_tail in Eq as [_ <-]. apply Forall_app in Fa as [_ Fa].
           inversion Fa; congruence.
      * apply Forall_app in Fa as [_ Fa]. inversion Fa; congruence.
    + intros ->. left. exists calls, c, []. auto.
  - split.
    + intros [(b & c' & a & Eq & W & Fa)|[Fa ->]].
      * destruct a as [|c2 a] using rev_ind.
        -- apply app_inj_tail in Eq as [_ <-]. congruence.
        -- clear IHa. replace (b ++ c' :: a ++ [c2]) with ((b ++ c' :: a) ++ [c2]) in Eq
             by now rewrite <- app_assoc.
           apply app_inj_tail in Eq as [-> _]. apply Forall_app in Fa as [Fa _].
           left. exists b, c', a. auto.
      * apply Forall_app in Fa as [Fa _]. auto.
    + intros [(b & c' & a & -> & W & Fa)|[Fa ->]].
      * left. exists b, c', (a ++ [c]). rewrite <- app_assoc. split; auto. split; auto.
        apply Forall_app. split; auto.
      * right. split; auto. apply Forall_app; auto.
Qed.

Lemma builder_fields data calls :
  pb_data (apply_calls data calls) = data /\
  (forall c, last_wish crc_wish calls CrcOnError c ->
     match pb_crc_check (apply_calls data calls) with Some k => k | None => CrcOnError end = c) /\
  (forall n, last_wish net_wish calls NetIgnoreOnError n ->
     match pb_network_parse (apply_calls data calls) with Some k => k | None => NetIgnoreOnError end = n).
Proof.
  induction calls as [|c calls IH] using rev_ind.
  - split; [reflexivity|]. split.
    + intros c [(b & c' & a & Eq & _)|[_ ->]]; [destruct b; discriminate|reflexivity].
    + intros c [(b & c' & a & Eq & _)|[_ ->]]; [destruct b; discriminate|reflexivity].
  - destruct IH as (IH1 & IH2 & IH3). unfold apply_calls in *.
    rewrite fold_left_app. cbn [fold_left].
    split; [|split].
    + destruct c; assumption.
    + intros k Hk. apply last_wish_snoc in Hk. destruct c; cbn in *; auto.
    + intros k Hk. apply last_wish_snoc in Hk. destruct c; cbn in *; auto.
Qed.

Lemma builder_last B ho data calls c n :
  last_wish crc_wish calls CrcOnError c -> last_wish net_wish calls NetIgnoreOnError n ->
  builder_parse B ho (apply_calls data calls) =
  builder_parse B ho (with_network_parse n (with_crc_check c (builder_new data))).
Proof.
  intros Hc Hn. destruct (builder_fields data calls) as (H1 & H2 & H3).
  unfold builder_parse. rewrite H1, (H2 c Hc), (H3 n Hn). reflexivity.
Qed.

(** ** Header lookups *)

Lemma find_prop_first name ps p : find_prop name ps = Some p <-> first_entry (lit name) ps p.
Proof. apply str_assoc_first. Qed.

Lemma find_prop_none name ps : find_prop name ps = None <-> ~ In (lit name) (map fst ps).
Proof. apply str_assoc_none. Qed.

(** ** Segmented array *)

Lemma setZ_getZ {A} i (x : A) l j :
  match setZ i x l with
  | Some l' => 0 <= i < lenZ l /\ length l' = length l /\ getZ j l' = if j =? i then Some x else getZ j l
  | None => ~ 0 <= i < lenZ l
  end.
Proof.
  unfold lenZ. revert i j; induction l as [|y l IH]; intros i j; [simpl; lia|]. cbn [setZ].
  destruct (Z.eqb_spec i 0) as [->|Hi].
  - split; [cbn [length]; lia|]. split; auto. simpl. destruct (j =? 0); auto.
  - specialize (IH (i - 1) (j - 1)). destruct (setZ (i - 1) x l) as [l'|].
    + destruct IH as (R & L & G). split; [cbn [length]; lia|]. split; [simpl; lia|].
      simpl. rewrite G. destruct (Z.eqb_spec j 0) as [Ej|Hj]; destruct (Z.eqb_spec (j - 1) (i - 1));
        destruct (Z.eqb_spec j i); auto; try lia.
    + cbn [length]. lia.
Qed.

Lemma setZ_some {A} i (x : A) l : 0 <= i < lenZ l -> exists l', setZ i x l = Some l' /\
  length l' = length l /\ forall j, getZ j l' = if j =? i then Some x else getZ j l.
Proof.
  intros H. destruct (setZ i x l) as [l'|] eqn:E.
  - exists l'. split; auto. split.
    + pose proof (setZ_getZ i x l 0) as G. rewrite E in G. tauto.
    + intros j. pose proof (setZ_getZ i x l j) as G. rewrite E in G. tauto.
  - pose proof (setZ_getZ i x l 0) as G. rewrite E in G. tauto.
Qed.

Lemma setZ_none {A} i (x : A) l : ~ 0 <= i < lenZ l -> setZ i x l = None.
Proof.
  intros H. pose proof (setZ_getZ i x l 0) as G. destruct (setZ i x l); [tauto|auto].
Qed.

Lemma getZ_none {A} i (l : list A) : getZ i l = None <-> ~ 0 <= i < lenZ l.
Proof.
  unfold lenZ. revert i; induction l as [|x l IH]; intros i; cbn [getZ length]; [simpl; split; auto; lia|].
  destruct (Z.eqb_spec i 0); [split; [discriminate|lia]|]. rewrite IH. lia.
Qed.

Lemma getZ_repeat {A} i (x : A) n : 0 <= i < Z.of_nat n -> getZ i (repeat x n) = Some x.
Proof.
  revert i; induction n as [|n IH]; intros i H; [lia|]. simpl.
  destruct (Z.eqb_spec i 0); auto. apply IH. lia.
Qed.

Lemma getZ_some {A} i (l : list A) x : getZ i l = Some x -> 0 <= i < lenZ l.
Proof.
  intros H. destruct (getZ i l) eqn:E; [|discriminate].
  destruct (Z.leb_spec 0 i), (Z.ltb_spec i (lenZ l)); auto; exfalso;
    assert (N : getZ i l = None) by (apply getZ_none; lia); congruence.
Qed.

Lemma getZ_nth {A} i (l : list A) : 0 <= i -> getZ i l = nth_error l (Z.to_nat i).
Proof.
  revert i; induction l as [|x l IH]; intros i H; simpl.
  - now destruct (Z.to_nat i).
  - destruct (Z.eqb_spec i 0) as [->|N]; [reflexivity|].
    rewrite IH by lia. replace (Z.to_nat i) with (S (Z.to_nat (i - 1))) by lia. reflexivity.
Qed.

Lemma map_get_insert {V} k (v : V) m j :
  map_get j (map_insert k v m) = if j =? k then Some v else map_get j m.
Proof.
  induction m as [|[k' v'] m IH]; simpl.
  - destruct (j =? k); auto.
  - destruct (Z.ltb_spec k k'); simpl.
    + destruct (Z.eqb_spec j k); auto.
    + destruct (Z.eqb_spec k k') as [->|]; simpl.
      * destruct (Z.eqb_spec j k'); auto.
      * rewrite IH. destruct (Z.eqb_spec j k'), (Z.eqb_spec j k); auto; lia.
Qed.

Lemma map_get_remove {V} k (m : amap V) j :
  map_get j (map_remove k m) = if j =? k then None else map_get j m.
Proof.
  induction m as [|[k' v'] m IH]; simpl.
  - destruct (j =? k); auto.
  - destruct (Z.eqb_spec k k') as [->|]; simpl.
    + rewrite IH. destruct (Z.eqb_spec j k'); auto.
    + rewrite IH. destruct (Z.eqb_spec j k'), (Z.eqb_spec j k); auto; lia.
Qed.

Definition run_op {V} (s : seg_array V) (o : map_op V) : seg_array V :=
  match o with
  | MInsert k v => seg_insert k v s
  | MDelete k => seg_delete k s
  end.

Lemma as_usize_i32 x : is_i32 x -> as_usize x = if 0 <=? x then x else x + 2 ^ 64.
Proof.
  unfold is_i32, as_usize. intros H. destruct (Z.leb_spec 0 x).
  - apply Z.mod_small. lia.
  - rewrite <- (Z.mod_add x 1) by lia. apply Z.mod_small. lia.
Qed.

Lemma as_usize_inj x y : is_i32 x -> is_i32 y -> as_usize x = as_usize y -> x = y.
Proof.
  intros Hx Hy. rewrite !as_usize_i32 by auto. unfold is_i32 in *.
  destruct (Z.leb_spec 0 x), (Z.leb_spec 0 y); lia.
Qed.

Definition seg_inv {V} (n : nat) (s : seg_array V) (f : Z -> option V) : Prop :=
  length (sg_array s) = n /\ forall k, is_i32 k -> seg_get k s = f k.

Lemma seg_get_insert {V} j k (v : V) s : is_i32 j -> is_i32 k ->
  seg_get j (seg_insert k v s) = if j =? k then Some v else seg_get j s.
Proof.
  intros Hj Hk. unfold seg_get, seg_insert, raw_get, raw_insert.
  assert (Q : (as_usize j =? as_usize k) = (j =? k)).
  { destruct (Z.eqb_spec j k) as [->|N]; [apply Z.eqb_refl|].
    apply Z.eqb_neq. intros E. apply N, as_usize_inj; auto. }
  pose proof (setZ_getZ (as_usize k) (Some v) (sg_array s) (as_usize j)) as G.
  destruct (setZ (as_usize k) (Some v) (sg_array s)) as [a|]; simpl.
  - destruct G as (R & L & ->). rewrite Q. destruct (j =? k) eqn:E; auto.
  - rewrite map_get_insert, Q. destruct (j =? k) eqn:E; auto.
    assert (N : getZ (as_usize j) (sg_array s) = None); [|now rewrite N].
    apply getZ_none. apply Z.eqb_eq in E as ->. auto.
Qed.

Lemma seg_insert_length {V} k (v : V) s : length (sg_array (seg_insert k v s)) = length (sg_array s).
Proof.
  unfold seg_insert, raw_insert. pose proof (setZ_getZ (as_usize k) (Some v) (sg_array s) 0) as G.
  destruct (setZ (as_usize k) (Some v) (sg_array s)); simpl; tauto.
Qed.

Lemma seg_delete_length {V} k (s : seg_array V) : length (sg_array (seg_delete k s)) = length (sg_array s).
Proof. unfold seg_delete, raw_delete. destruct (getZ (as_usize k) (sg_array s)); auto. Qed.

Lemma seg_get_delete {V} j k (s : seg_array V) : is_i32 j -> is_i32 k ->
  lenZ (sg_array s) <= 2 ^ 62 ->
  seg_get j (seg_delete k s) =
  if (0 <=? k) && (k <? lenZ (sg_array s)) then seg_get j s
  else if j =? k then None else seg_get j s.
Proof.
  intros Hj Hk Hn.
  assert (Q : (as_usize j =? as_usize k) = (j =? k)).
  { destruct (Z.eqb_spec j k) as [->|N]; [apply Z.eqb_refl|].
    apply Z.eqb_neq. intros E. apply N, as_usize_inj; auto. }
  assert (R : (0 <= as_usize k < lenZ (sg_array s)) <-> (0 <= k < lenZ (sg_array s))).
  { rewrite as_usize_i32 by auto. unfold is_i32 in *. destruct (Z.leb_spec 0 k); [tauto|]. lia. }
  unfold seg_delete, raw_delete. destruct (getZ (as_usize k) (sg_array s)) eqn:E.
  - apply getZ_some in E. apply R in E. replace ((0 <=? k) && (k <? lenZ (sg_array s))) with true by lia. auto.
  - apply getZ_none in E. rewrite R in E.
    replace ((0 <=? k) && (k <? lenZ (sg_array s))) with false by lia.
    unfold seg_get, raw_get. simpl. rewrite map_get_remove, Q.
    destruct (j =? k) eqn:F; auto. apply Z.eqb_eq in F as ->.
    assert (N : getZ (as_usize k) (sg_array s) = None); [|now rewrite N].
    apply getZ_none. now rewrite R.
Qed.

Lemma seg_new_get {V} n k : @seg_get V k (seg_new n) = None.
Proof.
  unfold seg_get, raw_get, seg_new. simpl.
  destruct (getZ (as_usize k) (repeat None n)) eqn:E; auto.
  pose proof (getZ_some _ _ _ E) as R. unfold lenZ in R. rewrite repeat_length in R.
  rewrite getZ_repeat in E by lia. now injection E as <-.
Qed.

Lemma seg_ops {V} (n : nat) (ops : list (map_op V)) k :
  Z.of_nat n <= 2 ^ 62 -> Forall (fun o => is_i32 (op_key o)) ops -> is_i32 k ->
  seg_get k (fold_left run_op ops (seg_new n)) = map_after (Z.of_nat n) ops k.
Proof.
  intros Hn Hops Hk. unfold map_after.
  assert (G : seg_inv n (fold_left run_op ops (seg_new n))
                (fold_left (map_step (Z.of_nat n)) ops (fun _ => None))).
  { assert (I : @seg_inv V n (seg_new n) (fun _ => None)).
    { split; [apply repeat_length|]. intros; apply seg_new_get. }
    revert I. generalize (@seg_new V n) as s, (fun _ : Z => @None V) as f. clear k Hk.
    induction Hops as [|o ops Ho Hops IH]; intros s f I; [exact I|].
    cbn [fold_left]. apply IH. destruct I as [L G]. destruct o as [k v|k]; simpl in Ho |- *.
    - split; [now rewrite seg_insert_length|]. intros j Hj. rewrite seg_get_insert by auto.
      unfold upd. destruct (j =? k); auto.
    - split; [now rewrite seg_delete_length|]. intros j Hj. rewrite seg_get_delete by (auto; unfold lenZ; lia).
      unfold lenZ. rewrite L. destruct ((0 <=? k) && (k <? Z.of_nat n)); auto.
      unfold upd. destruct (j =? k); auto. }
  apply G, Hk.
Qed.

(** ** Level objects *)

Definition stripped (name : str) : option str :=
  match strip_prefix world_prefix name with
  | Some r => Some r
  | None =>
      match after_first "."%byte name with
      | Some suffix => strip_prefix world_prefix suffix
      | None => None
      end
  end.

Lemma stripped_spec name r : stripped name = Some r <-> level_object name r.
Proof.
  unfold stripped, level_object. change level with world_prefix.
  destruct (strip_prefix world_prefix name) as [q|] eqn:E.
  - apply strip_prefix_spec in E. split.
    + intros [= ->]. auto.
    + intros [H|[H _]]; [rewrite E in H; apply app_inv_head in H; congruence|]. exfalso; eauto.
  - apply strip_prefix_none in E. split.
    + intros H. right. split; auto. destruct (after_first "."%byte name) as [s|] eqn:F; [|discriminate].
      apply after_first_spec in F as (p & N & ->). apply strip_prefix_spec in H as ->. eauto.
    + intros [H|[_ (p & N & H)]]; [exfalso; eauto|].
      assert (F : after_first "."%byte name = Some (world_prefix ++ r)) by (apply after_first_spec; eauto).
      rewrite F. now apply strip_prefix_spec.
Qed.

Lemma level_object_fun name r r' : level_object name r -> level_object name r' -> r = r'.
Proof. rewrite <- !stripped_spec. congruence. Qed.

(** which of two level classes matches: none is a prefix of another *)
Lemma classes_disjoint : forall c c' n n', In c level_classes -> In c' level_classes ->
  c ++ n = c' ++ n' -> c = c'.
Proof.
  assert (H : forallb (fun c => forallb (fun c' => str_eqb c c' || negb (starts_with c c') && negb (starts_with c' c))
                level_classes) level_classes = true) by (vm_compute; reflexivity).
  rewrite forallb_forall in H. intros c c' n n' Hc Hc' E.
  specialize (H c Hc). rewrite forallb_forall in H. specialize (H c' Hc').
  apply orb_true_iff in H as [H|H]; [now apply str_eqb_spec|].
  apply andb_true_iff in H as [H1 H2]. apply negb_true_iff in H1, H2.
  exfalso. destruct (Nat.le_gt_cases (length c) (length c')) as [L|L].
  - apply not_true_iff_false in H1. apply H1, starts_with_spec.
    exists (skipn (length c) c'). apply (f_equal (firstn (length c'))) in E.
    rewrite !firstn_app, Nat.sub_diag, firstn_all, firstn_O, app_nil_r in E.
    rewrite (firstn_all2 c) in E by lia.
    rewrite <- E at 2. rewrite skipn_app, skipn_all, Nat.sub_diag. simpl. auto.
  - apply not_true_iff_false in H2. apply H2, starts_with_spec.
    exists (skipn (length c') c). apply (f_equal (firstn (length c))) in E.
    rewrite !firstn_app, Nat.sub_diag, firstn_all, firstn_O, app_nil_r in E.
    rewrite (firstn_all2 c') in E by lia.
    rewrite E at 2. rewrite skipn_app, skipn_all, Nat.sub_diag. simpl. auto.
Qed.

Definition match_class (r : str) : option str :=
  find (fun c => starts_with c r) level_classes.

Lemma normalize_eq name :
  normalize_object name =
  match stripped name with
  | Some r => match match_class r with Some c => world_prefix ++ c | None => name end
  | None => name
  end.
Proof.
  unfold normalize_object. fold (stripped name).
  assert (K : forall r, match match_class r with Some c => world_prefix ++ c | None => name end =
     if starts_with (lit "CrowdActor_TA") r
        then lit "TheWorld:PersistentLevel.CrowdActor_TA"
        else if starts_with (lit "CrowdManager_TA") r
        then lit "TheWorld:PersistentLevel.CrowdManager_TA"
        else if starts_with (lit "VehiclePickup_Boost_TA") r
        then lit "TheWorld:PersistentLevel.VehiclePickup_Boost_TA"
        else if starts_with (lit "InMapScoreboard_TA") r
        then lit "TheWorld:PersistentLevel.InMapScoreboard_TA"
        else if starts_with (lit "BreakOutActor_Platform_TA") r
        then lit "TheWorld:PersistentLevel.BreakOutActor_Platform_TA"
        else if starts_with (lit "PlayerStart_Platform_TA") r
        then lit "TheWorld:PersistentLevel.PlayerStart_Platform_TA"
        else name).
  { intros r. unfold match_class, level_classes. cbn [map find].
    repeat match goal with |- context [if starts_with ?a r then _ else _] =>
      destruct (starts_with a r); [reflexivity|] end. reflexivity. }
  destruct (Z.leb_spec (lenZ name) (lenZ (lit "TheWorld:PersistentLevel.CrowdActor_TA"))) as [L|L].
  - destruct (stripped name) as [r|] eqn:E; auto.
    destruct (match_class r) as [c|] eqn:M; auto.
    apply find_some in M as [Hc M]. apply starts_with_spec in M as [n ->].
    assert (Lc : 13 <= lenZ c).
    { revert Hc. unfold level_classes. cbn [map In].
      intros H; repeat (destruct H as [<-|H]; [vm_compute; discriminate|]); destruct H. }
    apply stripped_spec in E. unfold lenZ in *.
    change (Z.of_nat (length (lit "TheWorld:PersistentLevel.CrowdActor_TA"))) with 38 in L.
    destruct E as [->|[_ (p & _ & ->)]].
    + change level with world_prefix in *. rewrite !app_length in L.
      change (length world_prefix) with 25%nat in L.
      assert (Hn : length n = 0%nat) by (clear - L Lc; lia).
      apply length_zero_iff_nil in Hn as ->. now rewrite app_nil_r.
    + rewrite !app_length in L. cbn [length] in L. rewrite !app_length in L.
      change (length level) with 25%nat in L. clear - L Lc. lia.
  - destruct (stripped name) as [r|]; auto.
Qed.

Lemma match_class_spec r c : match_class r = Some c <-> In c level_classes /\ exists n, r = c ++ n.
Proof.
  unfold match_class. split.
  - intros H. apply find_some in H as [H1 H2]. now apply starts_with_spec in H2.
  - intros [Hc [n ->]]. destruct (find _ level_classes) as [c'|] eqn:F.
    + apply find_some in F as [Hc' F]. apply starts_with_spec in F as [n' F].
      f_equal. symmetry. eapply classes_disjoint; eauto.
    + apply find_none with (x := c) in F; auto. simpl in F.
      exfalso. apply not_true_iff_false in F. apply F, starts_with_spec. eauto.
Qed.

Lemma normalize_class name c : normalize_object name = c <-> class_of name c.
Proof.
  rewrite normalize_eq. unfold class_of. change level with world_prefix. split.
  - intros H. destruct (stripped name) as [r|] eqn:E.
    + destruct (match_class r) as [l|] eqn:M.
      * left. exists l. apply match_class_spec in M as [Hl [n ->]].
        split; auto. split; auto. exists n. now apply stripped_spec.
      * right. split; auto. intros (l & Hl & n & Ho). apply stripped_spec in Ho.
        assert (r = l ++ n) by congruence. subst r.
        assert (match_class (l ++ n) = Some l) by (apply match_class_spec; eauto). congruence.
    + right. split; auto. intros (l & Hl & n & Ho). apply stripped_spec in Ho. congruence.
  - intros [(l & Hl & (n & Ho) & ->)|[N ->]].
    + apply stripped_spec in Ho. rewrite Ho.
      assert (M : match_class (l ++ n) = Some l) by (apply match_class_spec; eauto). now rewrite M.
    + destruct (stripped name) as [r|] eqn:E; auto.
      destruct (match_class r) as [l|] eqn:M; auto.
      apply match_class_spec in M as [Hl [n ->]]. exfalso. apply N.
      exists l. split; auto. exists n. now apply stripped_spec.
Qed.

Lemma class_of_fun name c c' : class_of name c -> class_of name c' -> c = c'.
Proof. rewrite <- !normalize_class. congruence. Qed.

Lemma normalize_idem name : normalize_object (normalize_object name) = normalize_object name.
Proof.
  destruct (proj1 (normalize_class name _) eq_refl) as [(l & Hl & _ & E)|[N E]].
  - rewrite E. apply normalize_class. left. exists l. split; auto. split; auto.
    exists []. rewrite app_nil_r. left. reflexivity.
  - now rewrite E.
Qed.

(** ** Header lookups *)

Lemma lookup_first h p :
  (first_entry (lit "NumFrames") (h_properties h) p ->
     num_frames h = match p with HInt x => Some x | _ => None end) /\
  (first_entry (lit "MaxChannels") (h_properties h) p ->
     max_channels h = match p with HInt x => Some x | _ => None end) /\
  (first_entry (lit "MatchType") (h_properties h) p ->
     match_type h = match p with HName s | HStr s => Some s | _ => None end) /\
  (first_entry (lit "BuildVersion") (h_properties h) p ->
     build_version h = match p with HName s | HStr s => Some s | _ => None end).
Proof.
  unfold num_frames, max_channels, match_type, build_version.
  repeat split; intros H; apply find_prop_first in H; rewrite H; destruct p; reflexivity.
Qed.

Lemma lookup_none h :
  (~ In (lit "NumFrames") (map fst (h_properties h)) -> num_frames h = None) /\
  (~ In (lit "MaxChannels") (map fst (h_properties h)) -> max_channels h = None) /\
  (~ In (lit "MatchType") (map fst (h_properties h)) -> match_type h = None) /\
  (~ In (lit "BuildVersion") (map fst (h_properties h)) -> build_version h = None).
Proof.
  unfold num_frames, max_channels, match_type, build_version.
  repeat split; intros H; apply find_prop_none in H; rewrite H; reflexivity.
Qed.
