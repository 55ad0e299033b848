(** * Proofs: the programs names.rs and demo.rs, and the values they expect *)

From Coq Require Import ZArith List Bool Lia ZifyBool ZifyNat Sorted Permutation.
From Verif Require Import Base F32 NetTypes Errors Core Header Body BitReader Attributes Data ObjectIndex FrameDecoder
  Network Parser Json Display SpecDecimal JsonLogic SpecBasic BasicProofs SpecNet TableProofs SpecFrames SpecFile
  SpecReplay SpecFacts SpecDisplay FileFacts FrameFacts ParseProofs BitLemmas ReaderLogic NetworkProofs DisplayProofs SpecRange RangeProofs SendProofs SpecSize
  SizeProofs SpecExamples Examples.
Open Scope Z_scope.
#[local] Opaque PARENT_CLASSES SPAWN_STATS ATTRIBUTES.

(** ** Objects *)

Lemma position_spec name l : forall i,
  match position_from i name l with
  | Some j => exists b a, l = b ++ name :: a /\ ~ In name b /\ j = i + lenZ b
  | None => ~ In name l
  end.
Proof.
  induction l as [|x l IH]; intros i; cbn [position_from]; [intros []|].
  destruct (str_eqb x name) eqn:E.
  - apply str_eqb_spec in E as ->. exists [], l. split; [reflexivity|]. split; [intros []|]. unfold lenZ. cbn [length]. lia.
  - apply str_eqb_neq in E. specialize (IH (i + 1)). destruct (position_from (i + 1) name l) as [j|].
    + destruct IH as (b & a & -> & N & ->). exists (x :: b), a. split; [reflexivity|].
      split; [intros [->|H]; [now apply E|now apply N]|]. unfold lenZ. cbn [length]. lia.
    + intros [->|H]; [now apply E|now apply IH].
Qed.

Lemma as_i32_small x : 0 <= x < 2 ^ 31 -> as_i32 x = x.
Proof.
  intros H. unfold as_i32, to_signed. rewrite Z.mod_small by lia. destruct (Z.ltb_spec x (2 ^ (32 - 1))); lia.
Qed.

Lemma find_id r name : SpecReplay.small (r_objects r) ->
  match find_object_id r name with
  | Some id => first_index (r_objects r) name id
  | None => ~ In name (r_objects r)
  end.
Proof.
  intros S. unfold find_object_id. pose proof (position_spec name (r_objects r) 0) as H.
  destruct (position_from 0 name (r_objects r)) as [j|]; cbn [option_map]; [|exact H].
  destruct H as (b & a & E & N & ->). exists b, a. split; [exact E|]. split; [exact N|].
  unfold SpecReplay.small in S. rewrite E, app_length in S. cbn [length] in S. unfold lenZ. apply as_i32_small. lia.
Qed.

Lemma index_fun objects n i j : first_index objects n i -> first_index objects n j -> i = j.
Proof.
  intros (b & a & -> & N & ->) (b' & a' & E & N' & ->). f_equal.
  revert b' E N'. induction b as [|x b IH]; intros [|y b'] E N'; cbn [app length] in *; auto.
  - injection E as E1 E2. subst. destruct N'. now left.
  - injection E as E1 E2. subst. destruct N. now left.
  - injection E as E1 E2. f_equal. apply IH; auto. intros H. apply N. now right. intros H. apply N'. now right.
Qed.
Lemma index_at objects n i : first_index objects n i -> object_at objects i n.
Proof.
  intros (b & a & -> & _ & ->). split; [lia|]. rewrite Nat2Z.id, nth_error_app2, Nat.sub_diag by lia. reflexivity.
Qed.
Lemma object_fun objects i n m : object_at objects i n -> object_at objects i m -> n = m.
Proof. intros [_ H] [_ H']. congruence. Qed.
Lemma index_name objects n m i : first_index objects n i -> first_index objects m i -> n = m.
Proof. intros H H'. eapply object_fun; eapply index_at; eauto. Qed.
Lemma index_in objects n i : first_index objects n i -> In n objects.
Proof. intros (b & a & -> & _). apply in_elt. Qed.

(** ** Lists *)

Lemma picks_fun {A C} (R : A -> C -> Prop) : (forall x y z, R x y -> R x z -> y = z) ->
  forall l m m', picks R l m -> picks R l m' -> m = m'.
Proof.
  intros F l m m' H. revert m'. induction H as [|x y l m Rxy _ IH|x l m N _ IH]; intros m' H'; inversion H'; subst; auto.
  - f_equal; [eapply F; eauto|auto].
  - exfalso. match goal with H : forall y, ~ R x y |- _ => exact (H _ Rxy) end.
  - exfalso. eapply N; eauto.
Qed.
Lemma picks_filter_map {A C} (R : A -> C -> Prop) (f : A -> option C) :
  (forall x y, f x = Some y <-> R x y) -> forall l, picks R l (filter_map f l).
Proof.
  intros H. induction l as [|x l IH]; cbn [filter_map]; [constructor|]. destruct (f x) as [y|] eqn:E.
  - apply picks_take; auto. now apply H.
  - apply picks_skip; auto. intros y Hy. apply H in Hy. congruence.
Qed.
Lemma filter_map_filter {A C} (p : A -> bool) (f : A -> option C) l :
  filter_map f (filter p l) = filter_map (fun x => if p x then f x else None) l.
Proof. induction l as [|x l IH]; cbn; auto. destruct (p x); cbn; rewrite <- IH; reflexivity. Qed.
Lemma filter_map_in {A C} (f : A -> option C) l y : In y (filter_map f l) <-> exists x, In x l /\ f x = Some y.
Proof.
  induction l as [|x l IH]; cbn [filter_map In]; [split; [intros []|intros (? & [] & _)]|].
  destruct (f x) as [z|] eqn:E; cbn [In]; rewrite IH; split.
  - intros [->|(w & H & H')]; eauto.
  - intros (w & [->|H] & H'); [left; congruence|eauto].
  - intros (w & H & H'); eauto.
  - intros (w & [->|H] & H'); [congruence|eauto].
Qed.

(** ** names.rs *)

Lemma header_names rows : picks name_entry (concat rows) (names_in_header rows).
Proof.
  unfold names_in_header. rewrite filter_map_filter. apply picks_filter_map. intros [k v] n. cbn [fst snd].
  unfold name_entry. cbn [fst snd]. destruct (str_eqb k (lit "Name")) eqn:E.
  - apply str_eqb_spec in E. split.
    + intros H. split; auto. destruct v; cbn in H; try discriminate; injection H as ->; auto.
    + intros [_ [-> | ->]]; reflexivity.
  - apply str_eqb_neq in E. split; [discriminate|tauto].
Qed.

Lemma network_names fs id :
  SpecDisplay.list_of (fun n => exists u, In u (updates fs) /\ says id u n) (names_in_network fs id).
Proof.
  unfold names_in_network. rewrite filter_map_filter. apply dedup_sort_list. intros n. rewrite filter_map_in.
  unfold updates, says, string_of. split; intros (u & H & K); exists u; split; auto.
  - destruct (Z.eqb_spec (u_object_id u) id); [|discriminate]. split; auto.
    destruct (u_attribute u); try discriminate. congruence.
  - destruct K as [-> ->]. now rewrite Z.eqb_refl.
Qed.

Lemma find_stats r v : find_prop "PlayerStats" (r_properties r) = Some v <->
  first_value (r_properties r) (lit "PlayerStats") v.
Proof. apply str_assoc_first. Qed.
Lemma no_stats r : find_prop "PlayerStats" (r_properties r) = None ->
  forall v, ~ In (lit "PlayerStats", v) (r_properties r).
Proof. intros H v I. apply str_assoc_none in H. apply H. now apply (in_map fst) in I. Qed.
Lemma no_stats_conv r : (forall v, ~ In (lit "PlayerStats", v) (r_properties r)) ->
  find_prop "PlayerStats" (r_properties r) = None.
Proof.
  intros H. apply str_assoc_none. intros I. apply in_map_iff in I as ((k & v) & E & I). cbn in E. subst k.
  exact (H v I).
Qed.

Lemma list_of_fun P l l' : SpecDisplay.list_of P l -> SpecDisplay.list_of P l' -> l = l'.
Proof.
  intros [S H] [S' H']. assert (E : forall n, In n l <-> In n l') by (intros n; rewrite H, H'; tauto). clear H H' P.
  revert l' S' E. induction S as [|x l S IH F]; intros l' S' E.
  - destruct l' as [|y l']; auto. destruct (proj2 (E y)); now left.
  - destruct S' as [|y l' S' F']; [destruct (proj1 (E x)); now left|].
    rewrite Forall_forall in F, F'.
    assert (x = y).
    { destruct (proj1 (E x) (or_introl eq_refl)) as [|Hx]; auto. destruct (proj2 (E y) (or_introl eq_refl)) as [|Hy]; auto.
      apply lex_antisym; [apply F, Hy|apply F', Hx]. }
    subst y. f_equal. apply IH; auto. intros n. split; intros Hn.
    + destruct (proj1 (E n) (or_intror Hn)); auto. subst. now destruct (F _ Hn).
    + destruct (proj2 (E n) (or_intror Hn)); auto. subst. now destruct (F' _ Hn).
Qed.

Lemma names_network_spec r : SpecReplay.small (r_objects r) ->
  network_part r (fst (names_network r)) (snd (names_network r)).
Proof.
  intros S. unfold names_network. destruct (r_network_frames r) as [fs|] eqn:E; [|now constructor].
  pose proof (find_id r player_name S) as H. destruct (find_object_id r player_name) as [id|]; cbn [fst snd].
  - eapply np_some; eauto. apply network_names.
  - eapply np_missing; eauto.
Qed.

Lemma names_found_spec r : SpecReplay.small (r_objects r) -> names_run (Ok r) (fst (names_found r)) (snd (names_found r)).
Proof.
  intros S. pose proof (names_network_spec r S) as N. unfold names_found.
  destruct (names_network r) as [l e]. cbn [fst snd] in N.
  destruct (find_prop "PlayerStats" (r_properties r)) as [v|] eqn:E.
  - apply find_stats in E. destruct v.
    + cbn [fst snd]. apply (nr_found r (lit "Names in the header data:" :: names_in_header rows) l e); auto.
      apply hp_some with rows; auto. apply header_names.
    + apply (nr_other _ _ E). discriminate.
    + apply (nr_other _ _ E). discriminate.
    + apply (nr_other _ _ E). discriminate.
    + apply (nr_other _ _ E). discriminate.
    + apply (nr_other _ _ E). discriminate.
    + apply (nr_other _ _ E). discriminate.
    + apply (nr_other _ _ E). discriminate.
    + apply (nr_other _ _ E). discriminate.
  - cbn [fst snd]. apply (nr_found r [lit "No player names found in the header"] l e); auto.
    apply hp_none. now apply no_stats.
Qed.

Lemma entry_fun kv n m : name_entry kv n -> name_entry kv m -> n = m.
Proof. intros [_ [H|H]] [_ [H'|H']]; congruence. Qed.
Lemma value_fun ps k v w : first_value ps k v -> first_value ps k w -> v = w.
Proof. intros H H'. apply str_assoc_first in H, H'. congruence. Qed.
Lemma value_in ps k v : first_value ps k v -> In (k, v) ps.
Proof. intros (b & a & -> & _). apply in_elt. Qed.

(** the specification leaves no freedom *)
Lemma names_run_fun o l e l' e' : names_run o l e -> names_run o l' e' -> l = l' /\ e = e'.
Proof.
  assert (HP : forall r h h', header_part r h -> header_part r h' -> h = h').
  { intros r h h' H H'. destruct H as [N|rows l0 V P], H' as [N'|rows' l1 V' P']; auto.
    - destruct (N _ (value_in _ _ _ V')).
    - destruct (N' _ (value_in _ _ _ V)).
    - pose proof (value_fun _ _ _ _ V V') as [= ->]. f_equal. exact (picks_fun _ entry_fun _ _ _ P P'). }
  assert (NP : forall r n x n' x', network_part r n x -> network_part r n' x' -> n = n' /\ x = x').
  { intros r n x n' x' H H'. destruct H as [F|fs F M|fs id l0 F I P], H' as [F'|fs' F' M'|fs' id' l1 F' I' P'];
      rewrite F in F'; try discriminate F'; auto.
    - destruct M. eapply index_in; eauto.
    - destruct M'. eapply index_in; eauto.
    - injection F' as <-. rewrite <- (index_fun _ _ _ _ I I') in P'. now rewrite (list_of_fun _ _ _ P P'). }
  intros H H'. inversion H; subst; inversion H'; subst; auto.
  - match goal with A : first_value _ _ v, P : header_part _ _ |- _ => destruct P as [Q|rows l0 Q Q'] end.
    + exfalso. eapply Q, value_in; eauto.
    + exfalso. eapply H1. eapply value_fun; eauto.
  - match goal with P : header_part r h |- _ => destruct P as [Q|rows l0 Q Q'] end.
    + exfalso. eapply Q, value_in; eauto.
    + exfalso. match goal with A : forall rows, v <> _ |- _ => eapply A; eapply value_fun; eauto end.
  - destruct (NP _ _ _ _ _ H1 H4). split; auto. f_equal; auto. eapply HP; eauto.
Qed.

(** ** demo.rs *)

Section Demo.
Context (r : replay) (S : SpecReplay.small (r_objects r)).
Let objects := r_objects r.

Lemma is_id_spec u name : is_id u (find_object_id r name) = true <-> first_index objects name (u_object_id u).
Proof.
  pose proof (find_id r name S) as H. unfold is_id. destruct (find_object_id r name) as [i|].
  - split; [intros E; apply Z.eqb_eq in E; now rewrite E|]. intros H'. rewrite (index_fun _ _ _ _ H' H). apply Z.eqb_refl.
  - split; [discriminate|]. intros H'. destruct H. eapply index_in; eauto.
Qed.
Lemma is_id_other u name other : first_index objects name (u_object_id u) -> name <> other ->
  is_id u (find_object_id r other) = false.
Proof.
  intros H N. destruct (is_id u (find_object_id r other)) eqn:E; auto. apply is_id_spec in E. destruct N.
  eapply index_name; eauto.
Qed.

(** what one update adds *)
Definition event_of (u : updated_attribute) : option (Z * Z) :=
  if is_id u (find_object_id r demolish_name) then
    match u_attribute u with ADemolish d => Some (dm_attacker d, dm_victim d) | _ => None end
  else if is_id u (find_object_id r demolish_fx_name) || is_id u (find_object_id r demolish_custom_fx_name) then
    match u_attribute u with ADemolishFx d => Some (df_attacker d, df_victim d) | _ => None end
  else if is_id u (find_object_id r demolish_extended_name) then
    match u_attribute u with
    | ADemolishExtended d => Some (aa_actor (de_attacker_pri d), aa_actor (de_victim d)) | _ => None end
  else None.
Definition name_of (u : updated_attribute) : option str :=
  if is_id u (find_object_id r player_name) then
    match u_attribute u with AString s => Some s | _ => None end else None.
Definition player_of (u : updated_attribute) : option Z :=
  if is_id u (find_object_id r car_pri_name) then
    match u_attribute u with AActiveActor a => if aa_actor a =? -1 then None else Some (aa_actor a) | _ => None end
  else None.

Ltac named H := apply is_id_spec in H.
Lemma event_spec u a v : event_of u = Some (a, v) <-> demolishes objects u a v.
Proof.
  unfold event_of. split.
  - destruct (is_id u (find_object_id r demolish_name)) eqn:E1.
    { named E1. destruct (u_attribute u) eqn:A; try discriminate. intros [= <- <-]. now apply dem_old. }
    destruct (_ || _) eqn:E2.
    { apply orb_true_iff in E2. destruct (u_attribute u) eqn:A; try discriminate. intros [= <- <-]. apply dem_fx; auto.
      destruct E2 as [E2|E2]; named E2; auto. }
    destruct (is_id u (find_object_id r demolish_extended_name)) eqn:E3; [|discriminate].
    named E3. destruct (u_attribute u) eqn:A; try discriminate. intros [= <- <-]. now apply dem_extended.
  - intros H. destruct H as [u d I A|u d I A|u d I A]; rewrite A.
    + apply is_id_spec in I. change (lit "TAGame.Car_TA:ReplicatedDemolish") with demolish_name in I. now rewrite I.
    + assert (F : is_id u (find_object_id r demolish_name) = false).
      { destruct I as [I|I]; (eapply is_id_other; [exact I|discriminate]). }
      rewrite F. replace (_ || _) with true; [reflexivity|]. symmetry. apply orb_true_iff.
      destruct I as [I|I]; apply is_id_spec in I; auto.
    + rewrite (is_id_other _ _ demolish_name I), (is_id_other _ _ demolish_fx_name I),
        (is_id_other _ _ demolish_custom_fx_name I) by discriminate. apply is_id_spec in I.
      change (lit "TAGame.Car_TA:ReplicatedDemolishExtended") with demolish_extended_name in I. now rewrite I.
Qed.
Lemma name_spec u n : name_of u = Some n <-> gives_name objects (u_actor_id u) u n.
Proof.
  unfold name_of, gives_name. pose proof (is_id_spec u player_name) as H. destruct (is_id u (find_object_id r player_name)).
  - split; [destruct (u_attribute u); try discriminate; intros [= ->]; repeat split; auto; now apply H|].
    intros (_ & -> & _). reflexivity.
  - split; [discriminate|]. intros (_ & _ & I). apply H in I. discriminate.
Qed.
Lemma player_spec u p : player_of u = Some p <-> gives_player objects (u_actor_id u) u p.
Proof.
  unfold player_of, gives_player. pose proof (is_id_spec u car_pri_name) as H.
  destruct (is_id u (find_object_id r car_pri_name)).
  - split.
    + destruct (u_attribute u) as [| | | | | | | | | | | | |[ac x]| | | | | | | | | | | | | | | | | | | | | | | | | | | | | |]; try discriminate.
      cbn [aa_actor]. destruct (Z.eqb_spec x (-1)); [discriminate|]. intros [= <-]. split; auto. split; eauto. split; auto. now apply H.
    + intros (_ & (ac & ->) & N & _). cbn [aa_actor]. destruct (Z.eqb_spec p (-1)); [contradiction|reflexivity].
  - split; [discriminate|]. intros (_ & _ & _ & I). apply H in I. discriminate.
Qed.

Definition put {V} (k : Z) (o : option V) (m : amap V) : amap V :=
  match o with Some v => map_insert k v m | None => m end.
Definition push (t : f32) (o : option (Z * Z)) (l : list demo_event) : list demo_event :=
  match o with Some (a, v) => l ++ [mkEvent t a v] | None => l end.

Lemma step_parts t s u : demo_step r t s u =
  mkDemo (put (u_actor_id u) (player_of u) (ds_car_to_pri s)) (put (u_actor_id u) (name_of u) (ds_pri_to_name s))
    (push t (event_of u) (ds_events s)).
Proof.
  destruct s as [c p ev]. cbn [ds_car_to_pri ds_pri_to_name ds_events]. unfold demo_step, player_of, name_of, event_of.
  cbn [ds_car_to_pri ds_pri_to_name ds_events].
  destruct (is_id u (find_object_id r car_pri_name)) eqn:E0.
  { named E0. rewrite (is_id_other _ _ player_name E0), (is_id_other _ _ demolish_name E0), (is_id_other _ _ demolish_fx_name E0),
      (is_id_other _ _ demolish_custom_fx_name E0), (is_id_other _ _ demolish_extended_name E0) by discriminate.
    cbn [put push orb]. destruct (u_attribute u); cbn [put]; auto. destruct (_ =? _); reflexivity. }
  destruct (is_id u (find_object_id r player_name)) eqn:E1.
  { named E1. rewrite (is_id_other _ _ demolish_name E1), (is_id_other _ _ demolish_fx_name E1),
      (is_id_other _ _ demolish_custom_fx_name E1), (is_id_other _ _ demolish_extended_name E1) by discriminate.
    cbn [put push orb]. destruct (u_attribute u); reflexivity. }
  cbn [put]. unfold push_event. cbn [ds_car_to_pri ds_pri_to_name ds_events].
  destruct (is_id u (find_object_id r demolish_name)); [destruct (u_attribute u); reflexivity|].
  destruct (_ || _); [destruct (u_attribute u); reflexivity|].
  destruct (is_id u (find_object_id r demolish_extended_name)); [destruct (u_attribute u); reflexivity|]. reflexivity.
Qed.

Definition apply_all (l : list (f32 * updated_attribute)) (s : demo_state) : demo_state :=
  fold_left (fun s x => demo_step r (fst x) s (snd x)) l s.
Lemma loop_flat fs : demo_loop r fs = apply_all (timed fs) (mkDemo [] [] []).
Proof.
  unfold demo_loop. generalize (mkDemo [] [] []). induction fs as [|f fs IH]; intros s; cbn [fold_left]; [reflexivity|].
  unfold apply_all, timed. cbn [flat_map]. rewrite fold_left_app. rewrite IH. unfold apply_all, timed. f_equal.
  generalize (f_updated_actors f) as us. intros us. revert s. induction us as [|u us IHu]; intros s; cbn; auto.
Qed.
Lemma timed_updates fs : map snd (timed fs) = updates fs.
Proof.
  unfold timed, updates. induction fs as [|f fs IH]; cbn [flat_map map]; auto. rewrite map_app, IH. f_equal.
  rewrite map_map. apply map_id.
Qed.

Lemma events_picked l : forall s, exists m, picks (demolition objects) l m /\
  ds_events (apply_all l s) = ds_events s ++ map (fun y => mkEvent (fst (fst y)) (snd (fst y)) (snd y)) m.
Proof.
  induction l as [|[t u] l IH]; intros s.
  - exists []. split; [constructor|]. now rewrite app_nil_r.
  - unfold apply_all. cbn [fold_left fst snd]. destruct (IH (demo_step r t s u)) as (m & P & E). unfold apply_all in E. rewrite E.
    rewrite step_parts. cbn [ds_events]. destruct (event_of u) as [[a v]|] eqn:Ev; cbn [push].
    + exists ((t, a, v) :: m). split; [|now rewrite <- app_assoc]. apply picks_take; auto. exists a, v. split; auto. now apply event_spec.
    + exists m. split; auto. apply picks_skip; auto. intros y (a & v & D & _). cbn [snd] in D. apply event_spec in D. congruence.
Qed.

(** the maps hold the last value *)
Lemma last_snoc {A C} (R : A -> C -> Prop) l x v : (forall a b c, R a b -> R a c -> b = c) ->
  last_with R (l ++ [x]) v <-> R x v \/ (forall w, ~ R x w) /\ last_with R l v.
Proof.
  intros F. split.
  - intros (b & y & a & E & Ry & N). destruct a as [|z a] using rev_ind.
    + apply app_inj_tail in E as [-> ->]. now left.
    + rewrite app_comm_cons, app_assoc in E. apply app_inj_tail in E as [-> ->]. right. split.
      * intros w. apply (N z w). apply in_or_app. right. now left.
      * exists b, y, a. split; auto. split; auto. intros z' w H. apply N. apply in_or_app. now left.
  - intros [H|[N (b & y & a & -> & Ry & M)]].
    + exists l, x, []. split; [reflexivity|]. split; [exact H|]. intros z w [].
    + exists b, y, (a ++ [x]). split; [now rewrite <- app_assoc|]. split; auto. intros z w H.
      apply in_app_iff in H as [H|[<-|[]]]; auto.
Qed.
Lemma last_nil {A C} (R : A -> C -> Prop) v : ~ last_with R [] v.
Proof. intros ([|] & ? & ? & E & _); discriminate E. Qed.

Lemma put_spec {V} (f : updated_attribute -> option V) (R : Z -> updated_attribute -> V -> Prop) :
  (forall u v, f u = Some v <-> R (u_actor_id u) u v) -> (forall k u v, R k u v -> u_actor_id u = k) ->
  forall us k v, map_get k (fold_left (fun m u => put (u_actor_id u) (f u) m) us []) = Some v <-> last_with (R k) us v.
Proof.
  intros H K us. induction us as [|u us IH] using rev_ind; intros k v.
  - cbn. split; [discriminate|]. intros L. now apply last_nil in L.
  - rewrite fold_left_app, last_snoc. cbn [fold_left].
    + destruct (f u) as [w|] eqn:E; cbn [put].
      * rewrite map_get_insert. destruct (Z.eqb_spec k (u_actor_id u)) as [->|N].
        -- split; [intros [= <-]; left; now apply H|]. intros [Q|[Q _]]; [apply H in Q; congruence|].
           destruct (Q w). now apply H.
        -- rewrite IH. split; [intros Q; right; split; auto; intros z Rz; apply K in Rz; congruence|].
           intros [Q|[_ Q]]; auto. apply K in Q. congruence.
      * rewrite IH. split; [intros Q; right; split; auto; intros z Rz|intros [Q|[_ Q]]; auto].
        -- pose proof (K _ _ _ Rz) as <-. apply H in Rz. congruence.
        -- pose proof (K _ _ _ Q) as <-. apply H in Q. congruence.
    + intros a b c Q Q'. pose proof (K _ _ _ Q) as <-. apply H in Q, Q'. congruence.
Qed.

Lemma maps_of l : forall s, 
  ds_car_to_pri (apply_all l s) = fold_left (fun m u => put (u_actor_id u) (player_of u) m) (map snd l) (ds_car_to_pri s) /\
  ds_pri_to_name (apply_all l s) = fold_left (fun m u => put (u_actor_id u) (name_of u) m) (map snd l) (ds_pri_to_name s).
Proof.
  induction l as [|[t u] l IH]; intros s; cbn [map fold_left]; [split; reflexivity|].
  unfold apply_all in *. cbn [fold_left fst snd]. destruct (IH (demo_step r t s u)) as [-> ->]. rewrite step_parts. split; reflexivity.
Qed.

Lemma car_map fs a p : map_get a (ds_car_to_pri (demo_loop r fs)) = Some p <->
  last_with (gives_player objects a) (updates fs) p.
Proof.
  rewrite loop_flat, (proj1 (maps_of _ _)), timed_updates. cbn [ds_car_to_pri].
  apply (put_spec player_of (gives_player objects)); [apply player_spec|]. now intros k u v [H _].
Qed.
Lemma name_map fs a n : map_get a (ds_pri_to_name (demo_loop r fs)) = Some n <->
  last_with (gives_name objects a) (updates fs) n.
Proof.
  rewrite loop_flat, (proj2 (maps_of _ _)), timed_updates. cbn [ds_pri_to_name].
  apply (put_spec name_of (gives_name objects)); [apply name_spec|]. now intros k u v [H _].
Qed.

Lemma resolve_called fs a : Z.abs a < 10 ^ 20 -> called objects (updates fs) a (resolve_name (demo_loop r fs) a).
Proof.
  intros L. unfold resolve_name. destruct (Z.eqb_spec a (-1)) as [->|N]; [constructor|].
  destruct (map_get a (ds_pri_to_name (demo_loop r fs))) as [n|] eqn:E1.
  { apply name_map in E1. now apply ca_player. }
  assert (N1 : forall m, ~ last_with (gives_name objects a) (updates fs) m).
  { intros m H. apply name_map in H. congruence. }
  destruct (map_get a (ds_car_to_pri (demo_loop r fs))) as [p|] eqn:E2.
  - destruct (map_get p (ds_pri_to_name (demo_loop r fs))) as [n|] eqn:E3.
    + apply car_map in E2. apply name_map in E3. eapply ca_car; eauto.
    + unfold say. cbn [concat]. rewrite app_nil_r. apply ca_unknown; auto; [|now apply display_decimal].
      intros q n Hq Hn. apply car_map in Hq. apply name_map in Hn. congruence.
  - unfold say. cbn [concat]. rewrite app_nil_r. apply ca_unknown; auto; [|now apply display_decimal].
    intros q n Hq Hn. apply car_map in Hq. congruence.
Qed.

End Demo.

Section Files.
Context (B : bitter) (HB : bitter_ok B) (ho : hash_order) (Hho : hash_order_ok ho).
Notation parse := (parse_with B ho).

Lemma objects_small c n data r : lenZ data < 2 ^ 31 -> parse c n data = Ok r -> SpecReplay.small (r_objects r).
Proof. intros L E. pose proof (replay_small B ho _ _ _ _ L E) as S. unfold small_lists in S. tauto. Qed.

Lemma names_exact data l e : lenZ data < 2 ^ 31 ->
  names_main B ho data = (l, e) <-> names_run (parse CrcOnError NetIgnoreOnError data) l e.
Proof.
  intros L. assert (N : names_run (parse CrcOnError NetIgnoreOnError data) (fst (names_main B ho data)) (snd (names_main B ho data))).
  { unfold names_main. change (builder_parse B ho _) with (parse CrcOnError NetIgnoreOnError data).
    destruct (parse_total B HB ho Hho CrcOnError NetIgnoreOnError data L) as [(r & E)|(x & E)]; rewrite E.
    - apply names_found_spec. eapply objects_small; eauto.
    - constructor. }
  split; [intros E; now rewrite E in N|]. intros H. destruct (names_run_fun _ _ _ _ _ N H) as [<- <-].
  now destruct (names_main B ho data).
Qed.

(** ** Values *)

Lemma update_range_in e fs : forall h, frames_range e h fs -> forall u, In u (updates (map to_frame fs)) ->
  exists name tag, object_at (e_objects e) (u_object_id u) name /\ kind_of name tag /\
    attribute_range (e_attr e) tag (u_attribute u).
Proof.
  induction fs as [|[[t d] rs] fs IH]; intros h R u; [intros []|]. cbn [frames_range] in R.
  destruct R as (_ & _ & _ & _ & _ & R & R'). unfold updates. cbn [map flat_map to_frame]. rewrite in_app_iff. intros [H|H].
  2: exact (IH _ R' u H).
  cbn [frame_of f_updated_actors] in H. clear IH R'. revert h R H. induction rs as [|x rs IH]; intros h R H; [destruct H|].
  destruct R as [R R']. cbn [flat_map] in H. apply in_app_iff in H as [H|H]; [|eauto].
  destruct x; cbn [updated_of] in H; try destruct H. destruct R as (_ & obj & cls & _ & _ & F).
  rewrite Forall_forall in F. destruct (F _ H) as (_ & bound & p & name & tag & _ & _ & _ & -> & O & K & A). eauto.
Qed.

Lemma update_value c n data r fs u : lenZ data < 2 ^ 31 -> parse c n data = Ok r -> r_network_frames r = Some fs ->
  In u (updates fs) -> exists D name tag, object_at (r_objects r) (u_object_id u) name /\ kind_of name tag /\
    attribute_range D tag (u_attribute u).
Proof.
  intros L E Ef Hu. destruct (frames_in_range B HB ho Hho _ _ _ _ _ L E Ef) as (h & b & rest & e & xs & F & He & -> & R).
  destruct (update_range_in _ _ _ R _ Hu) as (name & tag & O & K & A). exists (e_attr e), name, tag.
  split; [|auto]. destruct (parse_ok_file B ho _ _ _ _ L E) as (h' & b' & rest' & F' & ->).
  destruct (file_fun B ho data L _ _ _ _ _ _ F F') as [<- <-].
  destruct He as (? & ? & ? & ? & ? & ? & ? & ? & ? & _ & _ & _ & _ & _ & _ & _ & _ & _ & ->). exact O.
Qed.

(** what the programs expect *)
Lemma expected c n data r fs u : lenZ data < 2 ^ 31 -> parse c n data = Ok r -> r_network_frames r = Some fs ->
  In u (updates fs) ->
  let of name := object_at (r_objects r) (u_object_id u) (lit name) in
  (of "Engine.PlayerReplicationInfo:PlayerName"%string -> exists s, u_attribute u = AString s) /\
  (of "Engine.PlayerReplicationInfo:Ping"%string -> exists x, u_attribute u = AByte x /\ 0 <= x < 256) /\
  (of "Engine.Pawn:PlayerReplicationInfo"%string -> exists a, u_attribute u = AActiveActor a) /\
  (of "TAGame.Car_TA:ReplicatedDemolish"%string -> exists d, u_attribute u = ADemolish d) /\
  (of "TAGame.Car_TA:ReplicatedDemolishGoalExplosion"%string \/ of "TAGame.Car_TA:ReplicatedDemolish_CustomFX"%string ->
     exists d, u_attribute u = ADemolishFx d) /\
  (of "TAGame.Car_TA:ReplicatedDemolishExtended"%string -> exists d, u_attribute u = ADemolishExtended d).
Proof.
  intros L E Ef Hu of. destruct (update_value _ _ _ _ _ _ L E Ef Hu) as (D & name & tag & O & K & A).
  assert (T : forall x t, of x -> str_assoc (lit x) ATTRIBUTES = Some t -> tag = t).
  { intros x t Ox I. rewrite (object_fun _ _ _ _ O Ox) in K. apply kind_of_spec in K. now rewrite I in K. }
  assert (P : forall x t, of x -> str_assoc (lit x) ATTRIBUTES = Some t -> attribute_range D t (u_attribute u)).
  { intros x t Ox I. now rewrite <- (T x t Ox I). }
  repeat split.
  - intros Q. specialize (P _ TString Q ltac:(vm_compute; reflexivity)). destruct (u_attribute u); try (destruct P; fail); eauto.
  - intros Q. specialize (P _ TByte Q ltac:(vm_compute; reflexivity)). destruct (u_attribute u); try (destruct P; fail); eauto.
  - intros Q. specialize (P _ TActiveActor Q ltac:(vm_compute; reflexivity)). destruct (u_attribute u); try (destruct P; fail); eauto.
  - intros Q. specialize (P _ TDemolish Q ltac:(vm_compute; reflexivity)). destruct (u_attribute u); try (destruct P; fail); eauto.
  - intros [Q|Q]; specialize (P _ TDemolishFx Q ltac:(vm_compute; reflexivity)); destruct (u_attribute u); try (destruct P; fail); eauto.
  - intros Q. specialize (P _ TDemolishExtended Q ltac:(vm_compute; reflexivity)). destruct (u_attribute u); try (destruct P; fail); eauto.
Qed.

(** ** The ending of demo.rs *)

Lemma demolishes_range c n data r fs u a v : lenZ data < 2 ^ 31 -> parse c n data = Ok r -> r_network_frames r = Some fs ->
  In u (updates fs) -> demolishes (r_objects r) u a v -> signed 32 a /\ signed 32 v.
Proof.
  intros L E Ef Hu H. destruct (update_value _ _ _ _ _ _ L E Ef Hu) as (D & name & tag & _ & _ & A).
  destruct H as [u d I Q|u d I Q|u d I Q]; rewrite Q in A; destruct tag; try (destruct A; fail); unfold attribute_range, active_range in A; tauto.
Qed.

Lemma updates_few c n data r fs : lenZ data < 2 ^ 31 -> parse c n data = Ok r -> r_network_frames r = Some fs ->
  lenZ (updates fs) <= 8 * lenZ data.
Proof.
  intros L E Ef.
  assert (A : forall a, 0 <= attribute_size a).
  { assert (Rm : forall i, 0 <= remote_size i) by (destruct i; cbn; unfold text_size, bytes_size; lia).
    assert (On : forall l, 0 <= online_size l).
    { intros l. apply total_nonneg. intros x. enough (0 <= total product_size x) by lia. apply total_nonneg. intros y.
      unfold product_size, text_size. destruct (pr_value y); lia. }
    assert (M : forall C (f : C -> Z) o, (forall x, 0 <= f x) -> 0 <= maybe f o) by (intros C f [x|] Hf; cbn; auto; lia).
    assert (Te : forall s, 0 <= text_size s) by (intros; unfold text_size; lia).
    destruct a; cbn [attribute_size]; unfold unique_size; auto; try lia;
      repeat apply Z.add_nonneg_nonneg; auto. }
  assert (U : lenZ (updates fs) <= total frame_size fs).
  { clear - A. induction fs as [|f fs IH]; [unfold lenZ; cbn; lia|]. unfold updates, lenZ in *. cbn [flat_map total fold_right].
    rewrite app_length, Nat2Z.inj_add. unfold total in IH. enough (Z.of_nat (length (f_updated_actors f)) <= frame_size f) by lia.
    unfold frame_size.
    enough (Z.of_nat (length (f_updated_actors f)) <= total (fun u => 1 + attribute_size (u_attribute u)) (f_updated_actors f)) by lia.
    generalize (f_updated_actors f) as us. induction us as [|u us IHu]; cbn [length total fold_right]; [lia|].
    unfold total in IHu. specialize (A (u_attribute u)). lia. }
  destruct (parse_frames_inv B HB ho Hho _ _ _ _ _ L E Ef) as (h & b & rest & xs & F & Er & X & ->).
  apply frames_paid in X. destruct F as (h' & o & Sh & b' & o' & Sb & [= -> ->] & ->).
  assert (len o <= len data).
  { destruct Sh as (size & crc & cov & m & x & (m1 & H1 & H2 & _) & Px & ->). apply fp_i32 in H1. apply fp_u32 in H2.
    apply header_shrinks in Px. lia. }
  apply (fp_section _ _ fp_body) in Sb.
  assert (T : forall l, 0 <= texts_size l) by (intros l; apply total_nonneg; intros; unfold text_size; lia).
  assert (T1 : forall l, 0 <= total (fun d => 1 + text_size (di_user d) + text_size (di_text d)) l)
    by (intros l; apply total_nonneg; intros; unfold text_size; lia).
  assert (T2 : forall l, 0 <= total (fun t => 1 + text_size (tm_description t)) l)
    by (intros l; apply total_nonneg; intros; unfold text_size; lia).
  assert (T3 : forall l, 0 <= total (fun c => 1 + text_size (cx_class c)) l)
    by (intros l; apply total_nonneg; intros; unfold text_size; lia).
  assert (T4 : forall l, 0 <= total (fun c => 1 + len (nc_properties c)) l) by (intros l; apply total_nonneg; intros; lia).
  match type of Sb with context [sec_value ?b] => set (v := sec_value b) in * end.
  pose proof (T (b_levels v)). pose proof (T (b_packages v)). pose proof (T (b_objects v)). pose proof (T (b_names v)).
  specialize (T1 (b_debug_info v)). specialize (T2 (b_tick_marks v)). specialize (T3 (b_class_indices v)).
  specialize (T4 (b_net_cache v)). unfold lenZ in *. lia.
Qed.

End Files.
