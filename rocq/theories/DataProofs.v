(** * Proofs: the static tables *)

From Coq Require Import ZArith List Bool Lia.
From Verif Require Import Base Text NetTypes Errors Header Body BitReader NetModels Data ObjectIndex Parser SpecBasic SpecNet SpecFrames SpecRange SpecFile
  SpecReplay SpecFacts SpecData BasicProofs HierarchyProofs TableProofs NetworkProofs FrameFacts ParseProofs SendProofs.
Open Scope Z_scope.
#[local] Opaque PARENT_CLASSES SPAWN_STATS ATTRIBUTES.

(** ** Lists of names *)

Definition memb (x : str) (l : list str) : bool := existsb (str_eqb x) l.
Lemma memb_spec x l : memb x l = true <-> In x l.
Proof.
  unfold memb. rewrite existsb_exists. split.
  - intros (y & H & E). apply str_eqb_spec in E. now subst.
  - intros H. exists x. split; [exact H|apply str_eqb_refl].
Qed.

Fixpoint splits (s : str) : list (str * str) :=
  ([], s) :: match s with [] => [] | x :: t => map (fun ab => (x :: fst ab, snd ab)) (splits t) end.
Lemma splits_spec a : forall b, In (a, b) (splits (a ++ b)).
Proof.
  induction a as [|x a IH]; intros b; [destruct b; left; reflexivity|]. cbn [app splits]. right.
  apply in_map_iff. exists (a, b). split; [reflexivity|apply IH].
Qed.

Definition startsb (a s : str) : bool := str_eqb (firstn (length a) s) a.
Lemma startsb_spec a b : startsb a (a ++ b) = true.
Proof. unfold startsb. rewrite firstn_app, Nat.sub_diag, firstn_all. cbn. rewrite app_nil_r. apply str_eqb_refl. Qed.
Definition endsb (b s : str) : bool := existsb (fun p => str_eqb (snd p) b) (splits s).
Lemma endsb_spec a b : endsb b (a ++ b) = true.
Proof. apply existsb_exists. exists (a, b). split; [apply splits_spec|apply str_eqb_refl]. Qed.
Definition cut (a s : str) : option str := if startsb a s then Some (skipn (length a) s) else None.
Lemma cut_spec a b : cut a (a ++ b) = Some b.
Proof. unfold cut. rewrite startsb_spec, skipn_app, Nat.sub_diag, skipn_all. reflexivity. Qed.

(** ** The hierarchy *)

(** a name and its ancestors *)
Fixpoint way (fuel : nat) (c : str) : list str :=
  match fuel with
  | O => []
  | S f => match str_assoc (normalize_object c) PARENT_CLASSES with None => [c] | Some p => c :: way f p end
  end.
Definition full (c : str) : list str := way 14 c.

Lemma way_path c : forall l, path c l -> forall f, (length l <= f)%nat -> way f c = l.
Proof.
  intros l H. induction H as [c H|c p l H _ IH]; intros [|f] L; cbn [length way] in *; try lia.
  - apply no_parent_spec in H. now rewrite H.
  - apply parent_spec in H. rewrite H, IH by lia. reflexivity.
Qed.
Lemma lineage_path c l : lineage c l -> exists x, path c (l ++ [x]).
Proof.
  induction 1 as [c H|c p l H _ [x IH]]; [exists c; now constructor|]. exists x. cbn [app]. econstructor; eauto.
Qed.
Lemma path_fun c l m : path c l -> path c m -> l = m.
Proof.
  intros H H'. rewrite <- (way_path _ _ H (length l + length m)) by lia. now apply way_path; [|lia].
Qed.
Lemma path_total c : path c (full c).
Proof.
  destruct (lineage_total c) as (l & Hl & L). apply lineage_path in Hl as (x & H). pose proof H as H'.
  apply way_path with (f := 14%nat) in H; [unfold full; now rewrite H|]. rewrite app_length. cbn [length]. unfold max_depth in L. lia.
Qed.
Lemma path_full c l : path c l <-> l = full c.
Proof. split; [intros H; eapply path_fun; [exact H|apply path_total]|intros ->; apply path_total]. Qed.

Lemma descends_full c d : descends c d <-> In d (full c).
Proof.
  pose proof (path_total c) as H. induction H as [c H|c p l H HP IH].
  - split; [intros [->|A]; [now left|]|intros [->|[]]; now left].
    exfalso. inversion A; subst; eapply H; eassumption.
  - split.
    + intros [->|A]; [now left|]. right. apply IH. inversion A; subst.
      * assert (d = p) by (eapply parent_fun; eassumption). subst. now left.
      * assert (p0 = p) by (eapply parent_fun; eassumption). subst. now right.
    + intros [->|Hin]; [now left|]. apply IH in Hin as [->|A]; right; [now constructor|]. eapply anc_trans; eassumption.
Qed.
Lemma full_up c p : parent c p -> full c = c :: full p.
Proof. intros H. symmetry. apply path_full. econstructor; [exact H|apply path_total]. Qed.
Lemma full_top c : (forall p, ~ parent c p) -> full c = [c].
Proof. intros H. symmetry. apply path_full. now constructor. Qed.

Definition classes : list str :=
  let l := map fst PARENT_CLASSES in l ++ filter (fun c => negb (memb c l)) (map snd PARENT_CLASSES).
Lemma known_classes c : known_class c <-> In c classes.
Proof.
  unfold classes. rewrite in_app_iff, filter_In, negb_true_iff. rewrite <- memb_spec. split.
  - intros (d & [H|H]).
    + left. apply memb_spec. apply in_map_iff. exists (c, d). auto.
    + destruct (memb c (map fst PARENT_CLASSES)); [now left|right]. split; [|reflexivity]. apply in_map_iff. exists (d, c). auto.
  - rewrite memb_spec, !in_map_iff. intros [([a d] & E & H)|[([d a] & E & H) _]]; cbn in E; subst a; exists d; auto.
Qed.

(** a check of all classes *)
Definition each_class (f : str -> bool) : bool := forallb f classes.
Lemma each_class_spec f c : each_class f = true -> known_class c -> f c = true.
Proof. unfold each_class. rewrite forallb_forall. intros H K. apply H. now apply known_classes. Qed.

(** ** Attributes *)

Definition colon : byte := ":"%byte.
Definition has_colon (s : str) : bool := existsb (Byte.eqb colon) s.
Lemma has_colon_spec s : has_colon s = true <-> In colon s.
Proof.
  unfold has_colon. rewrite existsb_exists. split.
  - intros (x & H & E). apply Byte.byte_dec_bl in E. now subst.
  - intros H. exists colon. split; [exact H|reflexivity].
Qed.
Lemma no_colon s : has_colon s = false <-> ~ In colon s.
Proof. rewrite <- has_colon_spec. destruct (has_colon s); split; congruence. Qed.

(** the class and the property of a name *)
Fixpoint at_colon (s : str) : str * str :=
  match s with
  | [] => ([], [])
  | x :: t => if Byte.eqb colon x then ([], t) else let cp := at_colon t in (x :: fst cp, snd cp)
  end.
Lemma at_colon_spec c p : ~ In colon c -> at_colon (c ++ colon :: p) = (c, p).
Proof.
  induction c as [|x c IH]; intros H; [reflexivity|]. cbn [app at_colon].
  destruct (Byte.eqb colon x) eqn:E.
  - exfalso. apply H. left. symmetry. now apply Byte.byte_dec_bl.
  - rewrite IH by (intros X; apply H; now right). reflexivity.
Qed.
Lemma at_colon_inv s : has_colon s = true -> s = fst (at_colon s) ++ colon :: snd (at_colon s) /\ ~ In colon (fst (at_colon s)).
Proof.
  induction s as [|x s IH]; [discriminate|]. unfold has_colon. cbn [existsb at_colon]. destruct (Byte.eqb colon x) eqn:E.
  - intros _. apply Byte.byte_dec_bl in E. subst x. split; [reflexivity|intros []].
  - cbn [orb]. intros H. destruct (IH H) as [E1 N]. cbn [fst snd app]. rewrite <- E1. split; [reflexivity|].
    intros [X|X]; [subst x; discriminate|contradiction].
Qed.
Lemma declares_in c p t : declares c p t -> exists n, In (n, t) ATTRIBUTES /\ at_colon n = (c, p).
Proof. intros (H1 & _ & H). eexists. split; [exact H|]. now apply at_colon_spec. Qed.

Definition known_kind (t : attribute_tag) : bool := match t with TNotImplemented => false | _ => true end.
Definition actor : str := lit "Engine.Actor".
Definition good_name (e : str * attribute_tag) : bool :=
  let (c, p) := at_colon (fst e) in
  known_kind (snd e) && has_colon (fst e) && negb (has_colon p) && negb (str_eqb p []) && memb actor (full c).
Lemma good_names : forallb good_name ATTRIBUTES = true.
Proof. vm_compute. reflexivity. Qed.

Lemma attributes_declared n t : In (n, t) ATTRIBUTES ->
  t <> TNotImplemented /\ exists c p, n = c ++ ":"%byte :: p /\ declares c p t /\ p <> [] /\ descends c (lit "Engine.Actor").
Proof.
  intros H. pose proof good_names as G. rewrite forallb_forall in G. specialize (G _ H). unfold good_name in G. cbn [fst snd] in G.
  destruct (at_colon n) as [c p] eqn:E. apply andb_prop in G as [G G5]. apply andb_prop in G as [G G4]. apply andb_prop in G as [G G3].
  apply andb_prop in G as [G1 G2]. split; [intros ->; discriminate|]. destruct (at_colon_inv n G2) as [E1 N]. rewrite E in *. cbn [fst snd] in *.
  exists c, p. split; [exact E1|]. split; [split; [exact N|split; [now apply no_colon, negb_true_iff|subst n; exact H]]|].
  split; [intros ->; discriminate|]. apply descends_full. now apply memb_spec.
Qed.

Definition tag_dec (a b : attribute_tag) : {a = b} + {a <> b}.
Proof. decide equality. Defined.
Definition tag_eqb (a b : attribute_tag) : bool := if tag_dec a b then true else false.
Lemma tag_eqb_eq a b : tag_eqb a b = true -> a = b.
Proof. unfold tag_eqb. destruct (tag_dec a b); congruence. Qed.

(** two declarations of one property *)
Definition split_names : list (str * str * attribute_tag) := map (fun e => (at_colon (fst e), snd e)) ATTRIBUTES.
Lemma declares_split c p t : declares c p t -> In (c, p, t) split_names.
Proof. intros H. apply declares_in in H as (n & Hn & E). apply in_map_iff. exists (n, t). cbn [fst snd]. rewrite E. auto. Qed.
Definition agree (x y : str * str * attribute_tag) : bool :=
  let '(c, p, t) := x in let '(d, q, u) := y in
  if str_eqb p q then if tag_eqb t u then if str_eqb c d then true else negb (memb c (full d)) else false else true.
Lemma all_agree : forallb (fun x => forallb (agree x) split_names) split_names = true.
Proof. vm_compute. reflexivity. Qed.
Lemma agree_spec c d p t u : declares c p t -> declares d p u -> t = u /\ ~ ancestor d c.
Proof.
  intros H H'. apply declares_split in H, H'. pose proof all_agree as G. rewrite forallb_forall in G. specialize (G _ H).
  cbv beta in G. rewrite forallb_forall in G. specialize (G _ H'). unfold agree in G. rewrite str_eqb_refl in G.
  destruct (tag_eqb t u) eqn:G1; [|discriminate]. split; [now apply tag_eqb_eq|]. intros A. destruct (str_eqb c d) eqn:G2.
  - apply str_eqb_spec in G2. subst d. exact (ancestor_irrefl _ A).
  - apply negb_true_iff in G. assert (X : memb c (full d) = true) by (apply memb_spec, descends_full; now right). congruence.
Qed.

Definition flagb (p : str) : bool :=
  match p with a :: x :: _ => Byte.eqb "b"%byte a && ((65 <=? byteZ x) && (byteZ x <=? 90)) | _ => false end.
Lemma flagb_spec p : flagb p = true <-> flag_name p.
Proof.
  unfold flag_name. change (byteZ "A") with 65. change (byteZ "Z") with 90. destruct p as [|a [|x p]]; cbn [flagb].
  - split; [discriminate|intros (x & r & [=] & _)].
  - split; [discriminate|intros (y & r & [=] & _)].
  - rewrite !andb_true_iff, !Z.leb_le. split.
    + intros [E H]. apply Byte.byte_dec_bl in E. subst a. exists x, p. auto.
    + intros (y & r & [= -> -> ->] & H). auto.
Qed.
Definition odd_flag : str * str := (lit "TAGame.PRI_TA", lit "PlayerHistoryValid").
Definition flag_ok (x : str * str * attribute_tag) : bool :=
  let '(c, p, t) := x in
  Bool.eqb (tag_eqb t TBoolean) (flagb p || str_eqb c (fst odd_flag) && str_eqb p (snd odd_flag)).
Lemma flags_ok : forallb flag_ok split_names = true.
Proof. vm_compute. reflexivity. Qed.
Lemma flags c p t : declares c p t -> (t = TBoolean <-> flag_name p \/ c = lit "TAGame.PRI_TA" /\ p = lit "PlayerHistoryValid").
Proof.
  intros H. apply declares_split in H. pose proof flags_ok as G. rewrite forallb_forall in G. specialize (G _ H). unfold flag_ok in G.
  apply eqb_prop in G. rewrite <- flagb_spec. unfold odd_flag in G. cbn [fst snd] in G.
  rewrite <- (str_eqb_spec c), <- (str_eqb_spec p), <- andb_true_iff, <- orb_true_iff, <- G. unfold tag_eqb.
  destruct (tag_dec t TBoolean); split; congruence.
Qed.

(** ** Parents and families *)

Definition parent_ok (e : str * str) : bool :=
  let (c, p) := e in
  match cut (lit "TAGame.Default__") c with Some x => str_eqb p (lit "TAGame." ++ x) | None => true end &&
  match cut level c with Some x => str_eqb p (lit "TAGame." ++ x) | None => true end &&
  (negb (endsb (lit ":GameReplicationInfoArchetype") c) || str_eqb p (lit "TAGame.GRI_TA")) &&
  match cut (lit "Archetypes.") c with
  | Some x => forallb (fun ab => match cut (lit ".") (snd ab) with
      | Some y => let q := lit "TAGame." ++ y ++ lit "_TA" in negb (memb q classes) || str_eqb p q
      | None => true end) (splits x)
  | None => true
  end.
Lemma parents_ok : forallb parent_ok PARENT_CLASSES = true.
Proof. vm_compute. reflexivity. Qed.
Lemma named_parent c d p : parent_by_name c d -> In (c, p) PARENT_CLASSES -> p = d.
Proof.
  intros H Hin. pose proof parents_ok as G. rewrite forallb_forall in G. specialize (G _ Hin). unfold parent_ok in G.
  apply andb_prop in G as [G G4]. apply andb_prop in G as [G G3]. apply andb_prop in G as [G1 G2].
  destruct H as [x|x Hx|x|x y K].
  - rewrite cut_spec in G1. now apply str_eqb_spec.
  - rewrite cut_spec in G2. now apply str_eqb_spec.
  - rewrite endsb_spec in G3. now apply str_eqb_spec.
  - rewrite cut_spec in G4. rewrite forallb_forall in G4. specialize (G4 _ (splits_spec x (lit "." ++ y))). cbn [snd] in G4.
    rewrite cut_spec in G4. cbv zeta in G4. apply known_classes, memb_spec in K. rewrite K in G4. now apply str_eqb_spec.
Qed.

Definition family_ok (c : str) : bool :=
  let l := full c in
  (memb c family_exceptions || forallb (fun r => negb (startsb (fst r) c) || memb (snd r) l) family_starts) &&
  forallb (fun r => negb (endsb (fst r) c) || memb (snd r) l) family_ends.
Lemma families_ok : each_class family_ok = true.
Proof. vm_compute. reflexivity. Qed.
Lemma family_start a f c : In (a, f) family_starts -> known_class c -> starts a c -> descends c f \/ In c family_exceptions.
Proof.
  intros H K [b ->]. pose proof (each_class_spec _ _ families_ok K) as G. unfold family_ok in G. apply andb_prop in G as [G _].
  apply orb_prop in G as [G|G]; [right; now apply memb_spec|left]. rewrite forallb_forall in G. specialize (G _ H). cbn [fst snd] in G.
  rewrite startsb_spec in G. apply descends_full. now apply memb_spec.
Qed.
Lemma family_end b f c : In (b, f) family_ends -> known_class c -> ends b c -> descends c f.
Proof.
  intros H K [a ->]. pose proof (each_class_spec _ _ families_ok K) as G. unfold family_ok in G. apply andb_prop in G as [_ G].
  rewrite forallb_forall in G. specialize (G _ H). cbn [fst snd] in G.
  rewrite endsb_spec in G. apply descends_full. now apply memb_spec.
Qed.

Lemma rooted c : known_class c -> descends c (lit "Core.Object") \/ descends c (lit "TAGame.VoteActor_TA").
Proof.
  intros K. rewrite !descends_full. rewrite <- !memb_spec, <- orb_true_iff.
  refine (each_class_spec (fun c => memb (lit "Core.Object") (full c) || memb (lit "TAGame.VoteActor_TA") (full c)) c _ K).
  vm_compute. reflexivity.
Qed.
Lemma not_rooted : exists c, known_class c /\ ~ descends c (lit "Core.Object").
Proof.
  exists (lit "TAGame.Default__VoteActor_TA"). split.
  - apply known_classes. apply memb_spec. vm_compute. reflexivity.
  - rewrite descends_full, <- memb_spec. vm_compute. discriminate.
Qed.

(** ** Spawning *)

Definition table_entry (n : str) (t : spawn_trajectory) : Prop := In (n, t) SPAWN_STATS.
Fixpoint first_entry_of (l : list str) : spawn_trajectory :=
  match l with [] => SpNone | c :: l => match str_assoc c SPAWN_STATS with Some t => t | None => first_entry_of l end end.
Definition turns (t : spawn_trajectory) : bool := match t with SpLocationAndRotation => true | _ => false end.
Definition stays (t : spawn_trajectory) : bool := match t with SpNone => true | _ => false end.
Definition any_in (l m : list str) : bool := existsb (fun c => memb c l) m.
Definition spawn_fits (l : list str) : bool :=
  Bool.eqb (turns (first_entry_of l)) (any_in l turning) &&
  Bool.eqb (stays (first_entry_of l)) (negb (memb actor l) || any_in l placed_in_level).
Lemma spawns_fit_known : each_class (fun c => spawn_fits (full c)) = true.
Proof. vm_compute. reflexivity. Qed.
Lemma used_known : forallb (fun x => memb x classes) (actor :: turning ++ placed_in_level ++ map fst SPAWN_STATS) = true.
Proof. vm_compute. reflexivity. Qed.
Lemma used_other x c : ~ known_class c -> In x (actor :: turning ++ placed_in_level ++ map fst SPAWN_STATS) -> str_eqb x c = false.
Proof.
  intros K H. pose proof used_known as G. rewrite forallb_forall in G. specialize (G _ H). apply memb_spec, known_classes in G.
  apply str_eqb_neq. intros ->. contradiction.
Qed.
Lemma any_skip c l m : (forall x, In x m -> str_eqb x c = false) -> any_in (c :: l) m = any_in l m.
Proof.
  intros H. induction m as [|x m IH]; [reflexivity|]. unfold any_in in *. cbn [existsb]. rewrite IH by (intros; apply H; now right).
  unfold memb at 1. cbn [existsb]. rewrite (H x) by now left. reflexivity.
Qed.
Lemma fits_skip c l : ~ known_class c -> spawn_fits (c :: l) = spawn_fits l.
Proof.
  intros K. pose proof (fun x => used_other x c K) as U. unfold spawn_fits.
  rewrite !any_skip by (intros x Hx; apply U; right; rewrite !in_app_iff; auto).
  replace (first_entry_of (c :: l)) with (first_entry_of l).
  - unfold memb. cbn [existsb]. rewrite (U actor) by now left. reflexivity.
  - cbn [first_entry_of]. destruct (str_assoc c SPAWN_STATS) as [t|] eqn:E; [|reflexivity]. exfalso.
    apply (str_assoc_nodup _ _ _ spawn_stats_nodup) in E. apply (in_map fst) in E. cbn [fst] in E.
    assert (X : str_eqb c c = false) by (apply U; right; rewrite !in_app_iff; auto). rewrite str_eqb_refl in X. discriminate.
Qed.
Lemma spawns_fit c : spawn_fits (full c) = true.
Proof.
  destruct (memb c classes) eqn:M; [apply (each_class_spec _ _ spawns_fit_known), known_classes, memb_spec, M|].
  assert (K : ~ known_class c) by (rewrite known_classes, <- memb_spec, M; discriminate).
  destruct (str_assoc (normalize_object c) PARENT_CLASSES) as [p|] eqn:E.
  - apply parent_spec in E. rewrite (full_up _ _ E), fits_skip by assumption. apply (each_class_spec _ _ spawns_fit_known).
    destruct E as (d & _ & E). exists d. now right.
  - rewrite <- no_parent_spec in E. rewrite (full_top _ E), fits_skip by assumption. vm_compute. reflexivity.
Qed.

Lemma first_spawn objects l t : incl l objects ->
  (first_with (spawn_entry objects) l t \/ none_with (spawn_entry objects) l /\ t = SpNone) -> t = first_entry_of l.
Proof.
  induction l as [|c l IH]; intros I [(b & x & a & E & R & N)|[N ->]]; try reflexivity.
  - destruct b; discriminate.
  - cbn [first_entry_of]. destruct b as [|y b]; cbn [app] in E; injection E as -> ->.
    + destruct R as [_ R]. apply (str_assoc_nodup _ _ _ spawn_stats_nodup) in R. now rewrite R.
    + destruct (str_assoc y SPAWN_STATS) as [u|] eqn:E.
      * exfalso. apply (str_assoc_nodup _ _ _ spawn_stats_nodup) in E. apply (N y u); [now left|]. split; [apply I; now left|exact E].
      * apply IH; [intros z Hz; apply I; now right|]. left. exists b, x, a. split; [reflexivity|]. split; [exact R|]. intros y' z Hy. apply N. now right.
  - cbn [first_entry_of]. destruct (str_assoc c SPAWN_STATS) as [u|] eqn:E.
    + exfalso. apply (str_assoc_nodup _ _ _ spawn_stats_nodup) in E. apply (N c u); [now left|]. split; [apply I; now left|exact E].
    + apply IH; [intros z Hz; apply I; now right|]. right. split; [|reflexivity]. intros y z Hy. apply N. now right.
Qed.

Lemma any_in_spec c m : any_in (full c) m = true <-> exists d, In d m /\ descends c d.
Proof.
  unfold any_in. rewrite existsb_exists. split; intros (d & H & E); exists d; (split; [exact H|]).
  - apply descends_full. now apply memb_spec.
  - apply memb_spec. now apply descends_full.
Qed.
Lemma trajectories objects c t : (forall d, descends c d -> In d objects) -> spawns_as objects c t ->
  (t = SpLocationAndRotation <-> exists d, In d turning /\ descends c d) /\
  (t = SpNone <-> ~ descends c (lit "Engine.Actor") \/ exists d, In d placed_in_level /\ descends c d).
Proof.
  intros I (l & P & H). apply path_full in P. subst l. apply first_spawn in H; [|intros d Hd; apply I; now apply descends_full].
  pose proof (spawns_fit c) as G. unfold spawn_fits in G. rewrite <- H in G. apply andb_prop in G as [G1 G2]. apply eqb_prop in G1, G2. split.
  - rewrite <- any_in_spec, <- G1. destruct t; cbn [turns]; split; congruence.
  - rewrite <- any_in_spec. transitivity (stays t = true); [destruct t; cbn [stays]; split; congruence|].
    rewrite G2, orb_true_iff, negb_true_iff. rewrite descends_full, <- memb_spec. fold actor.
    destruct (memb actor (full c)); intuition congruence.
Qed.

(** ** Letter case *)

Fixpoint zs_eqb (a b : list Z) : bool :=
  match a, b with [], [] => true | x :: a, y :: b => if x =? y then zs_eqb a b else false | _, _ => false end.
Lemma zs_eqb_refl a : zs_eqb a a = true.
Proof. induction a as [|x a IH]; cbn [zs_eqb]; [reflexivity|]. now rewrite Z.eqb_refl. Qed.
Definition case_kinds : list (list Z * attribute_tag) := map (fun e => (map lower (fst e), snd e)) ATTRIBUTES.
Definition case_parents : list (list Z * str) := map (fun e => (map lower (fst e), snd e)) PARENT_CLASSES.
Lemma case_kinds_ok : forallb (fun x => forallb (fun y => negb (zs_eqb (fst x) (fst y)) || tag_eqb (snd x) (snd y)) case_kinds) case_kinds = true.
Proof. vm_compute. reflexivity. Qed.
Lemma case_parents_ok : forallb (fun x => forallb (fun y => negb (zs_eqb (fst x) (fst y)) || str_eqb (snd x) (snd y)) case_parents) case_parents = true.
Proof. vm_compute. reflexivity. Qed.
Lemma case_kind n m t u : same_but_case n m -> In (n, t) ATTRIBUTES -> In (m, u) ATTRIBUTES -> t = u.
Proof.
  intros E H H'. apply (in_map (fun e => (map lower (fst e), snd e))) in H, H'. cbn [fst snd] in H, H'. rewrite E in H.
  pose proof case_kinds_ok as G. rewrite forallb_forall in G. specialize (G _ H). cbv beta in G. rewrite forallb_forall in G. specialize (G _ H').
  cbn [fst snd] in G. rewrite zs_eqb_refl in G. now apply tag_eqb_eq.
Qed.
Lemma case_parent n m t u : same_but_case n m -> In (n, t) PARENT_CLASSES -> In (m, u) PARENT_CLASSES -> t = u.
Proof.
  intros E H H'. apply (in_map (fun e => (map lower (fst e), snd e))) in H, H'. cbn [fst snd] in H, H'. rewrite E in H.
  pose proof case_parents_ok as G. rewrite forallb_forall in G. specialize (G _ H). cbv beta in G. rewrite forallb_forall in G. specialize (G _ H').
  cbn [fst snd] in G. rewrite zs_eqb_refl in G. now apply str_eqb_spec.
Qed.

(** ** Updates in replays *)

Lemma updates_in e : forall rs h u, records_range e h rs -> In u (flat_map updated_of rs) -> exists id cls, update_range e id cls u.
Proof.
  induction rs as [|r rs IH]; intros h u H Hu; [contradiction|]. destruct H as [H1 H2]. cbn [flat_map] in Hu. apply in_app_or in Hu as [Hu|Hu].
  - destruct r as [a|id|id us]; try contradiction. destruct H1 as (_ & obj & cls & _ & _ & F). rewrite Forall_forall in F. eauto.
  - eapply IH; eassumption.
Qed.
Lemma updates_of_frames e : forall xs h f u, frames_range e h xs -> In f (map to_frame xs) -> In u (f_updated_actors f) -> exists id cls, update_range e id cls u.
Proof.
  induction xs as [|[[t d] rs] xs IH]; intros h f u H Hf Hu; [contradiction|]. destruct H as (_ & _ & _ & _ & _ & H1 & H2).
  destruct Hf as [<-|Hf]; [|eapply IH; eassumption]. eapply updates_in; eassumption.
Qed.
Lemma updates_declared B ho c n data r fs f u : bitter_ok B -> hash_order_ok ho -> lenZ data < 2 ^ 31 ->
  parse_with B ho c n data = Ok r -> r_network_frames r = Some fs -> In f fs -> In u (f_updated_actors f) ->
  exists k p t, object_at (r_objects r) (u_object_id u) (k ++ ":"%byte :: p) /\ declares k p t /\
    ((exists b, u_attribute u = ABoolean b) <-> flag_name p \/ k = lit "TAGame.PRI_TA" /\ p = lit "PlayerHistoryValid").
Proof.
  intros HB Hho L E Ef Hf Hu. destruct (parse_frames_inv B HB ho Hho _ _ _ _ _ L E Ef) as (h0 & b0 & rest0 & xs0 & F0 & Er & _ & _).
  destruct (frames_in_range B HB ho Hho _ _ _ _ _ L E Ef) as (h & b & rest & e & xs & F & He & -> & R).
  assert (Eo : e_objects e = r_objects r).
  { assert (X : h = h0 /\ b = b0) by (eapply file_fun; eassumption). destruct X as [-> ->]. subst r.
    destruct He as (? & ? & ? & ? & ? & ? & ? & ? & ? & _ & _ & _ & _ & _ & _ & _ & _ & _ & He). cbv zeta in He. subst e. reflexivity. }
  destruct (updates_of_frames _ _ _ _ _ R Hf Hu) as (id & cls & _ & bound & q & name & tag & _ & _ & _ & Eq & Ho & K & A).
  assert (T : tag <> TNotImplemented) by (intros ->; exact A).
  destruct K as [K|[_ ->]]; [|contradiction]. destruct (attributes_declared _ _ K) as (_ & k & p & -> & D & _).
  exists k, p, tag. rewrite Eq, <- Eo. split; [exact Ho|]. split; [exact D|]. rewrite <- (flags _ _ _ D). split.
  - intros (x & Ex). rewrite Ex in A. destruct tag; try contradiction. reflexivity.
  - intros ->. destruct (u_attribute u); try contradiction. eauto.
Qed.

(** ** Votes *)

Definition vote : str := lit "TAGame.Default__VoteActor_TA".
Definition vote_class : str := lit "TAGame.VoteActor_TA".
Lemma vote_lineage : lineage vote [vote].
Proof. apply (chain_lineage 14). vm_compute. reflexivity. Qed.
Lemma vote_parent : parent vote vote_class.
Proof. apply parent_spec. vm_compute. reflexivity. Qed.
Lemma vote_resolves objects caches s p : resolves objects caches vote s p -> exists i, first_index objects vote i /\ In p (listed caches i).
Proof.
  intros (ids & (l & Hl & Hi) & b & x & a & -> & M & _). rewrite (lineage_fun _ _ _ Hl vote_lineage) in Hi.
  inversion Hi as [|n0 l0 i0 ids0 Hf Hr E1 E2|n0 l0 ids0 N Hr E1 E2]; subst.
  - inversion Hr; subst. destruct b as [|y b]; cbn [app] in E2; injection E2 as -> E2; [|destruct b; discriminate].
    exists x. split; [exact Hf|]. destruct M as (m & m' & -> & _). apply in_or_app. right. now left.
  - inversion Hr; subst. destruct b; discriminate.
Qed.
Lemma votes_lost : exists objects caches i s p, parent vote vote_class /\ first_index objects vote_class i /\ mention caches s i p /\
  forall q, ~ resolves objects caches vote s q.
Proof.
  exists [vote; vote_class; lit "TAGame.VoteActor_TA:bFinished"], [mkNetCache 1 0 1 [mkCacheProp 2 5]], 1, 5, (mkCacheProp 2 5).
  split; [exact vote_parent|]. split.
  - exists [vote], [lit "TAGame.VoteActor_TA:bFinished"]. split; [reflexivity|]. split; [|reflexivity]. intros [H|[]]. vm_compute in H. discriminate.
  - split; [exists [], []; repeat split; intros q []|]. intros q Q. apply vote_resolves in Q as (i & (b & a & E & N & ->) & H).
    destruct b as [|x b]; [contradiction|]. injection E as <- _. apply N. now left.
Qed.
Lemma inherited_lost : exists objects caches c d i s p, parent c d /\ first_index objects d i /\ mention caches s i p /\
  forall q, ~ resolves objects caches c s q.
Proof. destruct votes_lost as (o & k & i & s & p & V). exists o, k, vote, vote_class, i, s, p. exact V. Qed.
