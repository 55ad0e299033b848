(** * Proofs: what demo.rs, ping.rs and property_counter.rs print *)

From Coq Require Import ZArith List Bool Lia ZifyBool ZifyNat Sorted Permutation.
From Verif Require Import Base F32 NetTypes Errors Core Header Body BitReader Attributes Data ObjectIndex FrameDecoder
  Network Parser Json Display SpecDecimal JsonLogic SpecBasic BasicProofs SpecNet SpecFrames SpecFile
  SpecReplay SpecFacts SpecDisplay FileProofs FileFacts ParseProofs BitLemmas DisplayProofs DisplayUnique SpecRange SpecExamples Examples
  StableProofs ExampleFacts.
Open Scope Z_scope.
#[local] Opaque PARENT_CLASSES SPAWN_STATS ATTRIBUTES.

(** ** Frames are there *)

Lemma frames_there B (HB : bitter_ok B) ho (Hho : hash_order_ok ho) c data r : lenZ data < 2 ^ 31 ->
  parse_with B ho c NetAlways data = Ok r -> exists fs, r_network_frames r = Some fs.
Proof.
  intros L E. destruct (parse_ok_file B ho _ _ _ _ L E) as (h & b & rest & F & Er).
  pose proof (fate_file B ho _ _ _ _ L F c NetAlways) as E'. rewrite E in E'.
  destruct (mismatch c _ _); [discriminate|]. destruct (mismatch c _ _); [discriminate|].
  destruct (network_parse_frames _ _ _ _); cbn [net_result out_map] in E'; try discriminate. injection E' as ->. eexists. reflexivity.
Qed.

(** ** demo.rs *)

Lemma last_fun {A C} (R : A -> C -> Prop) l v w : (forall x y z, R x y -> R x z -> y = z) ->
  last_with R l v -> last_with R l w -> v = w.
Proof.
  intros F. revert v w. induction l as [|x l IH] using rev_ind; intros v w H H'; [now apply last_nil in H|].
  apply last_snoc in H; auto. apply last_snoc in H'; auto. destruct H as [H|[N H]], H' as [H'|[N' H']]; eauto.
  - now apply N' in H.
  - now apply N in H'.
Qed.
Lemma gives_name_fun objects a u n m : gives_name objects a u n -> gives_name objects a u m -> n = m.
Proof. intros (_ & E & _) (_ & E' & _). congruence. Qed.
Lemma gives_player_fun objects a u n m : gives_player objects a u n -> gives_player objects a u m -> n = m.
Proof. intros (_ & (x & E) & _) (_ & (y & E') & _). congruence. Qed.
Lemma called_fun objects us a n m : called objects us a n -> called objects us a m -> n = m.
Proof.
  intros H H'. destruct H as [|a n N L|a p n N Q P L|a d N Q P D]; inversion H' as [E|a' n' N' L' E|a' p' n' N' Q' P' L' E|a' d' N' Q' P' D' E];
    subst; try congruence; try (exfalso; eapply Q; eauto; fail); try (exfalso; eapply Q'; eauto; fail).
  - eapply last_fun; eauto using gives_name_fun.
  - assert (p = p') as -> by (eapply last_fun; eauto using gives_player_fun).
    eapply last_fun; eauto using gives_name_fun.
  - exfalso. eapply P'; eauto.
  - exfalso. eapply P; eauto.
  - do 2 f_equal. eapply decimal_fun; eauto.
Qed.
Lemma demolition_fun objects x y z : demolition objects x y -> demolition objects x z -> y = z.
Proof.
  assert (N : forall a b c d, first_index objects a c -> first_index objects b d -> c = d -> a = b).
  { intros a b c d H H' ->. eapply index_name; eauto. }
  intros (a & v & H & ->) (b & w & H' & ->). f_equal; [f_equal|];
    (destruct H as [u d I E|u d I E|u d I E]; inversion H' as [u' d' I' E'|u' d' I' E'|u' d' I' E']; subst; congruence).
Qed.
Lemma demo_run_fun show2 o l e l' e' : demo_run show2 o l e -> demo_run show2 o l' e' -> l = l' /\ e = e'.
Proof.
  intros H H'. destruct H; inversion H'; subst; auto. split; auto.
  assert (fs0 = fs) as -> by congruence.
  assert (ys0 = ys) as ->. { eapply (picks_fun (demolition (r_objects r))); eauto using demolition_fun. }
  assert (d0 = d) as -> by (eapply decimal_fun; eauto). f_equal.
  match goal with X : Forall2 _ ys ?a, Y : Forall2 _ ys ?b |- ?b = ?a => clear - X Y; revert b Y; rename X into F end.
  induction F as [|[[t a] v] line ys lines D F IH]; intros b Y; inversion Y as [|? line' ? lines' D' F']; subst; auto.
  f_equal; auto. destruct D as (na & nv & C & C' & ->), D' as (na' & nv' & K & K' & ->).
  now rewrite (called_fun _ _ _ _ _ C K), (called_fun _ _ _ _ _ C' K').
Qed.

Section Files.
Context (B : bitter) (HB : bitter_ok B) (ho : hash_order) (Hho : hash_order_ok ho).
Notation parse := (parse_with B ho).

Lemma picked {A C} (R : A -> C -> Prop) l m : picks R l m -> forall y, In y m -> exists x, In x l /\ R x y.
Proof.
  induction 1 as [|x y l m H P IH|x l m H P IH]; intros z Hz; [destruct Hz| |].
  - destruct Hz as [<-|Hz]; [eexists; cbn; eauto|]. destruct (IH _ Hz) as (w & ? & ?). exists w. cbn. auto.
  - destruct (IH _ Hz) as (w & ? & ?). exists w. cbn. auto.
Qed.
Lemma picks_fewer {A C} (R : A -> C -> Prop) l m : picks R l m -> lenZ m <= lenZ l.
Proof. unfold lenZ. induction 1; cbn [length]; lia. Qed.

Lemma demo_exact show2 data l e : lenZ data < 2 ^ 31 ->
  demo_main B ho show2 data = (l, e) <-> demo_run show2 (parse CrcOnError NetAlways data) l e.
Proof.
  intros L. enough (X : demo_run show2 (parse CrcOnError NetAlways data) (fst (demo_main B ho show2 data)) (snd (demo_main B ho show2 data))).
  { split; [intros E; now rewrite E in X|]. intros H. destruct (demo_run_fun _ _ _ _ _ _ H X) as [-> ->]. now destruct (demo_main _ _ _ _). }
  unfold demo_main. change (builder_parse B ho _) with (parse CrcOnError NetAlways data).
  destruct (parse_total B HB ho Hho CrcOnError NetAlways data L) as [(r & E)|(x & E)]; rewrite E; [|constructor].
  destruct (frames_there B HB ho Hho _ _ _ L E) as (fs & Ef). unfold demos_of. rewrite Ef. cbn [fst snd].
  pose proof (objects_small B ho _ _ _ _ L E) as S.
  pose proof (updates_few B HB ho Hho _ _ _ _ _ L E Ef) as Few.
  rewrite (loop_flat r fs) at 1. destruct (events_picked r S (timed fs) (mkDemo [] [] [])) as (ys & P & Ev).
  cbn [ds_events app] in Ev. rewrite Ev.
  assert (lenZ ys <= lenZ (updates fs)).
  { rewrite <- timed_updates. unfold lenZ. rewrite map_length. apply picks_fewer in P. unfold lenZ in P. exact P. }
  unfold say at 1. cbn [concat]. rewrite app_nil_r.
  apply (dr_found show2 r fs ys); auto.
  - unfold lenZ at 2. rewrite map_length. apply display_decimal. unfold lenZ in *. lia.
  - rewrite loop_flat, Ev, <- loop_flat. rewrite map_map.
    assert (K : forall y, In y ys -> Z.abs (snd (fst y)) < 10 ^ 20 /\ Z.abs (snd y) < 10 ^ 20).
    { intros y Hy. destruct (picked _ _ _ P y Hy) as ([t u] & Hu & a & v & D & ->). cbn [fst snd] in *.
      assert (In u (updates fs)) as Iu by (rewrite <- timed_updates; apply (in_map snd) in Hu; exact Hu).
      destruct (demolishes_range B HB ho Hho _ _ _ _ _ _ _ _ L E Ef Iu D) as [A V]. unfold signed in *. lia. }
    clear P Ev. clear H. induction ys as [|[[t a] v] ys IH]; cbn [map]; constructor.
    + cbn [fst snd]. destruct (K (t, a, v) (or_introl eq_refl)) as [Ka Kv]. cbn [fst snd] in Ka, Kv.
      exists (resolve_name (demo_loop r fs) a), (resolve_name (demo_loop r fs) v).
      split; [now apply resolve_called|]. split; [now apply resolve_called|].
      unfold demo_line, say. cbn [concat ev_time ev_attacker ev_victim]. now rewrite app_nil_r, <- ?app_assoc.
    + apply IH. intros y Hy. apply K. now right.
Qed.

(** ** ping.rs *)

Lemma rev_range {A} (p : A -> bool) l i : rev_rposition p l = Some i -> 0 <= i < lenZ l.
Proof.
  unfold lenZ. induction l as [|x l IH]; cbn [rev_rposition length]; [discriminate|].
  destruct (p x); [intros [= <-]; unfold lenZ; lia|]. intros H. apply IH in H. lia.
Qed.
Lemma modify_some {A} i (f : A -> A) l : 0 <= i < lenZ l -> exists l', modify_at i f l = Some l'.
Proof.
  unfold modify_at, lenZ. revert i. induction l as [|x l IH]; intros i H; cbn [length] in H; [lia|].
  cbn [getZ setZ]. destruct (Z.eqb_spec i 0); [eauto|]. destruct (IH (i - 1) ltac:(lia)) as (l' & E).
  destruct (getZ (i - 1) l) as [y|]; [|discriminate]. rewrite E. eauto.
Qed.

(** what the program expects of the values *)
Definition expects (name_id ping_id : Z) (u : updated_attribute) : Prop :=
  (u_object_id u = name_id -> exists s, u_attribute u = AString s) /\
  (u_object_id u = ping_id -> exists x, u_attribute u = AByte x).
Lemma ping_steps name_id ping_id us : Forall (expects name_id ping_id) us -> forall l,
  exists l', ping_loop name_id ping_id us l = inr l'.
Proof.
  induction 1 as [|u us [Hn Hp] F IH]; intros l; cbn [ping_loop]; [eauto|].
  assert (X : exists l', ping_step name_id ping_id l u = inr l').
  { unfold ping_step. destruct (Z.eqb_spec (u_object_id u) name_id).
    - destruct Hn as [s ->]; auto. destruct (rev_rposition _ l) eqn:R; [|eauto].
      apply rev_range in R. destruct (modify_some z (fun x => mkPlayer (pp_actor x) (Some s) (pp_pings x)) l R) as (l' & ->). eauto.
    - destruct (Z.eqb_spec (u_object_id u) ping_id); [|eauto]. destruct Hp as [x ->]; auto.
      destruct (rev_rposition _ l) eqn:R; [|eauto]. apply rev_range in R.
      destruct (modify_some z (fun y => mkPlayer (pp_actor y) (pp_name y) (pp_pings y ++ [x])) l R) as (l' & ->). eauto. }
  destruct X as (l' & ->). apply IH.
Qed.

Lemma ping_ends_fun o e e' : ping_ends o e -> ping_ends o e' -> e = e'.
Proof. intros H H'. destruct H; inversion H'; subst; auto; contradiction. Qed.
Lemma expects_all c n data r fs i j : lenZ data < 2 ^ 31 -> parse c n data = Ok r -> r_network_frames r = Some fs ->
  first_index (r_objects r) player_name i -> first_index (r_objects r) ping_name j -> Forall (expects i j) (updates fs).
Proof.
  intros L E Ef Hi Hj. apply Forall_forall. intros u Hu.
  destruct (expected B HB ho Hho _ _ _ _ _ _ L E Ef Hu) as (Kn & Kp & _). split; intros Q.
  - apply Kn. rewrite Q. now apply index_at.
  - destruct Kp as (x & -> & _); [rewrite Q; now apply index_at|]. eauto.
Qed.

Lemma ping_ending so data e : lenZ data < 2 ^ 31 ->
  snd (ping_main B ho so data) = e <-> ping_ends (parse CrcOnError NetAlways data) e.
Proof.
  intros L. enough (X : ping_ends (parse CrcOnError NetAlways data) (snd (ping_main B ho so data))).
  { split; [intros <-; exact X|]. intros H. eapply ping_ends_fun; eauto. }
  unfold ping_main. change (builder_parse B ho _) with (parse CrcOnError NetAlways data).
  destruct (parse_total B HB ho Hho CrcOnError NetAlways data L) as [(r & E)|(x & E)]; rewrite E; [|constructor].
  pose proof (objects_small B ho _ _ _ _ L E) as S. unfold pings_of.
  pose proof (find_id r player_name S) as Hi. destruct (find_object_id r player_name) as [i|]; [|now apply pe_name].
  pose proof (find_id r ping_name S) as Hj.
  destruct (find_object_id r ping_name) as [j|]; [|apply pe_ping; auto; eapply index_in; eauto].
  destruct (frames_there B HB ho Hho _ _ _ L E) as (fs & Ef). rewrite Ef.
  destruct (ping_steps i j (updates fs) (expects_all _ _ _ _ _ _ _ L E Ef Hi Hj) []) as (l & El).
  unfold updates in El. rewrite El. cbn [snd]. apply pe_ok; eapply index_in; eauto.
Qed.

(** one player *)
Lemma one_loop i j actor n us : i <> j -> Forall (expects i j) us -> Forall (one_player i j actor n) us -> forall o ps l,
  (o = None \/ o = Some n) -> ping_loop i j us [mkPlayer actor o ps] = inr l ->
  exists ps', l = [mkPlayer actor (if existsb (fun u => u_object_id u =? i) us then Some n else o) ps'].
Proof.
  intros D F. induction F as [|u us [Hn Hp] F IH]; intros G o ps l Ho; cbn [ping_loop existsb].
  - intros [= <-]. eauto.
  - inversion G as [|? ? [Ga Gn] G']; subst. unfold ping_step. destruct (Z.eqb_spec (u_object_id u) i) as [Ei|Ni].
    + destruct Hn as [s Es]; auto. rewrite Es. assert (s = n) as -> by (apply Gn; split; auto).
      unfold rev_rposition, may_be. cbn [pp_actor pp_name]. rewrite Ga by auto. rewrite Z.eqb_refl.
      replace (match o with Some m => str_eqb m n | None => true end) with true.
      2:{ destruct Ho as [->| ->]; auto. symmetry. now apply str_eqb_spec. }
      cbn [andb]. unfold modify_at, lenZ. cbn [length getZ setZ pp_actor pp_pings Z.of_nat Z.eqb orb]. intros H.
      destruct (IH G' (Some n) ps l (or_intror eq_refl) H) as (ps' & ->). exists ps'. now destruct (existsb _ us).
    + cbn [orb]. destruct (Z.eqb_spec (u_object_id u) j) as [Ej|Nj]; [|intros H; eapply IH; eauto].
      destruct Hp as [x Ex]; auto. rewrite Ex. cbn [rev_rposition pp_actor]. rewrite Ga by auto. rewrite Z.eqb_refl.
      unfold modify_at, lenZ. cbn [length getZ setZ pp_actor pp_name pp_pings Z.of_nat Z.eqb]. intros H. eapply IH; eauto.
Qed.

Lemma start_loop i j actor n us : i <> j -> Forall (expects i j) us -> Forall (one_player i j actor n) us -> forall l,
  ping_loop i j us [] = inr l -> (exists u, In u us /\ u_object_id u = i) -> exists ps, l = [mkPlayer actor (Some n) ps].
Proof.
  intros D F. induction F as [|u us [Hn Hp] F IH]; intros G l; cbn [ping_loop]; [intros _ (u & [] & _)|].
  inversion G as [|? ? [Ga Gn] G']; subst. unfold ping_step. destruct (Z.eqb_spec (u_object_id u) i) as [Ei|Ni].
  - destruct Hn as [s Es]; auto. rewrite Es. assert (s = n) as -> by (apply Gn; split; auto).
    cbn [rev_rposition app]. rewrite Ga by auto. intros H _.
    destruct (one_loop i j actor n us D F G' (Some n) [] l (or_intror eq_refl) H) as (ps & ->). exists ps. now destruct (existsb _ us).
  - intros H (v & [<-|Hv] & Ev); [contradiction|]. destruct (Z.eqb_spec (u_object_id u) j) as [Ej|Nj].
    + destruct Hp as [x Ex]; auto. rewrite Ex in H. cbn [rev_rposition app] in H. rewrite Ga in H by auto.
      destruct (one_loop i j actor n us D F G' None [x] l (or_introl eq_refl) H) as (ps & ->). exists ps.
      replace (existsb _ us) with true; auto. symmetry. apply existsb_exists. exists v. split; auto. now apply Z.eqb_eq.
    + eapply IH; eauto.
Qed.

Lemma ping_alone so (Hso : text_order_ok so) data r fs i j actor n : lenZ data < 2 ^ 31 ->
  parse CrcOnError NetAlways data = Ok r -> r_network_frames r = Some fs ->
  first_index (r_objects r) player_name i -> first_index (r_objects r) ping_name j ->
  Forall (one_player i j actor n) (updates fs) -> (exists u, In u (updates fs) /\ u_object_id u = i) ->
  ping_main B ho so data = ([n ++ lit ": []"], Success).
Proof.
  intros L E Ef Hi Hj O Some_name. unfold ping_main.
  change (builder_parse B ho _) with (parse CrcOnError NetAlways data). rewrite E.
  pose proof (objects_small B ho _ _ _ _ L E) as S. unfold pings_of.
  pose proof (find_id r player_name S) as Hi'. destruct (find_object_id r player_name) as [i'|];
    [rewrite (index_fun _ _ _ _ Hi' Hi) in *; clear i' Hi'|exfalso; apply Hi'; eapply index_in; eauto].
  pose proof (find_id r ping_name S) as Hj'. destruct (find_object_id r ping_name) as [j'|];
    [rewrite (index_fun _ _ _ _ Hj' Hj) in *; clear j' Hj'|exfalso; apply Hj'; eapply index_in; eauto].
  rewrite Ef. pose proof (expects_all _ _ _ _ _ _ _ L E Ef Hi Hj) as X.
  destruct (ping_steps i j (updates fs) X []) as (l & El).
  assert (D : i <> j). { intros ->. pose proof (index_name _ _ _ _ Hi Hj). discriminate. }
  destruct (start_loop _ _ _ _ _ D X O _ El Some_name) as (ps & ->). unfold updates in El. rewrite El.
  unfold group_pings. cbn [fold_left pp_name entry_or].
  pose proof (Hso _ [(n, @nil Z)]) as P. apply Permutation_sym, Permutation_length_1_inv in P. rewrite P.
  unfold ping_line. cbn [map fst snd join]. reflexivity.
Qed.

End Files.

(** ** property_counter.rs: labels *)

Definition add_all (l : list str) (m : tmap Z) : tmap Z := fold_left (fun m k => bump k m) l m.

Lemma prefix_spec path key : new_prefix (colons (without_empty path)) key = colons (without_empty (path ++ [key])).
Proof.
  assert (C : forall x l y, colons ((x :: l) ++ [y]) = colons (x :: l) ++ lit ":" ++ y).
  { intros x l. revert x. induction l as [|z l IH]; intros x y; [reflexivity|].
    change (colons ((x :: z :: l) ++ [y])) with (x ++ lit ":" ++ colons ((z :: l) ++ [y])). rewrite IH.
    change (colons (x :: z :: l)) with (x ++ lit ":" ++ colons (z :: l)). now rewrite <- !app_assoc. }
  induction path as [|[|b x] path IH].
  - cbn [without_empty colons app]. destruct key; reflexivity.
  - exact IH.
  - change (without_empty ((b :: x) :: path)) with ((b :: x) :: path).
    change (without_empty (((b :: x) :: path) ++ [key])) with (((b :: x) :: path) ++ [key]). rewrite C.
    unfold new_prefix. destruct (colons ((b :: x) :: path)) eqn:E; [destruct path; discriminate|].
    rewrite <- E. unfold say. cbn [concat]. now rewrite app_nil_r.
Qed.

(** a label below a path *)
Definition under (path : list str) (x : list str * string) : str := label (path ++ fst x, snd x).

Lemma prop_induct (P : header_prop -> Prop) :
  (forall rows, Forall (Forall (fun kv : str * header_prop => P (snd kv))) rows -> P (HArray rows)) ->
  (forall n fields, Forall (fun kv : str * header_prop => P (snd kv)) fields -> P (HStruct n fields)) ->
  (forall p, (forall rows, p <> HArray rows) -> (forall n fields, p <> HStruct n fields) -> P p) -> forall p, P p.
Proof.
  intros HA HS HL. fix IH 1.
  assert (R : forall l : props, Forall (fun kv : str * header_prop => P (snd kv)) l).
  { fix R 1. intros [|[k v] l]; constructor; [apply IH|apply R]. }
  intros p. destruct p; try (apply HL; discriminate).
  - apply HA. revert rows. fix Q 1. intros [|row rows]; constructor; [apply R|apply Q].
  - apply HS. apply R.
Qed.

Lemma fold_add {A} (f : A -> tmap Z -> tmap Z) (g : A -> list str) l :
  Forall (fun x => forall m, f x m = add_all (g x) m) l -> forall m,
  fold_left (fun m x => f x m) l m = add_all (flat_map g l) m.
Proof.
  induction 1 as [|x l H F IH]; intros m; [reflexivity|]. cbn [fold_left flat_map]. unfold add_all. rewrite fold_left_app.
  rewrite H. apply IH.
Qed.
Lemma map_flat {A C D} (f : C -> D) (g : A -> list C) l : map f (flat_map g l) = flat_map (fun x => map f (g x)) l.
Proof. induction l as [|x l IH]; cbn [flat_map map]; auto. now rewrite map_app, IH. Qed.

Lemma count_prop_spec p : forall path key m,
  count_prop (colons (without_empty path)) key p m = add_all (map (under path) (items key p)) m.
Proof.
  assert (Leaf : forall path key k m, bump (say [new_prefix (colons (without_empty path)) key; lit ":" ++ lit k]) m =
    add_all (map (under path) [([key], k)]) m).
  { intros. rewrite prefix_spec. unfold say. cbn [concat]. rewrite app_nil_r. reflexivity. }
  assert (Inner : forall path key (kv : str * header_prop),
    map (under path) (map (fun x => (key :: fst x, snd x)) (items (fst kv) (snd kv))) =
    map (under (path ++ [key])) (items (fst kv) (snd kv))).
  { intros path key kv. rewrite map_map. apply map_ext. intros [a k]. unfold under. cbn [fst snd]. now rewrite <- app_assoc. }
  assert (F : forall path key fields, Forall (fun kv : str * header_prop => forall path key m,
      count_prop (colons (without_empty path)) key (snd kv) m = add_all (map (under path) (items key (snd kv))) m) fields ->
    forall m, fold_left (fun m kv => count_prop (new_prefix (colons (without_empty path)) key) (fst kv) (snd kv) m) fields m =
      add_all (map (under path) (flat_map (fun kv => map (fun x => (key :: fst x, snd x)) (items (fst kv) (snd kv))) fields)) m).
  { intros path key fields H m. rewrite map_flat. apply fold_add. eapply Forall_impl; [|exact H].
    intros kv Hk m'. cbn beta. rewrite Inner, <- Hk, prefix_spec. reflexivity. }
  induction p as [rows H|n fields H|p NA NS] using prop_induct; intros path key m.
  - cbn [count_prop items]. rewrite map_app. unfold add_all. rewrite fold_left_app.
    change (fold_left (fun m k => bump k m)) with add_all. cbn beta. rewrite <- (Leaf path key "array"%string). f_equal.
    rewrite map_flat. apply fold_add. eapply Forall_impl; [|exact H]. intros row Hr m'. cbn beta. now apply F.
  - cbn [count_prop items]. rewrite map_app. unfold add_all. rewrite fold_left_app.
    change (fold_left (fun m k => bump k m)) with add_all. cbn beta. rewrite <- (Leaf path key "struct"%string). f_equal. now apply F.
  - destruct p; try (exfalso; eapply NA; reflexivity); try (exfalso; eapply NS; reflexivity); cbn [count_prop items];
      rewrite <- (Leaf path key); reflexivity.
Qed.

Lemma count_spec ps m : count_properties ps m [] = add_all (labels ps) m.
Proof.
  unfold count_properties, labels, all_items. rewrite map_flat. apply fold_add. apply Forall_forall. intros kv _ m'.
  rewrite <- (count_prop_spec (snd kv) []). reflexivity.
Qed.

(** ** counting *)

Definition keys {V} (m : tmap V) : list str := map fst m.
Definition get (k : str) (m : tmap Z) : Z := match str_assoc k m with Some n => n | None => 0 end.

Lemma bump_get k j m : get j (bump k m) = get j m + if str_eqb j k then 1 else 0.
Proof.
  unfold get, bump. induction m as [|[a n] m IH]; cbn [entry_or str_assoc].
  - destruct (str_eqb j k); lia.
  - destruct (str_eqb k a) eqn:E; cbn [str_assoc].
    + apply str_eqb_spec in E as <-. destruct (str_eqb j k); [lia|]. destruct (str_assoc j m); lia.
    + destruct (str_eqb j a) eqn:F; [|exact IH]. apply str_eqb_spec in F as ->.
      destruct (str_eqb a k) eqn:G; [|lia]. apply str_eqb_spec in G as ->. apply str_eqb_neq in E. now destruct E.
Qed.
Lemma bump_keys k m : incl (keys m) (keys (bump k m)) /\ In k (keys (bump k m)) /\ (forall j, In j (keys (bump k m)) -> j = k \/ In j (keys m)) /\
  (NoDup (keys m) -> NoDup (keys (bump k m))).
Proof.
  unfold bump, keys. induction m as [|[a n] m (I & K & O & N)]; cbn [entry_or map fst].
  - split; [intros x []|]. split; [now left|]. split; [intros j [<-|[]]; auto|]. intros _. constructor; [intros []|constructor].
  - destruct (str_eqb k a) eqn:E; cbn [map fst].
    + apply str_eqb_spec in E as <-. split; [apply incl_refl|]. split; [now left|]. split; [intros j H; now right|]. auto.
    + apply str_eqb_neq in E. split; [intros x [<-|H]; [now left|right; auto]|]. split; [now right|].
      split; [intros j [<-|H]; [right; now left|destruct (O j H); [auto|right; now right]]|].
      intros H. inversion H as [|? ? Ha Hm]; subst. constructor; [|auto]. intros Q. destruct (O _ Q); [congruence|contradiction].
Qed.

Definition good_counts (l : list str) (m : tmap Z) : Prop :=
  NoDup (keys m) /\ (forall k, In k (keys m) <-> In k l) /\ forall k n, In (k, n) m -> exists c, n = Z.of_nat c /\ occurs k c l.

Fixpoint times (k : str) (l : list str) : nat :=
  match l with [] => 0%nat | x :: t => (if str_eqb x k then 1 else 0) + times k t end.
Lemma times_occurs k l : occurs k (times k l) l.
Proof.
  induction l as [|x l (rest & P & N)]; cbn [times].
  - exists []. split; [constructor|intros []].
  - destruct (str_eqb x k) eqn:E.
    + apply str_eqb_spec in E as ->. exists rest. split; auto. cbn [Nat.add repeat app]. now constructor.
    + apply str_eqb_neq in E. exists (x :: rest). split; [|intros [H|H]; auto].
      cbn [Nat.add]. apply Permutation_cons_app. exact P.
Qed.
Lemma add_get l : forall m k, get k (add_all l m) = get k m + Z.of_nat (times k l).
Proof.
  induction l as [|x l IH]; intros m k; cbn [add_all fold_left times]; [lia|].
  change (fold_left (fun m k => bump k m) l (bump x m)) with (add_all l (bump x m)). rewrite IH, bump_get.
  destruct (str_eqb k x) eqn:E, (str_eqb x k) eqn:E'; try lia.
  - apply str_eqb_spec in E as ->. apply str_eqb_neq in E'. now destruct E'.
  - apply str_eqb_spec in E' as ->. apply str_eqb_neq in E. now destruct E.
Qed.
Lemma add_keys l : forall m, NoDup (keys m) -> NoDup (keys (add_all l m)) /\
  forall k, In k (keys (add_all l m)) <-> In k (keys m) \/ In k l.
Proof.
  induction l as [|x l IH]; intros m N; [split; auto; intros k; cbn; tauto|].
  destruct (bump_keys x m) as (I & K & O & ND). destruct (IH (bump x m) (ND N)) as [N' K']. split; auto.
  intros k. rewrite K'. cbn [In]. split.
  - intros [H|H]; auto. destruct (O k H); auto.
  - intros [H|[<-|H]]; auto.
Qed.
Lemma get_in k n m : NoDup (keys m) -> In (k, n) m -> get k m = n.
Proof.
  unfold get, keys. induction m as [|[a c] m IH]; intros N H; [destruct H|]. cbn [map fst str_assoc] in *. inversion N; subst.
  destruct H as [[= -> ->]|H].
  - now rewrite (proj2 (str_eqb_spec k k) eq_refl).
  - destruct (str_eqb k a) eqn:E; [|auto]. apply str_eqb_spec in E as ->. destruct H2. apply (in_map fst) in H. exact H.
Qed.
Lemma counts_good l : good_counts l (add_all l []).
Proof.
  destruct (add_keys l [] (NoDup_nil _)) as [N K]. split; auto. split; [intros k; rewrite K; cbn; tauto|].
  intros k n H. exists (times k l). split; [|apply times_occurs]. rewrite <- (get_in _ _ _ N H), add_get. reflexivity.
Qed.

(** ** the table *)

Lemma pair_insert_perm x l : Permutation (pair_insert x l) (x :: l).
Proof.
  induction l as [|y l IH]; cbn [pair_insert]; [constructor; constructor|].
  destruct (_ && _); [reflexivity|]. rewrite IH. constructor.
Qed.
Lemma pair_sort_perm l : Permutation (pair_sort l) l.
Proof. induction l as [|x l IH]; cbn [pair_sort]; [constructor|]. rewrite pair_insert_perm. now constructor. Qed.
Lemma pair_insert_sorted x l : StronglySorted lex_le (map fst l) -> StronglySorted lex_le (map fst (pair_insert x l)).
Proof.
  induction l as [|y l IH]; intros S; cbn [pair_insert map]; [constructor; constructor|].
  inversion S as [|? ? S' F]; subst. destruct (_ && _) eqn:E.
  - apply andb_true_iff in E as [G _]. apply NetworkProofs.lex_le_geb in G. cbn [map]. constructor; auto. constructor; auto.
    eapply Forall_impl; [|exact F]. intros z. now apply lex_trans.
  - cbn [map]. constructor; auto. apply Forall_forall. intros z Hz.
    assert (Hz' : In z (map fst (x :: l))).
    { eapply Permutation_in; [|exact Hz]. apply Permutation_map, pair_insert_perm. }
    destruct Hz' as [<-|Hz']; [|rewrite Forall_forall in F; auto].
    destruct (lex_total (fst y) (fst x)) as [Q|Q]; auto. apply andb_false_iff in E as [E|E].
    + apply NetworkProofs.lex_le_geb in Q. congruence.
    + apply orb_false_iff in E as [E _]. apply negb_false_iff, str_eqb_spec in E. rewrite E. apply lex_refl.
Qed.
Lemma pair_sort_sorted l : StronglySorted lex_le (map fst (pair_sort l)).
Proof. induction l as [|x l IH]; cbn [pair_sort map]; [constructor|]. now apply pair_insert_sorted. Qed.
Lemma sorted_ascending l : StronglySorted lex_le l -> NoDup l -> ascending l.
Proof.
  induction 1 as [|x l S IH F]; intros N; [constructor|]. inversion N; subst. constructor; [now apply IH|].
  apply Forall_forall. intros y Hy. rewrite Forall_forall in F. split; auto. intros ->. contradiction.
Qed.

Lemma table_tallied so (Hso : text_order_ok so) l : lenZ l < 2 ^ 64 ->
  tallied l (map count_line (pair_sort (so _ (add_all l [])))).
Proof.
  intros L. destruct (counts_good l) as (N & K & C). set (m := add_all l []) in *.
  assert (P : Permutation (pair_sort (so _ m)) m) by (rewrite pair_sort_perm; apply Hso).
  exists (map fst (pair_sort (so _ m))). split.
  - split.
    + apply sorted_ascending; [apply pair_sort_sorted|]. eapply Permutation_NoDup; [|exact N].
      apply Permutation_sym, Permutation_map, P.
    + intros k. rewrite <- K. split; apply Permutation_in; [|apply Permutation_sym]; now apply Permutation_map.
  - assert (Q : forall x, In x (pair_sort (so _ m)) -> In x m) by (intros x; now apply Permutation_in).
    clear P. revert Q. generalize (pair_sort (so _ m)) as t.
    induction t as [|[k n] t IH]; intros Q; cbn [map]; constructor; [|apply IH; intros x Hx; apply Q; now right].
    destruct (C k n (Q _ (or_introl eq_refl))) as (c & -> & O). exists c, (show (Z.of_nat c)). split; [exact O|].
    assert (lenZ l >= Z.of_nat c).
    { destruct O as (rest & O & _). apply Permutation_length in O. rewrite app_length, repeat_length in O. unfold lenZ. lia. }
    split; [apply display_decimal; lia|]. unfold count_line, say. cbn [concat fst snd]. now rewrite app_nil_r.
Qed.

(** ** the loop *)

Section Counter.
Context (B : bitter) (HB : bitter_ok B) (ho : hash_order) (Hho : hash_order_ok ho) (so : text_order) (Hso : text_order_ok so)
  (show_f32 : f32 -> str) (debug_attribute : attribute -> str).
Notation parse := (parse_with B ho CrcNever NetNever).
Notation loop := (counter_loop B ho show_f32 debug_attribute).
Notation message := (display_parse_error show_f32 debug_attribute).

Notation parses := (parses B ho).

Lemma add_app l l' m : add_all (l ++ l') m = add_all l' (add_all l m).
Proof. apply fold_left_app. Qed.

Lemma loop_parses args rs : Forall2 parses args rs -> forall m k rest,
  loop (mkCounter m [] k) (args ++ rest) =
  match loop (mkCounter (add_all (all_labels rs) m) [] (k + lenZ args)) rest with
  | None => None
  | Some (out, s) => Some (parsed_lines (map arg_name args) ++ out, s)
  end.
Proof.
  induction 1 as [|a r args rs [Ea Ep] F IH]; intros m k rest.
  - cbn [app all_labels flat_map add_all fold_left parsed_lines map]. unfold lenZ. cbn [length Z.of_nat]. rewrite Z.add_0_r.
    now destruct (loop _ rest) as [[out s]|].
  - cbn [app counter_loop]. unfold counter_step. rewrite Ea. cbn [ct_buffer ct_counter ct_files app].
    change (builder_parse B ho _) with (parse (arg_data a)). rewrite Ep, IH, count_spec.
    unfold all_labels. cbn [flat_map]. rewrite add_app. replace (k + 1 + lenZ args) with (k + lenZ (a :: args)).
    2:{ unfold lenZ. cbn [length]. lia. }
    destruct (loop _ rest) as [[out s]|]; auto. unfold say. cbn [concat]. now rewrite app_nil_r.
Qed.

Lemma final_lines out m k l : 0 <= k < 2 ^ 31 -> lenZ l < 2 ^ 64 -> m = add_all l [] -> exists last, counted k l last /\
  (out ++ say [lit "Parsed "; show k; lit " files"] :: map count_line (pair_sort (so _ m)), Success) = (out ++ last, Success).
Proof.
  intros K L ->. eexists. split; [|reflexivity]. unfold say. cbn [concat]. rewrite app_nil_r. constructor.
  - apply display_decimal. lia.
  - now apply table_tallied.
Qed.

Lemma counter_all args rs : Forall2 parses args rs -> lenZ args < 2 ^ 31 -> lenZ (all_labels rs) < 2 ^ 64 ->
  exists last, counted (lenZ args) (all_labels rs) last /\
    counter_main B ho so show_f32 debug_attribute args = (parsed_lines (map arg_name args) ++ last, Success).
Proof.
  intros F La Ll. unfold counter_main. pose proof (loop_parses _ _ F [] 0 []) as Q. rewrite app_nil_r in Q. rewrite Q.
  cbn [counter_loop ct_files ct_counter]. rewrite app_nil_r, Z.add_0_l. apply final_lines; auto. unfold lenZ in *. lia.
Qed.

(** a file that cannot be parsed blocks those after it *)
Lemma loop_blocked e : forall rest buf, parse buf = Err e -> ~ short e ->
  lenZ (buf ++ concat (map arg_data rest)) < 2 ^ 31 -> forall m k,
  exists buf', loop (mkCounter m buf k) rest = Some (map (blocked_line (message e)) rest, mkCounter m buf' k).
Proof.
  induction rest as [|a rest IH]; intros buf E N L m k; [exists buf; reflexivity|].
  cbn [map concat] in L. rewrite app_assoc in L.
  assert (L' : lenZ (buf ++ arg_data a) < 2 ^ 31) by (unfold lenZ in *; rewrite app_length in L; lia).
  assert (E' : parse (buf ++ arg_data a) = Err e).
  { destruct (append_error B ho (mkBuilder buf (Some CrcNever) (Some NetNever)) e (arg_data a) E N) as [Q|(p & Q)]; [exact Q|].
    destruct (parse_total B HB ho Hho CrcNever NetNever (buf ++ arg_data a) L') as [(r & R)|(x & R)]; exfalso;
      change (parse (buf ++ arg_data a) = Panic p) in Q; rewrite R in Q; discriminate. }
  destruct (IH _ E' N L m k) as (buf' & Q). exists buf'. cbn [counter_loop]. unfold counter_step.
  cbn [ct_buffer ct_counter ct_files]. destruct (arg_error a) as [x|] eqn:Ea.
  - rewrite Q. cbn [map app]. unfold blocked_line at 2. rewrite Ea. unfold say. cbn [concat]. now rewrite app_nil_r.
  - change (builder_parse B ho _) with (parse (buf ++ arg_data a)). rewrite E', Q. cbn [map app].
    unfold blocked_line at 2. rewrite Ea. unfold say. cbn [concat]. now rewrite app_nil_r.
Qed.

Lemma counter_blocked before rs a e after : Forall2 parses before rs -> arg_error a = None ->
  parse (arg_data a) = Err e -> ~ short e ->
  lenZ before < 2 ^ 31 -> lenZ (all_labels rs) < 2 ^ 64 -> lenZ (concat (map arg_data (a :: after))) < 2 ^ 31 ->
  exists last, counted (lenZ before) (all_labels rs) last /\
    counter_main B ho so show_f32 debug_attribute (before ++ a :: after) =
      (parsed_lines (map arg_name before) ++ map (blocked_line (message e)) (a :: after) ++ last, Success).
Proof.
  intros F Ea E N Lb Ll La. unfold counter_main. rewrite (loop_parses _ _ F).
  destruct (loop_blocked e after (arg_data a) E N La (add_all (all_labels rs) []) (0 + lenZ before)) as (buf & Q).
  cbn [counter_loop]. unfold counter_step at 1. cbn [ct_buffer ct_counter ct_files app]. rewrite Ea.
  change (builder_parse B ho _) with (parse (arg_data a)). rewrite E.
  rewrite Q. cbn [ct_files ct_counter]. rewrite Z.add_0_l.
  destruct (final_lines (parsed_lines (map arg_name before) ++ map (blocked_line (message e)) (a :: after))
    _ (lenZ before) (all_labels rs) ltac:(unfold lenZ in *; lia) Ll eq_refl) as (last & C & X).
  exists last. split; [exact C|]. rewrite <- !app_assoc in X. etransitivity; [|exact X]. f_equal. rewrite <- ?app_assoc. cbn [map app].
  unfold blocked_line at 2. rewrite Ea. unfold say at 1. cbn [concat]. now rewrite app_nil_r.
Qed.

End Counter.

(** ** errors that stay *)

Lemma error_stays B ho c n data extra e : bitter_ok B -> hash_order_ok ho -> lenZ (data ++ extra) < 2 ^ 31 ->
  parse_with B ho c n data = Err e -> ~ short e -> parse_with B ho c n (data ++ extra) = Err e.
Proof.
  intros HB Hho L E N. destruct (append_error B ho (mkBuilder data (Some c) (Some n)) e extra E N) as [Q|(p & Q)]; [exact Q|].
  change (parse_with B ho c n (data ++ extra) = Panic p) in Q.
  destruct (parse_total B HB ho Hho c n (data ++ extra) L) as [(r & R)|(x & R)]; rewrite R in Q; discriminate.
Qed.
