(** * Proofs: schemas, and tactics for the generated lemmas *)

From Coq Require Import ZArith List Bool Lia Permutation.
From Verif Require Import Base F32 Text Json SpecText TextProofs SpecDecimal SpecBasic SpecSchema SpecJson BasicProofs JsonLogic.
Open Scope Z_scope.

Definition fits {A} (de : json -> option A) (s : schema) : Prop := forall j, (exists v, de j = Some v) <-> accepts s j.

Lemma Forall2_length {A C} (R : A -> C -> Prop) l m : Forall2 R l m -> length l = length m.
Proof. induction 1; cbn [length]; auto. Qed.

(** ** Values *)

Ltac no_value := let X := fresh in split; [intros [? X]; discriminate X|inversion 1].
Lemma fits_bool : fits de_bool SBool.
Proof. intros []; cbn [de_bool]; try no_value. split; [constructor|eauto]. Qed.
Lemma fits_str : fits de_str SText.
Proof. intros []; cbn [de_str]; try no_value. split; [constructor|eauto]. Qed.
Lemma fits_f32 : fits de_f32 SFloat.
Proof. intros []; cbn [de_f32]; try no_value; split; eauto; constructor. Qed.
Lemma fits_range lo hi : fits (de_range lo hi) (SInt lo hi).
Proof.
  intros [| |x| | | |]; cbn [de_range]; try no_value. destruct (Z.leb_spec lo x), (Z.leb_spec x hi); cbn [andb]; try (split; [intros [? H']; discriminate H'|inversion 1; lia]).
  split; [constructor; lia|eauto].
Qed.

Lemma digit_value_inv b d : digit_value b = Some d <-> 0 <= d <= 9 /\ Z.of_N (Byte.to_N b) = 48 + d.
Proof.
  unfold digit_value, byteZ. destruct (Z.leb_spec 0 (Z.of_N (Byte.to_N b) - 48)), (Z.leb_spec (Z.of_N (Byte.to_N b) - 48) 9); cbn [andb];
    (split; [intros [= <-]; lia|intros [? ?]; f_equal; lia]) || (split; [discriminate|intros [? ?]; lia]).
Qed.
Lemma parse_digits_inv t : forall acc x, parse_digits t acc = Some x <->
  exists ds, are_digits ds /\ ascii_digits ds t /\ x = acc * 10 ^ Z.of_nat (length ds) + digits_number ds.
Proof.
  induction t as [|b t IH]; intros acc x; cbn [parse_digits].
  - split.
    + intros [= <-]. exists []. split; [constructor|]. split; [constructor|]. cbn [length digits_number]. change (10 ^ Z.of_nat 0) with 1. lia.
    + intros (ds & _ & A & ->). inversion A; subst. cbn [length digits_number]. change (10 ^ Z.of_nat 0) with 1. f_equal. lia.
  - destruct (digit_value b) as [d|] eqn:E.
    + apply digit_value_inv in E as [Hd Hb]. rewrite IH. split.
      * intros (ds & D & A & ->). exists (d :: ds). split; [constructor; auto|]. split; [constructor; auto|].
        cbn [length digits_number]. rewrite Nat2Z.inj_succ, Z.pow_succ_r by lia. lia.
      * intros (ds & D & A & ->). inversion A as [|d' ? ds' ? Hb' A']; subst. inversion D; subst. exists ds'. split; [auto|]. split; [auto|].
        assert (d' = d) by lia. subst d'. cbn [length digits_number]. rewrite Nat2Z.inj_succ, Z.pow_succ_r by lia. lia.
    + split; [discriminate|]. intros (ds & D & A & _). inversion A as [|d' ? ds' ? Hb' A']; subst. inversion D; subst.
      assert (digit_value b = Some d') by (apply digit_value_inv; auto). congruence.
Qed.

Lemma ascii_nil ds t : ascii_digits ds t -> (ds <> [] <-> t <> []).
Proof. intros [|]; split; congruence. Qed.
Lemma ascii_head d ds b t : are_digits (d :: ds) -> ascii_digits (d :: ds) (b :: t) -> byteZ b <> 43 /\ byteZ b <> 45.
Proof. intros D A. inversion D; inversion A; subst. unfold byteZ. lia. Qed.

Lemma parse_int_iff signed lo hi s x : parse_int signed lo hi s = Some x <-> numeral signed x s /\ lo <= x <= hi.
Proof.
  assert (C : forall o, (match o with Some x => if (lo <=? x) && (x <=? hi) then Some x else None | None => None end = Some x <-> o = Some x /\ lo <= x <= hi)).
  { intros [y|]; [|split; [discriminate|intros [H _]; discriminate]].
    destruct (Z.leb_spec lo y), (Z.leb_spec y hi); cbn [andb]; (split; [first [discriminate|intros [= <-]; split; [reflexivity|lia]]|intros [[= <-] ?]; first [lia|reflexivity]]). }
  unfold parse_int, numeral. destruct s as [|b t].
  - split; [discriminate|]. intros [(ds & t & D & N & A & [(_ & [E|E])|(_ & _ & E)]) _]; try discriminate.
    subst t. apply (ascii_nil _ _ A) in N. congruence.
  - destruct (Z.eqb_spec (byteZ b) 43) as [E43|E43]; [|destruct (Z.eqb_spec (byteZ b) 45) as [E45|E45]].
    + assert (b = "+"%byte) as -> by (apply byteZ_inj; exact E43).
      assert (K : forall (o : option Z), match t with [] => None | _ => o end = Some x <-> t <> [] /\ o = Some x).
      { intros o. destruct t; [split; [discriminate|intros [H _]; congruence]|split; [intros H; split; [discriminate|exact H]|tauto]]. }
      rewrite K, C, parse_digits_inv. split.
      * intros (N & (ds & D & A & ->) & R). split; [|exact R]. exists ds, t. split; [auto|]. split; [now apply (ascii_nil _ _ A)|].
        split; [auto|]. left. split; [lia|auto].
      * intros [(ds & u & D & N & A & [(V & [E|E])|(_ & _ & E)]) R]; try discriminate.
        -- subst u. destruct ds; [congruence|]. exfalso. destruct (ascii_head _ _ _ _ D A) as [H _]. apply H. reflexivity.
        -- injection E as ->. split; [now apply (ascii_nil _ _ A)|]. split; [|exact R]. exists ds. split; [auto|]. split; [auto|lia].
    + assert (b = "-"%byte) as -> by (apply byteZ_inj; exact E45). destruct signed; cbn [andb].
      * assert (K : forall (o : option Z), match t with [] => None | _ => o end = Some x <-> t <> [] /\ o = Some x).
        { intros o. destruct t; [split; [discriminate|intros [H _]; congruence]|split; [intros H; split; [discriminate|exact H]|tauto]]. }
        rewrite K, C. assert (O : option_map Z.opp (parse_digits t 0) = Some x <-> parse_digits t 0 = Some (- x)).
        { destruct (parse_digits t 0); cbn [option_map]; (split; [try discriminate; intros [= <-]; f_equal; lia|try discriminate; intros [= ->]; f_equal; lia]). }
        rewrite O, parse_digits_inv. split.
        -- intros (N & (ds & D & A & V) & R). split; [|exact R]. exists ds, t. split; [auto|]. split; [now apply (ascii_nil _ _ A)|].
           split; [auto|]. right. split; [lia|auto].
        -- intros [(ds & u & D & N & A & [(V & [E|E])|(V & _ & E)]) R]; try discriminate.
           ++ subst u. destruct ds; [congruence|]. exfalso. destruct (ascii_head _ _ _ _ D A) as [_ H]. apply H. reflexivity.
           ++ injection E as ->. split; [now apply (ascii_nil _ _ A)|]. split; [|exact R]. exists ds. split; [auto|]. split; [auto|lia].
      * rewrite C, parse_digits_inv. split.
        -- intros [(ds & D & A & V) R]. exfalso. destruct ds; [inversion A|]. destruct (ascii_head _ _ _ _ D A) as [_ H]. apply H. reflexivity.
        -- intros [(ds & u & D & N & A & [(V & [E|E])|(V & F & E)]) R]; try discriminate.
           subst u. split; [|exact R]. exists ds. split; [auto|]. split; [auto|lia].
    + cbn [andb]. rewrite C, parse_digits_inv. split.
      * intros [(ds & D & A & V) R]. split; [|exact R]. exists ds, (b :: t). split; [auto|]. split; [destruct ds; [inversion A|discriminate]|].
        split; [auto|]. left. split; [lia|auto].
      * intros [(ds & u & D & N & A & [(V & [E|E])|(V & F & E)]) R].
        -- subst u. split; [|exact R]. exists ds. split; [auto|]. split; [auto|lia].
        -- exfalso. injection E as -> _. apply E43. reflexivity.
        -- exfalso. injection E as -> _. apply E45. reflexivity.
Qed.
Lemma fits_decimal signed lo hi : fits (fun j => match j with JStr s => parse_int signed lo hi s | _ => None end) (SDecimal signed lo hi).
Proof.
  intros []; try no_value. split.
  - intros [x H]. apply parse_int_iff in H as [N R]. econstructor; eauto.
  - inversion 1; subst. eexists. apply parse_int_iff. eauto.
Qed.
Lemma fits_u64s : fits de_u64s (SDecimal false 0 (2 ^ 64 - 1)).
Proof. exact (fits_decimal false 0 (2 ^ 64 - 1)). Qed.
Lemma fits_i64s : fits de_i64s (SDecimal true (- 2 ^ 63) (2 ^ 63 - 1)).
Proof. exact (fits_decimal true (- 2 ^ 63) (2 ^ 63 - 1)). Qed.

Lemma fits_opt {A} (de : json -> option A) s : fits de s -> fits (de_opt de) (SOption s).
Proof.
  intros H j. assert (K : (exists v, option_map Some (de j) = Some v) <-> accepts s j).
  { rewrite <- (H j). destruct (de j) as [a|]; cbn [option_map]; split; intros [v E]; try discriminate; eauto. }
  destruct j; cbn [de_opt]; try (rewrite K; split; [apply ac_some|inversion 1; assumption]).
  split; [constructor|eauto].
Qed.
Lemma fits_list {A} (de : json -> option A) s l : fits de s -> ((exists v, de_list de l = Some v) <-> Forall (accepts s) l).
Proof.
  intros H. induction l as [|j l IH]; cbn [de_list]; [split; eauto|]. rewrite Forall_cons_iff, <- IH, <- (H j).
  destruct (de j) as [a|], (de_list de l) as [m|]; split; [intros _|intros _|intros [? X]|intros [_ [? X]]|intros [? X]|intros [[? X] _]|intros [? X]|intros [[? X] _]]; eauto; discriminate X.
Qed.
Lemma fits_vec {A} (de : json -> option A) s : fits de s -> fits (de_vec de) (SList s).
Proof.
  intros H [| | | | |l|]; cbn [de_vec]; try no_value. rewrite (fits_list de s l H). split; [apply ac_list|inversion 1; assumption].
Qed.
Lemma fits_map {A C} (f : A -> C) (de : json -> option A) s : fits de s -> fits (fun j => option_map f (de j)) s.
Proof. intros H j. rewrite <- (H j). destruct (de j); cbn [option_map]; split; intros [? X]; eauto; discriminate X. Qed.
Lemma fits_bytes : fits de_bytes (SList (SInt 0 (2 ^ 8 - 1))).
Proof. unfold de_bytes. apply fits_vec, fits_map, fits_range. Qed.
Lemma fits_arr3 {A} (de : json -> option A) s : fits de s -> fits (de_arr3 de) (STuple [s; s; s]).
Proof.
  intros H [| | | | |l|]; cbn [de_arr3]; try no_value.
  destruct l as [|a [|b [|c [|]]]]; try (split; [intros [? X]; discriminate X|inversion 1; subst; repeat match goal with K : Forall2 _ _ _ |- _ => inversion K; clear K; subst end]).
  pose proof (H a) as Ha. pose proof (H b) as Hb. pose proof (H c) as Hc. split.
  - intros [v X]. destruct (de a), (de b), (de c); try discriminate. apply ac_tuple. repeat constructor; [apply Ha|apply Hb|apply Hc]; eauto.
  - inversion 1; subst. repeat match goal with K : Forall2 _ _ _ |- _ => inversion K; clear K; subst end.
    destruct (proj2 Ha) as [? ->]; [assumption|]. destruct (proj2 Hb) as [? ->]; [assumption|]. destruct (proj2 Hc) as [? ->]; [assumption|]. eauto.
Qed.

(** ** Structures *)

Definition field_ok (entries : list (str * json)) (f : str * schema) : Prop :=
  (exists j, once (fst f) j entries /\ accepts (snd f) j) \/ (~ In (fst f) (map fst entries) /\ exists s, snd f = SOption s).

Lemma values_none k e : all_values k e = [] <-> ~ In k (map fst e).
Proof.
  induction e as [|[k' v] e IH]; cbn [all_values map fst In]; [tauto|].
  destruct (str_eqb k' k) eqn:E.
  - apply str_eqb_spec in E. split; [discriminate|]. intros H. exfalso. apply H. auto.
  - apply str_eqb_neq in E. rewrite IH. tauto.
Qed.
Lemma values_app k a b : all_values k (a ++ b) = all_values k a ++ all_values k b.
Proof.
  induction a as [|[k' v] a IH]; [reflexivity|]. cbn [app all_values]. destruct (str_eqb k' k); rewrite IH; reflexivity.
Qed.
Lemma values_once k j e : all_values k e = [j] <-> once k j e.
Proof.
  split.
  - induction e as [|[k' v] e IH]; cbn [all_values]; [discriminate|]. destruct (str_eqb k' k) eqn:E.
    + intros [= -> H]. apply str_eqb_spec in E. subst k'. exists [], e. split; [reflexivity|]. split; [auto|]. now apply values_none.
    + intros H. apply str_eqb_neq in E. destruct (IH H) as (a & b & -> & Ha & Hb). exists ((k', v) :: a), b.
      split; [reflexivity|]. split; [|exact Hb]. intros [F|F]; [auto|auto].
  - intros (a & b & -> & Ha & Hb). apply values_none in Ha, Hb. rewrite values_app. cbn [all_values]. rewrite str_eqb_refl, Ha, Hb. reflexivity.
Qed.

Lemma need_fits {A C} name (de : json -> option A) s fs (k : A -> option C) P :
  fits de s -> (forall t, s <> SOption t) -> (forall a, (exists c, k a = Some c) <-> P) ->
  ((exists c, need_field name de fs k = Some c) <-> field_ok fs (name, s) /\ P).
Proof.
  intros H NO K. unfold need_field, field_ok. cbn [fst snd]. split.
  - intros [c E]. destruct (all_values name fs) as [|j [|]] eqn:V; try discriminate.
    destruct (de j) as [a|] eqn:D; [|discriminate]. split; [|apply (K a); eauto].
    left. exists j. split; [now apply values_once|apply H; eauto].
  - intros [[(j & O & Aj)|(_ & t & E)] HP]; [|destruct (NO t E)]. apply values_once in O. rewrite O.
    apply H in Aj as [a ->]. now apply K.
Qed.
Lemma need_opt_fits {A C} name (de : json -> option A) s fs (k : option A -> option C) P :
  fits de s -> (forall a, (exists c, k a = Some c) <-> P) ->
  ((exists c, need_opt_field name de fs k = Some c) <-> field_ok fs (name, SOption s) /\ P).
Proof.
  intros H K. pose proof (fits_opt de s H) as HO. unfold need_opt_field, field_ok. cbn [fst snd]. split.
  - intros [c E]. destruct (all_values name fs) as [|j [|]] eqn:V; try discriminate.
    + split; [|apply (K None); eauto]. right. split; [now apply values_none|eauto].
    + destruct (de_opt de j) as [a|] eqn:D; [|discriminate]. split; [|apply (K a); eauto].
      left. exists j. split; [now apply values_once|apply HO; eauto].
  - intros [[(j & O & Aj)|(N & _)] HP].
    + apply values_once in O. rewrite O. apply HO in Aj as [a ->]. now apply K.
    + apply values_none in N. rewrite N. now apply K.
Qed.

Lemma in_combine_fst (F : list str) (l : list json) k : In k (map fst (combine F l)) -> In k F.
Proof. rewrite in_map_iff. intros ([a b] & <- & H). now apply in_combine_l in H. Qed.

Lemma combine_ok (F : list (str * schema)) l : NoDup (map fst F) -> length l = length F ->
  (Forall (field_ok (combine (map fst F) l)) F <-> Forall2 (fun f j => accepts (snd f) j) F l).
Proof.
  assert (G : forall F' l' G' m, length l' = length F' -> length m = length G' -> NoDup (map fst (F' ++ G')) ->
    (Forall (field_ok (combine (map fst F' ++ map fst G') (l' ++ m))) G' <-> Forall2 (fun f j => accepts (snd f) j) G' m)).
  { intros F' l' G'. revert F' l'. induction G' as [|[k s] G' IH]; intros F' l' [|j m] L M ND; try discriminate.
    - split; constructor.
    - rewrite Forall_cons_iff. specialize (IH (F' ++ [(k, s)]) (l' ++ [j]) m). replace (map fst (F' ++ [(k, s)])) with (map fst F' ++ [k]) in IH by (rewrite map_app; reflexivity). rewrite <- !app_assoc in IH. cbn [app] in IH. cbn [map fst].
      rewrite IH; [|rewrite !app_length; cbn [length]; lia|injection M; auto|exact ND].
      assert (O : once k j (combine (map fst F' ++ k :: map fst G') (l' ++ j :: m))).
      { exists (combine (map fst F') l'), (combine (map fst G') m). rewrite map_app in ND. cbn [map fst] in ND.
        apply NoDup_remove_2 in ND. rewrite in_app_iff in ND. split; [|split].
        - clear ND M IH. revert l' L. induction F' as [|[x y] F' IH]; intros [|z l'] L; try discriminate; [reflexivity|].
          injection L as L. cbn [map fst app combine]. f_equal. now apply IH.
        - intros H. apply ND. left. now apply in_combine_fst in H.
        - intros H. apply ND. right. now apply in_combine_fst in H. }
      cbn [map fst]. split.
      + intros [HF HR]. constructor; [|exact HR]. cbn [snd]. destruct HF as [(j' & O' & Aj)|(N & _)]; cbn [fst snd] in *.
        * apply values_once in O, O'. rewrite O in O'. now injection O' as ->.
        * exfalso. apply N. destruct O as (a & b & -> & _). rewrite map_app, in_app_iff. right. left. reflexivity.
      + inversion 1; subst. split; [|assumption]. left. exists j. auto. }
  intros ND L. exact (G [] [] F l eq_refl L ND).
Qed.

Lemma struct_fits {A} (F : list (str * schema)) (k : list (str * json) -> option A) : NoDup (map fst F) ->
  (forall fs, (exists v, k fs = Some v) <-> Forall (field_ok fs) F) -> fits (fun j => de_fields (map fst F) j k) (SStruct F).
Proof.
  intros ND K [| | | | |l|l]; cbn [de_fields]; try no_value.
  - rewrite map_length. destruct (Nat.eqb_spec (length l) (length F)) as [E|E].
    + rewrite K, combine_ok by auto. split; [apply ac_sequence|inversion 1; assumption].
    + split; [intros [? X]; discriminate X|]. inversion 1; subst. exfalso. apply E. symmetry. eapply Forall2_length. eassumption.
  - rewrite K. split; [apply ac_object|inversion 1; assumption].
Qed.

Lemma chain_field {A C} name (de : json -> option A) s fs (k : A -> option C) F :
  fits de s -> (forall t, s <> SOption t) -> (forall a, (exists c, k a = Some c) <-> Forall (field_ok fs) F) ->
  ((exists c, need_field name de fs k = Some c) <-> Forall (field_ok fs) ((name, s) :: F)).
Proof. intros H N K. rewrite Forall_cons_iff. now apply need_fits. Qed.
Lemma chain_opt_field {A C} name (de : json -> option A) s fs (k : option A -> option C) F :
  fits de s -> (forall a, (exists c, k a = Some c) <-> Forall (field_ok fs) F) ->
  ((exists c, need_opt_field name de fs k = Some c) <-> Forall (field_ok fs) ((name, SOption s) :: F)).
Proof. intros H K. rewrite Forall_cons_iff. now apply need_opt_fits. Qed.
Lemma chain_end {C} (c : C) fs : (exists c', Some c = Some c') <-> Forall (field_ok fs) [].
Proof. split; eauto. Qed.

Fixpoint distinct (l : list str) : bool :=
  match l with [] => true | k :: t => negb (existsb (str_eqb k) t) && distinct t end.
Lemma distinct_ok l : distinct l = true -> NoDup l.
Proof.
  induction l as [|k l IH]; [constructor|]. cbn [distinct]. rewrite andb_true_iff, negb_true_iff. intros [H D]. constructor; [|auto].
  intros I. assert (existsb (str_eqb k) l = true); [|congruence]. apply existsb_exists. exists k. split; [auto|apply str_eqb_refl].
Qed.

(** ** Enumerations *)

Definition chain_ok {A} (g : str -> json -> option A) (units : list str) (vs : list (str * schema)) : Prop := forall k p,
  (exists v, g k p = Some v) <-> (In k units /\ p = JNull) \/ exists s, In (k, s) vs /\ accepts s p.
Lemma chain_nil {A} : @chain_ok A (fun _ _ => None) [] [].
Proof. intros k p. split; [intros [? H]; discriminate H|intros [[[] _]|(s & [] & _)]]. Qed.
Lemma chain_variant {A} name (f : json -> option A) s g units vs : fits f s -> existsb (str_eqb name) (units ++ map fst vs) = false ->
  chain_ok g units vs -> chain_ok (fun k p => if str_eqb k name then f p else g k p) units ((name, s) :: vs).
Proof.
  intros H D K k p. assert (ND : ~ In name (units ++ map fst vs)).
  { intros I. assert (existsb (str_eqb name) (units ++ map fst vs) = true); [|congruence]. apply existsb_exists. exists name. split; [auto|apply str_eqb_refl]. }
  rewrite in_app_iff in ND. destruct (str_eqb k name) eqn:E.
  - apply str_eqb_spec in E. subst k. rewrite (H p). split.
    + intros Ap. right. exists s. split; [now left|exact Ap].
    + intros [[I _]|(s' & [[= <-]|I] & Ap)]; [tauto|exact Ap|]. exfalso. apply ND. right. apply in_map_iff. exists (name, s'). auto.
  - apply str_eqb_neq in E. rewrite (K k p). split.
    + intros [U|(s' & I & Ap)]; [auto|]. right. exists s'. split; [now right|exact Ap].
    + intros [U|(s' & [[= <- <-]|I] & Ap)]; [auto|congruence|]. right. exists s'. auto.
Qed.
Lemma chain_unit {A} name (c : A) g units vs : existsb (str_eqb name) (units ++ map fst vs) = false ->
  chain_ok g units vs -> chain_ok (fun k p => if str_eqb k name then match p with JNull => Some c | _ => None end else g k p) (name :: units) vs.
Proof.
  intros D K k p. assert (ND : ~ In name (units ++ map fst vs)).
  { intros I. assert (existsb (str_eqb name) (units ++ map fst vs) = true); [|congruence]. apply existsb_exists. exists name. split; [auto|apply str_eqb_refl]. }
  rewrite in_app_iff in ND. destruct (str_eqb k name) eqn:E.
  - apply str_eqb_spec in E. subst k. split.
    + intros [v X]. left. split; [now left|]. destruct p; try discriminate X. reflexivity.
    + intros [[_ ->]|(s & I & _)]; [eauto|]. exfalso. apply ND. right. apply in_map_iff. exists (name, s). auto.
  - apply str_eqb_neq in E. rewrite (K k p). cbn [In]. split; [tauto|]. intros [[[->|I] ->]|H]; [congruence|auto|auto].
Qed.

Lemma enum_fits {A} (g : str -> json -> option A) (u : str -> option A) units vs : chain_ok g units vs ->
  (forall s, (exists v, u s = Some v) <-> In s units) ->
  fits (fun j => match j with JStr s => u s | JObj [(k, p)] => g k p | _ => None end) (SEnum units vs).
Proof.
  intros K U [| | | |t|l|l]; try no_value.
  - rewrite U. split; [apply ac_unit|inversion 1; assumption].
  - destruct l as [|[k p] [|]]; try no_value. rewrite (K k p). split.
    + intros [[I ->]|(s & I & Ap)]; [now apply ac_unit_null|eapply ac_variant; eauto].
    + inversion 1; subst; eauto.
Qed.

(** ** Order *)

Definition ordered {A} (de : json -> option A) : Prop := forall j j', reordered j j' -> de j = de j'.
Definition related (e g : list (str * json)) : Prop :=
  exists f, Permutation e f /\ Forall2 (fun a b => fst a = fst b /\ reordered (snd a) (snd b)) f g.

Lemma values_perm k e f : Permutation e f -> Permutation (all_values k e) (all_values k f).
Proof.
  induction 1 as [|[a x] e f _ IH|[a x] [b y] e|e f g _ IH1 _ IH2]; cbn [all_values]; auto.
  - destruct (str_eqb a k); auto.
  - destruct (str_eqb a k), (str_eqb b k); auto. constructor.
  - eapply Permutation_trans; eauto.
Qed.
Lemma values_related k f g : Forall2 (fun a b => fst a = fst b /\ reordered (snd a) (snd b)) f g ->
  Forall2 reordered (all_values k f) (all_values k g).
Proof.
  induction 1 as [|[a x] [b y] f g [E R] _ IH]; cbn [all_values]; [constructor|]. cbn [fst snd] in *. subst b. destruct (str_eqb a k); auto.
Qed.
Lemma values_cases k e g : related e g -> (all_values k e = [] /\ all_values k g = []) \/
  (exists a b, all_values k e = [a] /\ all_values k g = [b] /\ reordered a b) \/
  (exists a b l c d m, all_values k e = a :: b :: l /\ all_values k g = c :: d :: m).
Proof.
  intros (f & P & F). apply (values_perm k) in P. apply (values_related k) in F.
  pose proof (Permutation_length P) as L. pose proof (Forall2_length _ _ _ F) as M.
  destruct (all_values k e) as [|a [|b l]], (all_values k g) as [|c [|d m]]; cbn [length] in *; try lia.
  - auto.
  - right; left. exists a, c. split; [reflexivity|]. split; [reflexivity|]. apply Permutation_length_1_inv in P. rewrite P in F. now inversion F.
  - right; right. exists a, b, l, c, d, m. auto.
Qed.
Lemma need_order {A C} name (de : json -> option A) e g (k k' : A -> option C) : ordered de -> related e g -> (forall a, k a = k' a) ->
  need_field name de e k = need_field name de g k'.
Proof.
  intros O R K. unfold need_field. destruct (values_cases name e g R) as [[-> ->]|[(a & b & -> & -> & Rab)|(a & b & l & c & d & m & -> & ->)]]; auto.
  rewrite (O a b Rab). destruct (de b); auto.
Qed.
Lemma order_opt {A} (de : json -> option A) : ordered de -> ordered (de_opt de).
Proof.
  intros O j j' R. pose proof (O j j' R) as E. destruct R; cbn [de_opt]; [reflexivity|now rewrite E|now rewrite E].
Qed.
Lemma need_opt_order {A C} name (de : json -> option A) e g (k k' : option A -> option C) : ordered de -> related e g -> (forall a, k a = k' a) ->
  need_opt_field name de e k = need_opt_field name de g k'.
Proof.
  intros O R K. unfold need_opt_field. destruct (values_cases name e g R) as [[-> ->]|[(a & b & -> & -> & Rab)|(a & b & l & c & d & m & -> & ->)]]; auto.
  rewrite (order_opt de O a b Rab). destruct (de_opt de b); auto.
Qed.
Lemma related_refl e : related e e.
Proof. exists e. split; [reflexivity|]. induction e; constructor; auto. split; [reflexivity|constructor]. Qed.
Lemma fields_order {A} names (k k' : list (str * json) -> option A) j j' : reordered j j' -> (forall e g, related e g -> k e = k' g) ->
  de_fields names j k = de_fields names j' k'.
Proof.
  intros R K. destruct R as [j|l m F|e f g P F].
  - destruct j; cbn [de_fields]; auto using related_refl. destruct (Nat.eqb _ _); auto using related_refl.
  - cbn [de_fields]. rewrite (Forall2_length _ _ _ F). destruct (Nat.eqb _ _); [|reflexivity]. apply K. exists (combine names l). split; [reflexivity|].
    clear K. revert names. induction F as [|x y l m R _ IH]; intros [|n names]; cbn [combine]; constructor; auto.
  - cbn [de_fields]. apply K. exists f. auto.
Qed.

Lemma order_leaf {A} (de : json -> option A) : (forall l, de (JArr l) = None) -> (forall e, de (JObj e) = None) -> ordered de.
Proof. intros HA HO j j' R. destruct R; [reflexivity|now rewrite !HA|now rewrite !HO]. Qed.
Lemma order_bool : ordered de_bool. Proof. now apply order_leaf. Qed.
Lemma order_str : ordered de_str. Proof. now apply order_leaf. Qed.
Lemma order_f32 : ordered de_f32. Proof. now apply order_leaf. Qed.
Lemma order_range lo hi : ordered (de_range lo hi). Proof. now apply order_leaf. Qed.
Lemma order_u64s : ordered de_u64s. Proof. now apply order_leaf. Qed.
Lemma order_i64s : ordered de_i64s. Proof. now apply order_leaf. Qed.
Lemma order_list {A} (de : json -> option A) l m : ordered de -> Forall2 reordered l m -> de_list de l = de_list de m.
Proof. intros O. induction 1 as [|x y l m R _ IH]; [reflexivity|]. cbn [de_list]. now rewrite (O x y R), IH. Qed.
Lemma order_vec {A} (de : json -> option A) : ordered de -> ordered (de_vec de).
Proof. intros O j j' R. destruct R; [reflexivity| |reflexivity]. cbn [de_vec]. now apply order_list. Qed.
Lemma order_map {A C} (f : A -> C) (de : json -> option A) : ordered de -> ordered (fun j => option_map f (de j)).
Proof. intros O j j' R. now rewrite (O j j' R). Qed.
Lemma order_bytes : ordered de_bytes.
Proof. unfold de_bytes. apply order_vec, order_map, order_range. Qed.
Lemma order_arr3 {A} (de : json -> option A) : ordered de -> ordered (de_arr3 de).
Proof.
  intros O j j' R. destruct R as [|l m F|]; [reflexivity| |reflexivity]. cbn [de_arr3].
  destruct F as [|x x' l m Rx F]; [reflexivity|]. destruct F as [|y y' l m Ry F]; [reflexivity|]. destruct F as [|z z' l m Rz F]; [reflexivity|].
  destruct F; [|reflexivity]. now rewrite (O x x' Rx), (O y y' Ry), (O z z' Rz).
Qed.
Definition chain_ordered {A} (g : str -> json -> option A) : Prop := forall k, ordered (g k).
Lemma enum_order {A} (g : str -> json -> option A) (u : str -> option A) : chain_ordered g ->
  ordered (fun j => match j with JStr s => u s | JObj [(k, p)] => g k p | _ => None end).
Proof.
  intros K j j' R. destruct R as [|l m F|e f h P F]; [reflexivity|reflexivity|].
  destruct e as [|[k p] [|]].
  - apply Permutation_nil in P. subst f. now inversion F.
  - apply Permutation_length_1_inv in P. subst f. inversion F as [|? [k' p'] ? ? [E Rp] F']; subst. inversion F'; subst. cbn [fst snd] in *. subst k'. now apply K.
  - apply Permutation_length in P. pose proof (Forall2_length _ _ _ F) as L. cbn [length] in P.
    destruct f as [|? [|]]; cbn [length] in *; try lia. destruct h as [|[] [|]]; cbn [length] in *; try lia. reflexivity.
Qed.

(** ** Tactics *)

Lemma fits_use {A} (de : json -> option A) s j : fits de s -> accepts s j -> exists v, de j = Some v.
Proof. intros H. apply H. Qed.
Lemma fits_accepts {A} (de : json -> option A) s j v : fits de s -> de j = Some v -> accepts s j.
Proof. intros H E. apply H. eauto. Qed.

Lemma fits_u8 : fits de_u8 (SInt 0 (2 ^ 8 - 1)). Proof. exact (fits_range _ _). Qed.
Lemma fits_u16 : fits de_u16 (SInt 0 (2 ^ 16 - 1)). Proof. exact (fits_range _ _). Qed.
Lemma fits_u32 : fits de_u32 (SInt 0 (2 ^ 32 - 1)). Proof. exact (fits_range _ _). Qed.
Lemma fits_i8 : fits de_i8 (SInt (- 2 ^ 7) (2 ^ 7 - 1)). Proof. exact (fits_range _ _). Qed.
Lemma fits_i32 : fits de_i32 (SInt (- 2 ^ 31) (2 ^ 31 - 1)). Proof. exact (fits_range _ _). Qed.
Lemma order_u8 : ordered de_u8. Proof. exact (order_range _ _). Qed.
Lemma order_u16 : ordered de_u16. Proof. exact (order_range _ _). Qed.
Lemma order_u32 : ordered de_u32. Proof. exact (order_range _ _). Qed.
Lemma order_i8 : ordered de_i8. Proof. exact (order_range _ _). Qed.
Lemma order_i32 : ordered de_i32. Proof. exact (order_range _ _). Qed.
Create HintDb fits. Create HintDb order.
#[global] Hint Resolve fits_bool fits_str fits_f32 fits_u8 fits_u16 fits_u32 fits_i8 fits_i32 fits_u64s fits_i64s fits_bytes fits_opt fits_vec fits_arr3 : fits.
#[global] Hint Resolve order_bool order_str order_f32 order_u8 order_u16 order_u32 order_i8 order_i32 order_u64s order_i64s order_bytes order_opt order_vec order_arr3 : order.

Ltac fits_fields := lazymatch goal with
  | |- (exists c, need_field _ _ _ _ = Some c) <-> _ =>
      apply chain_field; [solve [eauto with fits]|discriminate|let a := fresh in intros a; try destruct a as [[? ?] ?]; fits_fields]
  | |- (exists c, need_opt_field _ _ _ _ = Some c) <-> _ =>
      apply chain_opt_field; [solve [eauto with fits]|let a := fresh in intros a; fits_fields]
  | |- _ => apply chain_end
  end.
Ltac fits_record := lazymatch goal with |- fits _ (SStruct ?F) =>
  refine (struct_fits F _ _ _); [apply distinct_ok; vm_compute; reflexivity|let fs := fresh in intros fs; fits_fields] end.
Ltac fits_struct de s := unfold de, s; fits_record.

Ltac fits_tuple :=
  let j := fresh "j" in let E := fresh "E" in intros j; cbv beta; split;
  [intros [? E]; destruct j as [| | | | |l|]; try discriminate E;
   repeat match type of E with context [match ?l with [] => _ | _ :: _ => _ end] => destruct l; try discriminate E end;
   repeat match type of E with context [match ?d ?j with None => _ | Some _ => _ end] => destruct (d j) eqn:?; try discriminate E end;
   apply ac_tuple; repeat constructor; (eapply fits_accepts; [|eassumption]; solve [eauto with fits])
  |inversion 1; subst; repeat match goal with K : Forall2 _ _ _ |- _ => inversion K; clear K; subst end;
   repeat match goal with |- context [match ?d ?j with None => _ | Some _ => _ end] =>
     let F := fresh in assert (F : exists v, d j = Some v) by (eapply fits_use; [|eassumption]; solve [eauto with fits]); destruct F as [? ->] end; eauto].
Ltac fits_payload := lazymatch goal with
  | |- fits (fun p => option_map _ _) _ => apply fits_map; solve [eauto with fits]
  | |- fits _ (SStruct _) => fits_record
  | |- fits _ (STuple _) => fits_tuple
  end.
Ltac fits_chain := lazymatch goal with
  | |- chain_ok (fun _ _ => None) _ _ => apply chain_nil
  | |- chain_ok (fun k p => if str_eqb k _ then match p with JNull => _ | _ => _ end else _) _ _ =>
      first [apply chain_unit; [vm_compute; reflexivity|fits_chain]
            |apply chain_variant; [fits_payload|vm_compute; reflexivity|fits_chain]]
  | |- _ => apply chain_variant; [fits_payload|vm_compute; reflexivity|fits_chain]
  end.
Ltac fits_units := let s := fresh "s" in intros s; cbn [In]; split;
  [intros [? ?]; repeat match goal with H : context [str_eqb ?a ?b] |- _ =>
     let E := fresh in destruct (str_eqb a b) eqn:E; [apply str_eqb_spec in E; subst; tauto|apply str_eqb_neq in E] end; discriminate
  |let H := fresh in intros H; repeat match goal with |- context [str_eqb ?a ?b] => let E := fresh in destruct (str_eqb a b) eqn:E; [eauto|apply str_eqb_neq in E] end;
   exfalso; intuition congruence].
Ltac fits_enum de s := unfold de, s; refine (enum_fits _ _ _ _ _ _); [fits_chain|fits_units].

Ltac order_fields := lazymatch goal with
  | |- need_field _ _ _ _ = _ => apply need_order; [solve [eauto with order]|assumption|let a := fresh in intros a; try destruct a as [[? ?] ?]; order_fields]
  | |- need_opt_field _ _ _ _ = _ => apply need_opt_order; [solve [eauto with order]|assumption|let a := fresh in intros a; order_fields]
  | |- _ => reflexivity
  end.
Ltac order_record := intros ? ? ?; apply fields_order; [assumption|intros ? ? ?; order_fields].
Ltac order_struct de := unfold de; order_record.
Lemma order_if {A} k name (f g : json -> option A) : ordered f -> ordered g -> ordered (fun p => if str_eqb k name then f p else g p).
Proof. intros F G. destruct (str_eqb k name); auto. Qed.
Lemma order_none {A} : ordered (fun _ => @None A).
Proof. now intros ? ? ?. Qed.
Ltac order_tuple := let j := fresh in let j' := fresh in let R := fresh in intros j j' R; cbv beta; destruct R as [|? ? F|]; [reflexivity| |reflexivity];
  repeat (destruct F as [|? ? ? ? ? F]; try reflexivity);
  repeat match goal with R : reordered ?x ?y |- _ =>
    repeat match goal with |- context [?d x] => let H := fresh in assert (H : ordered d) by (solve [eauto with order]); rewrite (H _ _ R); clear H end; clear R end; reflexivity.
Ltac order_payload := lazymatch goal with
  | |- ordered (fun p => option_map _ _) => apply order_map; solve [eauto with order]
  | |- ordered (fun p => de_fields _ _ _) => order_record
  | |- ordered _ => first [now apply order_leaf|order_tuple]
  end.
Ltac order_chain := lazymatch goal with
  | |- ordered (fun _ => None) => apply order_none
  | |- ordered (fun p => if _ then _ else _) => apply order_if; [order_payload|order_chain]
  end.
Ltac order_enum de := unfold de; refine (enum_order _ _ _); intros ?; order_chain.

(** ** Ranges *)

Definition gives {A} (de : json -> option A) (T : A -> Prop) : Prop := forall j v, de j = Some v -> T v.
Lemma range_in lo hi j v : de_range lo hi j = Some v -> lo <= v <= hi.
Proof. destruct j; cbn [de_range]; try discriminate. destruct (Z.leb_spec lo x), (Z.leb_spec x hi); cbn [andb]; try discriminate. intros [= <-]. lia. Qed.
Lemma gives_u8 : gives de_u8 is_u8. Proof. intros j v H. apply range_in in H. unfold is_u8. lia. Qed.
Lemma gives_u16 : gives de_u16 is_u16. Proof. intros j v H. apply range_in in H. unfold is_u16. lia. Qed.
Lemma gives_u32 : gives de_u32 is_u32. Proof. intros j v H. apply range_in in H. unfold is_u32. lia. Qed.
Lemma gives_i8 : gives de_i8 is_i8. Proof. intros j v H. apply range_in in H. unfold is_i8. lia. Qed.
Lemma gives_i32 : gives de_i32 is_i32. Proof. intros j v H. apply range_in in H. unfold is_i32. lia. Qed.
Lemma gives_u64s : gives de_u64s is_u64.
Proof. intros [] v H; try discriminate. apply parse_int_iff in H as [_ H]. unfold is_u64. lia. Qed.
Lemma gives_i64s : gives de_i64s is_i64.
Proof. intros [] v H; try discriminate. apply parse_int_iff in H as [_ H]. unfold is_i64. lia. Qed.
Lemma gives_opt {A} (de : json -> option A) T : gives de T -> gives (de_opt de) (all_opt T).
Proof.
  intros H j v E. assert (K : option_map Some (de j) = Some v -> all_opt T v).
  { destruct (de j) eqn:D; cbn [option_map]; [|discriminate]. intros [= <-]. cbn. eauto. }
  destruct j; try exact (K E). injection E as <-. exact I.
Qed.
Lemma gives_vec {A} (de : json -> option A) T : gives de T -> gives (de_vec de) (all_vec T).
Proof.
  intros H [| | | | |l|] v E; try discriminate. cbn [de_vec] in E. revert v E. unfold all_vec.
  induction l as [|x l IH]; intros v E; cbn [de_list] in E.
  - injection E as <-. constructor.
  - destruct (de x) eqn:D; [|discriminate]. destruct (de_list de l); [|discriminate]. injection E as <-. constructor; eauto.
Qed.
Lemma gives_arr3 {A} (de : json -> option A) T j a b c : gives de T -> de_arr3 de j = Some (a, b, c) -> T a /\ T b /\ T c.
Proof.
  intros H E. destruct j as [| | | | |l|]; try discriminate. destruct l as [|x [|y [|z [|]]]]; try discriminate. cbn [de_arr3] in E.
  destruct (de x) eqn:X; [|discriminate]. destruct (de y) eqn:Y; [|discriminate]. destruct (de z) eqn:W; [|discriminate].
  injection E as <- <- <-. exact (conj (H _ _ X) (conj (H _ _ Y) (H _ _ W))).
Qed.
Lemma need_inv {A C} name (de : json -> option A) fs (k : A -> option C) c : need_field name de fs k = Some c ->
  exists j a, de j = Some a /\ k a = Some c.
Proof.
  unfold need_field. destruct (all_values name fs) as [|j [|]]; try discriminate. destruct (de j) eqn:D; [|discriminate]. eauto.
Qed.
Lemma need_opt_inv {A C} name (de : json -> option A) fs (k : option A -> option C) c : need_opt_field name de fs k = Some c ->
  exists j a, de_opt de j = Some a /\ k a = Some c.
Proof.
  unfold need_opt_field. destruct (all_values name fs) as [|j [|]]; try discriminate; [intros H; exists JNull, None; auto|].
  destruct (de_opt de j) eqn:D; [|discriminate]. eauto.
Qed.
Lemma fields_inv {A} names j (k : list (str * json) -> option A) v : de_fields names j k = Some v -> exists fs, k fs = Some v.
Proof. destruct j; cbn [de_fields]; try discriminate; [destruct (Nat.eqb _ _); [|discriminate]|]; eauto. Qed.
Lemma map_inv {A C} (f : A -> C) o v : option_map f o = Some v -> exists a, o = Some a /\ v = f a.
Proof. destruct o; cbn [option_map]; [|discriminate]. intros [= <-]. eauto. Qed.
Create HintDb gives.
#[global] Hint Resolve gives_u8 gives_u16 gives_u32 gives_i8 gives_i32 gives_u64s gives_i64s gives_opt gives_vec : gives.

Ltac gives_one := match goal with
  | H : ?d ?j = Some ?v |- ?T ?v => let G := fresh in assert (G : gives d T) by (solve [eauto with gives]); exact (G j v H)
  | H : de_arr3 ?d ?j = Some (?a, ?b, ?c) |- ?T ?x => let G := fresh in assert (G : gives d T) by (solve [eauto with gives]); apply (gives_arr3 d T j a b c) in H; [tauto|exact G]
  end.
Ltac gives_end T E := injection E as <-; cbn [T]; repeat match goal with |- _ /\ _ => split end; try exact I; gives_one.
Ltac gives_fields T E := lazymatch type of E with
  | need_field _ _ _ _ = Some _ => let y := fresh in apply need_inv in E as (? & y & ? & E); try destruct y as [[? ?] ?]; gives_fields T E
  | need_opt_field _ _ _ _ = Some _ => apply need_opt_inv in E as (? & ? & ? & E); gives_fields T E
  | _ => gives_end T E
  end.
Ltac gives_struct de T := let j := fresh in let v := fresh in let E := fresh "E" in
  intros j v E; unfold de in E; apply fields_inv in E as [? E]; gives_fields T E.
Ltac gives_payload T E := lazymatch type of E with
  | option_map _ _ = Some _ => let H := fresh in apply map_inv in E as (? & H & ->); cbn [T]; try exact I; gives_one
  | de_fields _ _ _ = Some _ => apply fields_inv in E as [? E]; gives_fields T E
  | _ =>
   repeat match type of E with context [match ?l with JNull => _ | _ => _ end] => destruct l; try discriminate E end;
   repeat match type of E with context [match ?l with [] => _ | _ :: _ => _ end] => destruct l; try discriminate E end;
   repeat match type of E with context [match ?d ?j with None => _ | Some _ => _ end] => destruct (d j) eqn:?; try discriminate E end;
   gives_end T E
  end.
Ltac gives_enum de T := let j := fresh "j" in let v := fresh in let E := fresh "E" in
  intros j v E; unfold de in E; destruct j as [| | | |s|l|l]; try discriminate E;
  repeat match type of E with context [match ?l with [] => _ | _ :: _ => _ end] => is_var l; destruct l as [|[? ?] ?]; try discriminate E end;
  repeat match type of E with (if str_eqb ?k ?n then _ else _) = _ => destruct (str_eqb k n); [gives_payload T E|] end; discriminate E.
