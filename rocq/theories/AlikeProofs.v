(** * What the JSON of a replay determines *)

From Coq Require Import ZArith List Bool Lia.
From Verif Require Import Base Text F32 NetTypes Errors Header Body BitReader ObjectIndex Parser Json JsonNet JsonReplay
  TextProofs ReaderLogic BitLemmas SpecBasic SpecFacts SpecFile SpecReplay SpecDecimal SpecJson SpecAlike FileFacts CacheProofs
  JsonLogic JsonProofs TypedProofs JsonFacts DisplayUnique Samples.
Open Scope Z_scope.

(** ** Numbers in the header *)

Lemma sized_props q i ps o : f_props q i ps o -> Forall (fun kv => sized (snd kv)) ps.
Proof.
  apply (f_props_m q
    (fun _ ps _ => Forall (fun kv => sized (snd kv)) ps)
    (fun _ _ v _ => sized v)
    (fun n _ rows _ => Forall (Forall (fun kv => sized (snd kv))) rows));
    try (intros; apply sz_leaf; discriminate).
  - intros. constructor.
  - intros. constructor; auto.
  - auto.
  - intros. now apply sz_array.
  - intros i' x o' (l & _ & R & _). apply sz_qword. exact R.
  - intros. now apply sz_struct.
  - intros. constructor.
  - intros. now constructor.
Qed.

(** ** Floats *)

Lemma ser_f32_same x y : ser_f32 x = ser_f32 y <-> same_number x y.
Proof.
  unfold ser_f32, same_number. pose proof (finite_iff x) as X. pose proof (finite_iff y) as Y.
  destruct (f32_is_finite x), (f32_is_finite y).
  - split; [injection 1; auto|]. intros [->|[N _]]; [reflexivity|]. exfalso. apply N, X. reflexivity.
  - split; [discriminate|]. intros [->|[N _]]; [|exfalso; apply N, X; reflexivity].
    exfalso. assert (finite y) by now apply X. apply Y in H. discriminate.
  - split; [discriminate|]. intros [->|[_ N]]; [|exfalso; apply N, Y; reflexivity].
    exfalso. assert (finite y) by now apply Y. apply X in H. discriminate.
  - split; [|reflexivity]. intros _. right. split; intros H; [apply X in H|apply Y in H]; discriminate.
Qed.

(** ** Lists *)

Lemma map_eq_Forall2 {A C} (f : A -> C) (R : A -> A -> Prop) l : Forall (fun a => forall b, f a = f b -> R a b) l ->
  forall l', map f l = map f l' -> Forall2 R l l'.
Proof.
  induction 1 as [|a l H _ IH]; intros [|b l'] E; try discriminate; constructor; injection E as E1 E2; auto.
Qed.
Lemma Forall2_map_eq {A C} (f : A -> C) (R : A -> A -> Prop) l l' : Forall2 R l l' ->
  (forall a b, R a b -> f a = f b) -> map f l = map f l'.
Proof. intros H HR. induction H; cbn [map]; f_equal; auto. Qed.
Lemma map_inj {A C} (f : A -> C) : (forall a b, f a = f b -> a = b) -> forall l l', map f l = map f l' -> l = l'.
Proof. intros H. induction l as [|a l IH]; intros [|b l'] E; try discriminate; auto. injection E as E1 E2. f_equal; auto. Qed.

(** ** Values of the header *)

(** how the model writes keys and values *)
Definition ser_pairs (l : props) : list (str * json) := map (fun kv => match kv with (k, v) => (k, ser_header_prop v) end) l.

Lemma ser_struct name f : ser_header_prop (HStruct name f) = JObj [(lit "name", JStr name); (lit "fields", JObj (ser_pairs f))].
Proof. reflexivity. Qed.
Lemma ser_array rows : ser_header_prop (HArray rows) = JArr (map (fun l => JObj (ser_pairs l)) rows).
Proof. reflexivity. Qed.

Lemma u64_small x : is_u64 x -> Z.abs x < 10 ^ 20.
Proof. unfold is_u64. intros H. change (10 ^ 20) with 100000000000000000000. change (2 ^ 64) with 18446744073709551616 in H. lia. Qed.

Lemma sized_qword x : sized (HQWord x) -> is_u64 x.
Proof. inversion 1; subst; auto. exfalso. eapply H0; reflexivity. Qed.
Lemma sized_array rows : sized (HArray rows) -> Forall (Forall (fun kv => sized (snd kv))) rows.
Proof. inversion 1; subst; auto. exfalso. eapply H1; reflexivity. Qed.
Lemma sized_struct name f : sized (HStruct name f) -> Forall (fun kv => sized (snd kv)) f.
Proof. inversion 1; subst; auto. exfalso. eapply H2; reflexivity. Qed.

Lemma prints_ser p s : sized p -> prints p s -> ser_header_prop p = JStr s.
Proof.
  intros S H. destruct H as [s|s|x s D]; try reflexivity.
  cbn [ser_header_prop]. unfold ser_u64s. f_equal. apply sized_qword in S.
  eapply decimal_fun; [apply display_decimal, u64_small, S|exact D].
Qed.
Lemma ser_prints p s : sized p -> ser_header_prop p = JStr s -> prints p s.
Proof.
  intros S. destruct p; cbn [ser_header_prop]; try discriminate.
  - unfold ser_f32. destruct (f32_is_finite x); discriminate.
  - injection 1 as ->. constructor.
  - unfold ser_u64s. injection 1 as <-. constructor. apply display_decimal, u64_small, sized_qword, S.
  - injection 1 as ->. constructor.
Qed.

Section Induction.
Context (P : header_prop -> Prop)
  (Harray : forall rows, Forall (Forall (fun kv => P (snd kv))) rows -> P (HArray rows))
  (Hbool : forall b, P (HBool b)) (Hbyte : forall k v, P (HByte k v)) (Hfloat : forall x, P (HFloat x))
  (Hint : forall x, P (HInt x)) (Hname : forall s, P (HName s)) (Hqword : forall x, P (HQWord x))
  (Hstr : forall s, P (HStr s)) (Hstruct : forall name f, Forall (fun kv => P (snd kv)) f -> P (HStruct name f)).

Fixpoint header_prop_nested (p : header_prop) : P p :=
  let pairs := fix pairs (l : props) : Forall (fun kv => P (snd kv)) l :=
    match l with
    | [] => Forall_nil _
    | kv :: t => Forall_cons kv (header_prop_nested (snd kv)) (pairs t)
    end in
  match p with
  | HArray rows =>
      Harray rows ((fix go (l : list props) : Forall (Forall (fun kv => P (snd kv))) l :=
        match l with
        | [] => Forall_nil _
        | r :: t => Forall_cons r (pairs r) (go t)
        end) rows)
  | HBool b => Hbool b
  | HByte k v => Hbyte k v
  | HFloat x => Hfloat x
  | HInt x => Hint x
  | HName s => Hname s
  | HQWord x => Hqword x
  | HStr s => Hstr s
  | HStruct name f => Hstruct name f (pairs f)
  end.
End Induction.

Definition pairs_alike (f g : props) : Prop := Forall2 (fun a b => fst a = fst b /\ alike (snd a) (snd b)) f g.

Lemma ser_pairs_alike f : Forall (fun kv => sized (snd kv) -> forall q, sized q ->
    ser_header_prop (snd kv) = ser_header_prop q -> alike (snd kv) q) f ->
  Forall (fun kv => sized (snd kv)) f -> forall g, Forall (fun kv => sized (snd kv)) g ->
  ser_pairs f = ser_pairs g -> pairs_alike f g.
Proof.
  induction 1 as [|[k v] f H _ IH]; intros Sf [|[k' v'] g] Sg E; try discriminate; [constructor|].
  unfold ser_pairs in E. cbn [map] in E. injection E as -> E1 E2. inversion Sf; inversion Sg; subst. constructor; [|now apply IH].
  split; [reflexivity|]. cbn [snd] in *. now apply H.
Qed.

Lemma ser_alike p : sized p -> forall q, sized q -> ser_header_prop p = ser_header_prop q -> alike p q.
Proof.
  induction p as [rows IH|b|k v|x|x|s|x|s|name f IH] using header_prop_nested; intros Sp q Sq E.
  - destruct q; try discriminate; [|cbn in E; unfold ser_f32 in E; destruct (f32_is_finite x); discriminate].
    rewrite !ser_array in E. assert (E' : map (fun l => JObj (ser_pairs l)) rows = map (fun l => JObj (ser_pairs l)) rows0) by (now injection E).
    clear E. constructor. apply sized_array in Sp, Sq. revert rows0 Sq E'.
    induction IH as [|r rows H _ IHr]; intros [|r' rows'] Sq E; try discriminate; [constructor|].
    cbn [map] in E. injection E as E1 E2. inversion Sp; inversion Sq; subst. constructor; [|now apply IHr].
    now apply ser_pairs_alike.
  - destruct q; try discriminate; [|cbn in E; unfold ser_f32 in E; destruct (f32_is_finite x); discriminate].
    injection E as ->. constructor.
  - destruct q; try discriminate; [|cbn in E; unfold ser_f32 in E; destruct (f32_is_finite x); discriminate].
    cbn in E. injection E as -> E. assert (v = value) as -> by (destruct v, value; try discriminate; cbn in E; try (injection E as ->); reflexivity). constructor.
  - destruct q; cbn [ser_header_prop] in E; try (unfold ser_f32 in E; destruct (f32_is_finite x); discriminate).
    constructor. now apply ser_f32_same.
  - destruct q; try discriminate; [cbn in E; unfold ser_f32 in E; destruct (f32_is_finite x0); discriminate|].
    injection E as ->. constructor.
  - symmetry in E. apply ser_prints in E; auto. eapply al_text; [constructor|exact E].
  - symmetry in E. pose proof (ser_prints (HQWord x) (display_Z x) Sp eq_refl). cbn [ser_header_prop] in E. unfold ser_u64s in E.
    apply ser_prints in E; auto. eapply al_text; eauto.
  - symmetry in E. apply ser_prints in E; auto. eapply al_text; [constructor|exact E].
  - destruct q; try discriminate; [cbn in E; unfold ser_f32 in E; destruct (f32_is_finite x); discriminate|].
    rewrite !ser_struct in E. assert (name = name0 /\ ser_pairs f = ser_pairs fields) as [-> E'] by (split; now injection E).
    constructor. apply sized_struct in Sp, Sq. now apply ser_pairs_alike.
Qed.

Lemma pairs_alike_ser f : Forall (fun kv => sized (snd kv) -> forall q, sized q -> alike (snd kv) q ->
    ser_header_prop (snd kv) = ser_header_prop q) f ->
  Forall (fun kv => sized (snd kv)) f -> forall g, Forall (fun kv => sized (snd kv)) g ->
  pairs_alike f g -> ser_pairs f = ser_pairs g.
Proof.
  induction 1 as [|[k v] f H _ IH]; intros Sf g Sg E; inversion E; subst; [reflexivity|]. destruct y as [k' v'].
  inversion Sf; inversion Sg; subst. destruct H2 as [E1 E2]. cbn [fst snd] in *. subst k'. unfold ser_pairs. cbn [map]. f_equal; [|now apply IH].
  f_equal. now apply H.
Qed.

Lemma alike_ser p : sized p -> forall q, sized q -> alike p q -> ser_header_prop p = ser_header_prop q.
Proof.
  induction p as [rows IH|b|k v|x|x|s|x|s|name f IH] using header_prop_nested; intros Sp q Sq E; inversion E; subst;
    try reflexivity;
    try (match goal with H : prints ?p ?s, H' : prints q ?s |- _ = ser_header_prop q => rewrite (prints_ser _ _ Sp H), (prints_ser _ _ Sq H'); reflexivity end).
  - rewrite !ser_array. f_equal. apply sized_array in Sp, Sq. clear E. revert g H0 Sq.
    induction IH as [|r rows H _ IHr]; intros g G Sq; inversion G; subst; [reflexivity|]. inversion Sp; inversion Sq; subst.
    cbn [map]. f_equal; [|now apply IHr]. f_equal. now apply pairs_alike_ser.
  - cbn [ser_header_prop]. now apply ser_f32_same.
  - rewrite !ser_struct. f_equal. f_equal. f_equal. f_equal. f_equal. apply sized_struct in Sp, Sq. now apply pairs_alike_ser.
Qed.

Lemma props_alike f g : Forall (fun kv => sized (snd kv)) f -> Forall (fun kv => sized (snd kv)) g ->
  (ser_props f = ser_props g <-> alike_props f g).
Proof.
  intros Sf Sg. change (ser_props f) with (JObj (ser_pairs f)). change (ser_props g) with (JObj (ser_pairs g)). split.
  - intros E. assert (E' : ser_pairs f = ser_pairs g) by (now injection E). apply ser_pairs_alike; auto.
    apply Forall_forall. intros kv _. apply ser_alike.
  - intros E. f_equal. apply pairs_alike_ser; auto. apply Forall_forall. intros kv _. apply alike_ser.
Qed.

(** ** Parts of the body *)

Lemma ser_opt_inj {A} (f : A -> json) : (forall a b, f a = f b -> a = b) -> (forall a, f a <> JNull) ->
  forall o o', ser_opt f o = ser_opt f o' -> o = o'.
Proof.
  intros I N [a|] [b|] E; cbn [ser_opt] in E; auto; [f_equal; auto|exfalso; eapply N; eauto|].
  exfalso. symmetry in E. eapply N; eauto.
Qed.
Lemma ser_vec_inj {A} (f : A -> json) : (forall a b, f a = f b -> a = b) -> forall l l', ser_vec f l = ser_vec f l' -> l = l'.
Proof. intros I l l' E. apply (map_inj f I). unfold ser_vec in E. now injection E. Qed.
Lemma ser_str_inj a b : ser_str a = ser_str b -> a = b.
Proof. unfold ser_str. congruence. Qed.
Lemma ser_debug_inj a b : ser_debug_info a = ser_debug_info b -> a = b.
Proof. destruct a, b. unfold ser_debug_info, ser_i32, ser_str. cbn. congruence. Qed.
Lemma ser_tick_inj a b : ser_tick_mark a = ser_tick_mark b -> a = b.
Proof. destruct a, b. unfold ser_tick_mark, ser_i32, ser_str. cbn. congruence. Qed.
Lemma ser_class_inj a b : ser_class_index a = ser_class_index b -> a = b.
Proof. destruct a, b. unfold ser_class_index, ser_i32, ser_str. cbn. congruence. Qed.
Lemma ser_prop_inj a b : ser_cache_prop a = ser_cache_prop b -> a = b.
Proof. destruct a, b. unfold ser_cache_prop, ser_i32. cbn. congruence. Qed.
Lemma ser_cache_inj a b : ser_class_net_cache a = ser_class_net_cache b -> a = b.
Proof.
  destruct a as [a1 a2 a3 a4], b as [b1 b2 b3 b4]. unfold ser_class_net_cache, ser_i32. cbn [nc_object_ind nc_parent_id nc_cache_id nc_properties]. intros E.
  injection E as -> -> -> E. f_equal. apply (map_inj _ ser_prop_inj _ _ E).
Qed.
Lemma ser_key_same a b : ser_key_frame a = ser_key_frame b <-> alike_key_frame a b.
Proof.
  destruct a as [a1 a2 a3], b as [b1 b2 b3]. unfold ser_key_frame, alike_key_frame, ser_i32. cbn [kf_time kf_frame kf_position]. rewrite <- ser_f32_same. split.
  - intros E. repeat split; congruence.
  - intros (-> & -> & ->). reflexivity.
Qed.
Lemma ser_keys_same a b : ser_vec ser_key_frame a = ser_vec ser_key_frame b <-> Forall2 alike_key_frame a b.
Proof.
  split.
  - intros E. apply (map_eq_Forall2 ser_key_frame); [|unfold ser_vec in E; now injection E].
    apply Forall_forall. intros x _ y. apply ser_key_same.
  - intros H. unfold ser_vec. f_equal. eapply Forall2_map_eq; [exact H|]. intros x y. apply ser_key_same.
Qed.

(** ** Replays *)

Section Parse.
Context (B : bitter) (HB : bitter_ok B) (ho : hash_order) (Hho : hash_order_ok ho).

Lemma parsed_sized c n data r : lenZ data < 2 ^ 31 -> parse_with B ho c n data = Ok r ->
  Forall (fun kv => sized (snd kv)) (r_properties r).
Proof.
  intros L E. destruct (parse_ok_file _ _ _ _ _ _ L E) as (h & b & rest & F & ->). cbn.
  destruct F as (h' & m & (hs & hc & hcov & hm & hv & _ & Hh & Eh) & b' & m' & _ & E' & _).
  injection E' as -> _. subst h'. cbn.
  destruct Hh as (maj & m1 & _ & min & m2 & _ & net & m3 & _ & gt & m4 & _ & ps & m5 & Hp & -> & _). cbn.
  eapply sized_props; eauto.
Qed.

Lemma frames_same c n data r c' n' data' s : lenZ data < 2 ^ 31 -> lenZ data' < 2 ^ 31 ->
  parse_with B ho c n data = Ok r -> parse_with B ho c' n' data' = Ok s -> finite_frames r -> finite_frames s ->
  ser_opt (fun fs => JObj [(lit "frames", ser_vec ser_frame fs)]) (r_network_frames r) =
  ser_opt (fun fs => JObj [(lit "frames", ser_vec ser_frame fs)]) (r_network_frames s) ->
  r_network_frames r = r_network_frames s.
Proof.
  intros L L' E E'. unfold finite_frames. destruct (r_network_frames r) as [fs|] eqn:R, (r_network_frames s) as [gs|] eqn:S;
    cbn [ser_opt]; intros Fr Fs J; try discriminate; auto.
  f_equal. assert (J' : ser_vec ser_frame fs = ser_vec ser_frame gs) by congruence.
  destruct (decoded_frames B ho c n data r fs HB Hho L E R) as [_ H1].
  destruct (decoded_frames B ho c' n' data' s gs HB Hho L' E' S) as [_ H2].
  apply H1 in Fr. apply H2 in Fs. rewrite J' in Fr. congruence.
Qed.

Theorem json_same c n data r c' n' data' s : lenZ data < 2 ^ 31 -> lenZ data' < 2 ^ 31 ->
  parse_with B ho c n data = Ok r -> parse_with B ho c' n' data' = Ok s -> finite_frames r -> finite_frames s ->
  (ser_replay r = ser_replay s <-> alike_replay r s).
Proof.
  intros L L' E E' Fr Fs.
  pose proof (parsed_sized c n data r L E) as Sr. pose proof (parsed_sized c' n' data' s L' E') as Ss.
  pose proof (frames_same _ _ _ _ _ _ _ _ L L' E E' Fr Fs) as Ff. pose proof (props_alike _ _ Sr Ss) as Hp.
  clear E E' Sr Ss. destruct r, s. unfold ser_replay, alike_replay in *. cbn in *. split.
  - intros J.
    assert (J1 : ser_props r_properties = ser_props r_properties0) by congruence.
    assert (J2 : ser_vec ser_key_frame r_keyframes = ser_vec ser_key_frame r_keyframes0) by congruence.
    split; [now apply Hp|]. split; [now apply ser_keys_same|].
    split; [|split].
    + assert (r_net_version = r_net_version0).
      { apply (ser_opt_inj ser_i32); [unfold ser_i32; congruence|discriminate|congruence]. }
      unfold ser_i32, ser_u32, ser_str in J. congruence.
    + assert (r_network_frames = r_network_frames0) by (apply Ff; congruence).
      assert (r_levels = r_levels0) by (apply (ser_vec_inj _ ser_str_inj); congruence).
      assert (r_debug_info = r_debug_info0) by (apply (ser_vec_inj _ ser_debug_inj); congruence).
      assert (r_tick_marks = r_tick_marks0) by (apply (ser_vec_inj _ ser_tick_inj); congruence).
      unfold ser_i32, ser_u32 in J. congruence.
    + assert (r_packages = r_packages0) by (apply (ser_vec_inj _ ser_str_inj); congruence).
      assert (r_objects = r_objects0) by (apply (ser_vec_inj _ ser_str_inj); congruence).
      assert (r_names = r_names0) by (apply (ser_vec_inj _ ser_str_inj); congruence).
      assert (r_class_indices = r_class_indices0) by (apply (ser_vec_inj _ ser_class_inj); congruence).
      assert (r_net_cache = r_net_cache0) by (apply (ser_vec_inj _ ser_cache_inj); congruence).
      congruence.
  - intros (A1 & A2 & A3 & A4 & A5). apply Hp in A1. apply ser_keys_same in A2. rewrite A1, A2.
    injection A3 as -> -> -> -> -> ->. injection A4 as -> -> -> -> -> ->. injection A5 as -> -> -> -> ->. reflexivity.
Qed.

End Parse.

(** ** Two files with the same JSON *)

(** a header with one property, of the given kind, and an empty body *)
Definition text_file (kind : string) : list byte :=
  repeat x00 8 ++ [x01; x00; x00; x00] ++ repeat x00 8 ++
  [x02; x00; x00; x00; "K"%byte; x00] ++
  [byte_of_Z (lenZ (lit kind) + 1); x00; x00; x00] ++ lit kind ++ [x00] ++ repeat x00 8 ++
  [x02; x00; x00; x00; "V"%byte; x00] ++
  [x05; x00; x00; x00] ++ lit "None" ++ [x00] ++ repeat x00 48.

Lemma same_json_twice : exists data data', lenZ data < 2 ^ 31 /\ lenZ data' < 2 ^ 31 /\ exists r s,
  parse_with std_bitter key_order CrcNever NetNever data = Ok r /\
  parse_with std_bitter key_order CrcNever NetNever data' = Ok s /\
  r_properties r = [(lit "K", HName (lit "V"))] /\ r_properties s = [(lit "K", HStr (lit "V"))] /\
  ser_replay r = ser_replay s.
Proof.
  exists (text_file "NameProperty"), (text_file "StrProperty").
  split; [vm_compute; reflexivity|]. split; [vm_compute; reflexivity|].
  eexists _, _. split; [vm_compute; reflexivity|]. split; [vm_compute; reflexivity|]. repeat split.
Qed.
