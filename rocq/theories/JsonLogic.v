(** * Proofs: serde building blocks, and tactics for the generated code *)

From Coq Require Import ZArith List Bool Lia Floats.SpecFloat.
From Verif Require Import Base F32 Text Json SpecText TextProofs SpecDecimal SpecBasic SpecFacts SpecJson.
Open Scope Z_scope.

Lemma byte_of_Z_byteZ b : byte_of_Z (byteZ b) = b.
Proof. apply byteZ_inj, byteZ_of_Z, byteZ_range. Qed.

(** ** Decimal notation *)

Lemma digit_value_digit d : 0 <= d <= 9 -> digit_value (digit d) = Some d.
Proof.
  intros H. unfold digit_value, digit. rewrite byteZ_of_Z by lia.
  replace (48 + d - 48) with d by lia. destruct (Z.leb_spec 0 d), (Z.leb_spec d 9); try lia. reflexivity.
Qed.

Lemma digits_number_app a d : digits_number (a ++ [d]) = 10 * digits_number a + d.
Proof.
  induction a as [|x a IH]; cbn [app digits_number length]; [lia|].
  rewrite IH, app_length. cbn [length]. rewrite Nat2Z.inj_add.
  rewrite Z.pow_add_r by lia. change (10 ^ Z.of_nat 1) with 10. lia.
Qed.

Lemma dec_digits_spec fuel : forall x acc, (0 < fuel)%nat -> 0 <= x < 10 ^ Z.of_nat fuel ->
  exists ds, are_digits ds /\ no_leading_zero ds /\ digits_number ds = x /\
    dec_digits fuel x acc = map digit ds ++ acc.
Proof.
  induction fuel as [|fuel IH]; intros x acc Hf Hx; [lia|]. cbn [dec_digits].
  pose proof (Z.mod_pos_bound x 10 ltac:(lia)) as Hm. pose proof (Z.div_mod x 10 ltac:(lia)) as Hd.
  destruct (Z.eqb_spec (x / 10) 0) as [E|E].
  - exists [x mod 10]. split; [constructor; [lia|constructor]|]. split; [exact I|].
    split; [cbn [digits_number length]; change (10 ^ Z.of_nat 0) with 1; lia|reflexivity].
  - rewrite Nat2Z.inj_succ, Z.pow_succ_r in Hx by lia.
    assert (H10 : 0 < x / 10 < 10 ^ Z.of_nat fuel).
    { pose proof (Z.div_pos x 10). split; [lia|]. apply Z.div_lt_upper_bound; lia. }
    destruct fuel as [|fuel]; [change (10 ^ Z.of_nat 0) with 1 in H10; lia|].
    destruct (IH (x / 10) (digit (x mod 10) :: acc) ltac:(lia) ltac:(lia)) as (ds & A & N & V & D).
    exists (ds ++ [x mod 10]).
    split; [apply Forall_app; split; [exact A|constructor; [lia|constructor]]|].
    split.
    { destruct ds as [|d [|d' t]]; [contradiction| |exact N].
      cbn [app no_leading_zero]. cbn [digits_number length] in V. change (10 ^ Z.of_nat 0) with 1 in V. lia. }
    split; [rewrite digits_number_app, V; lia|].
    rewrite D, map_app, <- app_assoc. reflexivity.
Qed.

Lemma ascii_map ds : are_digits ds -> ascii_digits ds (map digit ds).
Proof.
  induction 1 as [|d ds Hd _ IH]; constructor; [|exact IH].
  change (byteZ (digit d) = 48 + d). unfold digit. apply byteZ_of_Z. lia.
Qed.

Lemma parse_digits_map ds : are_digits ds -> forall acc,
  parse_digits (map digit ds) acc = Some (acc * 10 ^ Z.of_nat (length ds) + digits_number ds).
Proof.
  induction 1 as [|d ds Hd _ IH]; intros acc; cbn [map parse_digits length digits_number].
  - f_equal. change (10 ^ Z.of_nat 0) with 1. lia.
  - rewrite digit_value_digit by exact Hd. rewrite IH. f_equal.
    rewrite Nat2Z.inj_succ, Z.pow_succ_r by lia. lia.
Qed.

Lemma display_shape x : Z.abs x < 10 ^ 20 -> exists ds, are_digits ds /\ no_leading_zero ds /\
  digits_number ds = Z.abs x /\ display_Z x = (if x <? 0 then "-"%byte :: map digit ds else map digit ds).
Proof.
  intros H. unfold display_Z.
  destruct (dec_digits_spec 20 (Z.abs x) [] ltac:(lia) ltac:(change (10 ^ Z.of_nat 20) with (10 ^ 20); lia)) as (ds & A & N & V & D).
  rewrite app_nil_r in D. exists ds. split; [exact A|]. split; [exact N|]. split; [exact V|].
  destruct (Z.ltb_spec x 0); [rewrite Z.abs_neq in D by lia|rewrite Z.abs_eq in D by lia]; rewrite D; reflexivity.
Qed.

Lemma display_decimal x : Z.abs x < 10 ^ 20 -> decimal x (display_Z x).
Proof.
  intros H. destruct (display_shape x H) as (ds & A & N & V & D). exists ds, (map digit ds).
  split; [exact A|]. split; [exact N|]. split; [apply ascii_map, A|]. split; [exact V|exact D].
Qed.

Lemma ascii_digit_unique ds t : are_digits ds -> ascii_digits ds t -> t = map digit ds.
Proof.
  intros A H. induction H as [|d b ds t Hb _ IH]; [reflexivity|]. inversion A; subst.
  cbn [map]. rewrite <- IH by assumption. f_equal. apply byteZ_inj.
  unfold digit. rewrite byteZ_of_Z by lia. exact Hb.
Qed.

Lemma digit_byteZ d : 0 <= d <= 9 -> byteZ (digit d) = 48 + d.
Proof. intros. unfold digit. apply byteZ_of_Z. lia. Qed.

(** a decimal notation is parsed as the number it denotes, if that is in range *)
Lemma parse_decimal signed lo hi x s : decimal x s -> lo <= x <= hi -> (x < 0 -> signed = true) ->
  parse_int signed lo hi s = Some x.
Proof.
  intros (ds & t & A & N & T & V & E) Hx Hs. pose proof (ascii_digit_unique ds t A T) as ->.
  destruct ds as [|d ds]; [contradiction|]. assert (Hd : 0 <= d <= 9) by (inversion A; assumption).
  assert (P : parse_digits (map digit (d :: ds)) 0 = Some (Z.abs x)) by (rewrite (parse_digits_map _ A), V; f_equal; lia).
  assert (R : ((lo <=? x) && (x <=? hi))%bool = true) by (apply andb_true_intro; split; apply Z.leb_le; lia).
  destruct (Z.ltb_spec x 0) as [L|L]; subst s; unfold parse_int.
  - change (byteZ "-"%byte =? 43) with false. change (byteZ "-"%byte =? 45) with true.
    rewrite (Hs L). cbn [andb]. change (map digit (d :: ds)) with (digit d :: map digit ds) in *.
    cbn iota. rewrite P. cbn [option_map]. replace (- Z.abs x) with x by lia. rewrite R. reflexivity.
  - change (map digit (d :: ds)) with (digit d :: map digit ds) in *. cbn iota.
    rewrite (digit_byteZ d Hd).
    destruct (Z.eqb_spec (48 + d) 43); [lia|]. destruct (Z.eqb_spec (48 + d) 45); [lia|]. cbn [andb].
    rewrite P. replace (Z.abs x) with x by lia. rewrite R. reflexivity.
Qed.

(** ** Round trips *)

Definition round_trip {A} (ser : A -> json) (de : json -> option A) (T : A -> Prop) (F : A -> list f32) : Prop :=
  forall v, T v -> (de (ser v) = Some v <-> Forall finite (F v)).

Definition none_null {A} (de : json -> option A) : Prop := de JNull = None.

Lemma rt_total {A} (ser : A -> json) de (T : A -> Prop) : (forall v, T v -> de (ser v) = Some v) ->
  round_trip ser de T (fun _ => []).
Proof. intros H v Hv. split; [constructor|]. intros _. apply H, Hv. Qed.

Lemma rt_bool : round_trip ser_bool de_bool (fun _ => True) (fun _ => []).
Proof. apply rt_total. reflexivity. Qed.
Lemma rt_str : round_trip ser_str de_str (fun _ => True) (fun _ => []).
Proof. apply rt_total. reflexivity. Qed.

Lemma rt_range lo hi (T : Z -> Prop) : (forall x, T x -> lo <= x <= hi) ->
  round_trip JInt (de_range lo hi) T (fun _ => []).
Proof.
  intros H. apply rt_total. intros x Hx. specialize (H x Hx). unfold de_range.
  destruct (Z.leb_spec lo x), (Z.leb_spec x hi); try lia. reflexivity.
Qed.
Lemma rt_u8 : round_trip ser_u8 de_u8 is_u8 (fun _ => []).
Proof. apply rt_range. unfold is_u8. lia. Qed.
Lemma rt_u16 : round_trip ser_u16 de_u16 is_u16 (fun _ => []).
Proof. apply rt_range. unfold is_u16. lia. Qed.
Lemma rt_u32 : round_trip ser_u32 de_u32 is_u32 (fun _ => []).
Proof. apply rt_range. unfold is_u32. lia. Qed.
Lemma rt_i8 : round_trip ser_i8 de_i8 is_i8 (fun _ => []).
Proof. apply rt_range. unfold is_i8. lia. Qed.
Lemma rt_i32 : round_trip ser_i32 de_i32 is_i32 (fun _ => []).
Proof. apply rt_range. unfold is_i32. lia. Qed.

Lemma rt_i64s : round_trip ser_i64s de_i64s is_i64 (fun _ => []).
Proof.
  apply rt_total. intros x Hx. unfold is_i64 in Hx. unfold ser_i64s, de_i64s.
  apply parse_decimal; [apply display_decimal; lia|lia|reflexivity].
Qed.
Lemma rt_u64s : round_trip ser_u64s de_u64s is_u64 (fun _ => []).
Proof.
  apply rt_total. intros x Hx. unfold is_u64 in Hx. unfold ser_u64s, de_u64s.
  apply parse_decimal; [apply display_decimal; lia|lia|lia].
Qed.

Lemma finite_iff x : f32_is_finite x = true <-> finite x.
Proof.
  unfold f32_is_finite, sf_of_bits, finite, f32_scaled.
  pose proof (Z.mod_pos_bound x (2 ^ 23) ltac:(lia)).
  destruct (Z.eqb_spec ((x / 2 ^ 23) mod 2 ^ 8) 255).
  - destruct (x mod 2 ^ 23 =? 0); (split; [discriminate|congruence]).
  - destruct (Z.eqb_spec ((x / 2 ^ 23) mod 2 ^ 8) 0).
    + destruct (x mod 2 ^ 23); (split; [discriminate|reflexivity]).
    + destruct (x mod 2 ^ 23 + 2 ^ 23) eqn:E; [lia|split; [discriminate|reflexivity]|lia].
Qed.

Lemma rt_f32 : round_trip ser_f32 de_f32 (fun _ => True) one_float.
Proof.
  intros x _. unfold ser_f32, one_float. rewrite Forall_cons_iff, <- finite_iff.
  destruct (f32_is_finite x); cbn [de_f32].
  - split; [split; [reflexivity|constructor]|reflexivity].
  - split; [discriminate|intros [? _]; discriminate].
Qed.

Lemma rt_bytes : round_trip ser_bytes de_bytes (fun _ => True) (fun _ => []).
Proof.
  apply rt_total. intros l _. unfold ser_bytes, de_bytes, de_vec.
  induction l as [|b l IH]; [reflexivity|]. cbn [map de_list].
  rewrite IH. unfold de_u8, de_range. pose proof (byteZ_range b).
  destruct (Z.leb_spec 0 (byteZ b)), (Z.leb_spec (byteZ b) (2 ^ 8 - 1)); try lia. cbn [andb option_map].
  rewrite byte_of_Z_byteZ. reflexivity.
Qed.

Lemma rt_opt {A} (ser : A -> json) de (T : A -> Prop) F : none_null de -> round_trip ser de T F ->
  round_trip (ser_opt ser) (de_opt de) (all_opt T) (opt_floats F).
Proof.
  intros N R [x|] Hx; cbn [ser_opt all_opt opt_floats] in *; [|split; [constructor|reflexivity]].
  rewrite <- (R x Hx). unfold none_null in N.
  assert (O : forall j, j <> JNull -> de_opt de j = option_map Some (de j)) by (intros [] ?; [congruence|reflexivity..]).
  assert (D : ser x = JNull \/ ser x <> JNull) by (destruct (ser x); [left; reflexivity|right; discriminate..]).
  destruct D as [->|D]; [rewrite N; split; discriminate|]. rewrite (O _ D).
  destruct (de (ser x)) as [y|]; cbn [option_map]; (split; [|]); try discriminate; intros [= ->]; reflexivity.
Qed.
Lemma rt_opt_plain {A} (ser : A -> json) de (T : A -> Prop) : none_null de -> round_trip ser de T (fun _ => []) ->
  round_trip (ser_opt ser) (de_opt de) (all_opt T) (fun _ => []).
Proof. intros N R o Ho. rewrite (rt_opt ser de T _ N R o Ho). destruct o; reflexivity. Qed.
Lemma rt_opt_any {A} (ser : A -> json) de F : none_null de -> round_trip ser de (fun _ => True) F ->
  round_trip (ser_opt ser) (de_opt de) (fun _ => True) (opt_floats F).
Proof. intros N R o Ho. apply (rt_opt ser de _ F N R). destruct o; exact I. Qed.
Lemma rt_opt_any_plain {A} (ser : A -> json) de : none_null de -> round_trip ser de (fun _ => True) (fun _ => []) ->
  round_trip (ser_opt ser) (de_opt de) (fun _ => True) (fun _ => []).
Proof. intros N R o Ho. apply (rt_opt_plain ser de _ N R). destruct o; exact I. Qed.

Lemma rt_vec {A} (ser : A -> json) de (T : A -> Prop) F : round_trip ser de T F ->
  round_trip (ser_vec ser) (de_vec de) (all_vec T) (vec_floats F).
Proof.
  intros R l Hl. unfold ser_vec, de_vec, vec_floats. induction Hl as [|x l Hx _ IH]; [split; [constructor|reflexivity]|].
  cbn [map de_list flat_map]. rewrite Forall_app, <- (R x Hx), <- IH.
  destruct (de (ser x)) as [y|]; [|split; [discriminate|intros [? _]; discriminate]].
  destruct (de_list de (map ser l)) as [r|].
  - split; [intros [= -> ->]; split; reflexivity|intros [[= ->] [= ->]]; reflexivity].
  - split; [discriminate|intros [_ ?]; discriminate].
Qed.
Lemma rt_vec_plain {A} (ser : A -> json) de (T : A -> Prop) : round_trip ser de T (fun _ => []) ->
  round_trip (ser_vec ser) (de_vec de) (all_vec T) (fun _ => []).
Proof.
  intros R l Hl. rewrite (rt_vec ser de T _ R l Hl). clear Hl. induction l as [|x l IH]; [reflexivity|exact IH].
Qed.

Create HintDb rt.
#[global] Hint Resolve rt_bool rt_str rt_u8 rt_u16 rt_u32 rt_i8 rt_i32 rt_i64s rt_u64s rt_f32 rt_bytes : rt.
#[global] Hint Resolve rt_opt_any_plain | 2 : rt.
#[global] Hint Resolve rt_opt_plain rt_vec_plain | 3 : rt.
#[global] Hint Resolve rt_opt_any | 4 : rt.
#[global] Hint Resolve rt_opt rt_vec | 5 : rt.
#[global] Hint Extern 1 (none_null _) => reflexivity : rt.

(** one field of a struct *)
Lemma field_iff {A R} (o : option A) x (k : A -> option R) r (P Q : Prop) : (o = Some x <-> P) ->
  (forall y, k y = Some r -> y = x) -> (k x = Some r <-> Q) ->
  (match o with Some a => k a | None => None end = Some r <-> P /\ Q).
Proof.
  intros HP Hk HQ. rewrite <- HP, <- HQ. destruct o as [a|]; [|split; [discriminate|intros [? _]; discriminate]].
  split; [intros H; pose proof (Hk a H) as ->; split; [reflexivity|exact H]|intros [[= ->] H]; exact H].
Qed.
Lemma field_rt {A R} (ser : A -> json) de (T : A -> Prop) F x (k : A -> option R) r (Q : Prop) :
  round_trip ser de T F -> T x -> (forall y, k y = Some r -> y = x) -> (k x = Some r <-> Q) ->
  (match de (ser x) with Some a => k a | None => None end = Some r <-> Forall finite (F x) /\ Q).
Proof. intros H Hx. apply field_iff, H, Hx. Qed.
(** the payload of an enum variant *)
Lemma some_true {R} (r : R) : Some r = Some r <-> True.
Proof. split; intros; [exact I|reflexivity]. Qed.
Lemma map_iff {A R} (o : option A) x (c : A -> R) (P : Prop) : (o = Some x <-> P) ->
  (forall y, c y = c x -> y = x) -> (option_map c o = Some (c x) <-> P).
Proof.
  intros HP Hc. rewrite <- HP. destruct o as [a|]; cbn [option_map]; [|split; discriminate].
  split; [intros [= H]; f_equal; apply Hc, H|intros [= ->]; reflexivity].
Qed.

Lemma map_rt {A R} (ser : A -> json) de (T : A -> Prop) F x (c : A -> R) :
  round_trip ser de T F -> T x -> (forall y, c y = c x -> y = x) ->
  (option_map c (de (ser x)) = Some (c x) <-> Forall finite (F x)).
Proof. intros H Hx. apply map_iff, H, Hx. Qed.

(** an array of three *)
Lemma rt_arr3 {A} (ser : A -> json) de (T : A -> Prop) x y z : round_trip ser de T (fun _ => []) -> T x -> T y -> T z ->
  (de_arr3 de (JArr [ser x; ser y; ser z]) = Some (x, y, z) <-> Forall finite []).
Proof.
  intros R Hx Hy Hz. cbn [de_arr3].
  assert (E : forall v, T v -> de (ser v) = Some v) by (intros v Hv; apply (R v Hv); constructor).
  rewrite (E x Hx), (E y Hy), (E z Hz). split; [constructor|reflexivity].
Qed.

(** ** Tactics *)

Ltac rt_names := cbv [all_values str_eqb lit list_byte_of_string list_ascii_of_string map Ascii.byte_of_ascii
  Byte.of_bits Byte.to_bits Byte.eqb Bool.eqb andb].
Ltac rt_typed := first [exact I | assumption | tauto].
(** the value read back is the value written, since the constructor is injective *)
Ltac rt_inj := let y := fresh in let H := fresh in intros y H;
  try (match type of y with (_ * _ * _)%type => destruct y as [[? ?] ?] end);
  repeat match type of H with
  | context [match ?o with Some _ => _ | None => None end] => destruct o; [|discriminate H]
  | context [let '(_, _) := ?p in _] => destruct p as [? ?]
  end; injection H; intros; subst; reflexivity.
Ltac rt_field := match goal with
  | |- (match de_arr3 ?d (JArr [?s ?x; ?s ?y; ?s ?z]) with Some _ => _ | None => _ end = Some _) <-> _ =>
      eapply (field_iff _ (x, y, z)); [eapply (rt_arr3 s d); [solve [eauto with rt]|rt_typed|rt_typed|rt_typed]|rt_inj|]
  | |- (match ?d (?s ?x) with Some _ => _ | None => None end = Some _) <-> _ =>
      eapply (field_rt s d); [solve [eauto with rt]|rt_typed|rt_inj|]
  end.
Ltac rt_end :=
  try match goal with |- _ <-> Forall finite (?f ?v) => let t := eval red in (f v) in change (f v) with t end;
  cbn beta; repeat rewrite Forall_app;
  let H := fresh in (split; intros H;
  repeat match goal with K : _ /\ _ |- _ => destruct K end; repeat split; first [assumption|constructor|idtac]).
Ltac rt_start de ser := let v := fresh "v" in let H := fresh "Ht" in intros v H; destruct v; simpl in H;
  unfold de, ser, de_fields, need_field, need_opt_field; rt_names.
Ltac rt_fields := eapply iff_trans; [repeat rt_field; apply some_true|rt_end].
Ltac rt_map := first
  [ match goal with |- (Some _ = Some _) <-> _ => split; [constructor|reflexivity] end
  | match goal with |- (option_map ?c (?d (?s ?x)) = Some _) <-> _ =>
      eapply iff_trans; [eapply (map_rt s d); [solve [eauto with rt]|rt_typed|
        let y := fresh in let H := fresh in intros y H; injection H; intros; subst; reflexivity]|reflexivity] end ].
Ltac rt_solve := first [rt_map | rt_fields].
