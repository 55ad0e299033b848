(** * How long numbers, texts and attributes are in messages *)

From Coq Require Import ZArith List Bool Lia.
From Verif Require Import Base F32 NetTypes Text Json JsonText Debug DebugNet FloatDisplay SpecBasic SpecJson SpecSize TextProofs MagnitudeProofs
  JsonLogic SizeProofs WireBits TextLength.
Open Scope Z_scope.

(** ** Floats *)

Lemma plain_len d k : 0 < d < 10 ^ 10 -> -57 <= k <= 50 -> lenZ (plain_decimal d k) <= 70.
Proof.
  intros Hd Hk. pose proof (int_text_len d 10 ltac:(lia) ltac:(lia)) as L. destruct (Z.ltb_spec d 0) as [|_]; [lia|].
  pose proof (lenZ_nonneg (int_text d)). unfold plain_decimal. cbv zeta. set (ds := int_text d) in *. set (kk := lenZ ds + k).
  destruct (Z.leb_spec 0 k); [rewrite lenZ_app, repeat_len; lia|].
  destruct (Z.ltb_spec 0 kk).
  - rewrite !lenZ_app. pose proof (firstn_skipn_len (Z.to_nat kk) ds). change (lenZ (lit ".")) with 1. lia.
  - rewrite !lenZ_app, repeat_len. change (lenZ (lit "0.")) with 2. lia.
Qed.
Lemma exp_len d k : 0 < d < 10 ^ 10 -> -57 <= k <= 50 -> lenZ (exp_decimal d k) <= 20.
Proof.
  intros Hd Hk. pose proof (int_text_len d 10 ltac:(lia) ltac:(lia)) as L. destruct (Z.ltb_spec d 0) as [|_]; [lia|].
  unfold exp_decimal. destruct (int_text d) as [|b t]; [cbn; lia|]. rewrite lenZ_cons in L. pose proof (lenZ_nonneg t).
  pose proof (int_text_len (k + lenZ t) 3 ltac:(lia) ltac:(change (10 ^ 3) with 1000; lia)).
  assert (lenZ (match t with [] => [] | _ => lit "." ++ t end) <= 1 + lenZ t).
  { destruct t as [|y t']; [cbn; lia|]. rewrite lenZ_app. change (lenZ (lit ".")) with 1. lia. }
  rewrite lenZ_cons, !lenZ_app. change (lenZ (lit "e")) with 1. destruct (k + lenZ t <? 0); lia.
Qed.
Lemma form_len x t c : 5 <= c -> (x mod 2 ^ 31 < inf -> lenZ t <= c - 1) -> lenZ (float_form x t) <= c.
Proof.
  intros Hc Ht. unfold float_form. cbv zeta. change (255 * 2 ^ 23) with inf in *.
  destruct (Z.ltb_spec inf (x mod 2 ^ 31)); [change (lenZ (lit "NaN")) with 3; lia|]. rewrite lenZ_app.
  assert (lenZ (if x <? 2 ^ 31 then [] else lit "-") <= 1) by (destruct (x <? 2 ^ 31); cbn; lia).
  destruct (Z.eqb_spec (x mod 2 ^ 31) inf); [change (lenZ (lit "inf")) with 3; lia|]. specialize (Ht ltac:(lia)). lia.
Qed.
Lemma display_f32_len x : lenZ (display_f32 x) <= 71.
Proof.
  unfold display_f32. cbv zeta. apply form_len; [lia|]. intros H.
  destruct (Z.eqb_spec (x mod 2 ^ 31) 0); [cbn; lia|]. pose proof (Z.mod_pos_bound x (2 ^ 31) ltac:(lia)).
  pose proof (decimal_range true (x mod 2 ^ 31) ltac:(lia)) as D. destruct (f32_decimal true _) as [d k]. destruct D.
  pose proof (plain_len d k). lia.
Qed.
Lemma debug_f32_len x : lenZ (debug_f32 x) <= 73.
Proof.
  unfold debug_f32. cbv zeta. apply form_len; [lia|]. intros H.
  destruct (Z.eqb_spec (x mod 2 ^ 31) 0); [cbn; lia|]. pose proof (Z.mod_pos_bound x (2 ^ 31) ltac:(lia)).
  pose proof (decimal_range true (x mod 2 ^ 31) ltac:(lia)) as D. destruct (f32_decimal true _) as [d k]. destruct D.
  pose proof (plain_len d k). pose proof (exp_len d k). destruct (_ || _); [lia|]. unfold point_decimal. rewrite lenZ_app.
  assert (lenZ (if 0 <=? k then lit ".0" else []) <= 2) by (destruct (0 <=? k); cbn; lia). lia.
Qed.

(** ** Texts and values *)

Lemma hex_len n : forall x acc, lenZ (hex_digits n x acc) <= Z.of_nat n + lenZ acc.
Proof.
  induction n as [|n IH]; intros x acc; cbn [hex_digits]; [lia|]. destruct (x <? 16); [rewrite lenZ_cons; lia|].
  etransitivity; [apply IH|]. rewrite lenZ_cons. lia.
Qed.

Section Shown.
Context (shown : Z -> bool).

Lemma debug_char_len c bs : 1 <= lenZ bs -> lenZ (debug_char shown c bs) <= 10 * lenZ bs.
Proof.
  intros H. unfold debug_char.
  repeat match goal with |- context [if ?b then [_; _] else _] => destruct b; [unfold lenZ at 1; cbn [length]; lia|] end.
  match goal with |- context [if ?b then bs else _] => destruct b; [lia|] end. rewrite !lenZ_app. pose proof (hex_len 6 c []).
  change (lenZ (lit "\u{")) with 3. change (lenZ (lit "}")) with 1. change (@lenZ byte []) with 0 in *. lia.
Qed.
Lemma debug_chars_len n : forall s, (length s <= n)%nat -> lenZ (debug_chars shown s) <= 10 * lenZ s.
Proof.
  induction n as [|n IH]; intros s L; [destruct s; [cbn; lia|cbn [length] in L; lia]|].
  destruct s as [|b0 t0]; [cbn; lia|]. cbn [debug_chars]. cbv zeta. cbn [length] in L. rewrite lenZ_cons.
  assert (E : forall A (a : A), lenZ [a] = 1) by reflexivity.
  destruct (_ <? 0x80).
  { rewrite lenZ_app. specialize (IH t0 ltac:(lia)). pose proof (debug_char_len (byteZ b0) [b0] ltac:(cbn; lia)). rewrite E in *. lia. }
  destruct t0 as [|b1 t1]; [cbn; lia|]. cbn [length] in L. rewrite lenZ_cons. destruct (_ <? 0xE0).
  { rewrite lenZ_app. specialize (IH t1 ltac:(lia)). pose proof (debug_char_len (64 * (byteZ b0 mod 32) + byteZ b1 mod 64) [b0; b1] ltac:(cbn; lia)). change (lenZ [b0; b1]) with 2 in *. lia. }
  destruct t1 as [|b2 t2]; [cbn; lia|]. cbn [length] in L. rewrite lenZ_cons. destruct (_ <? 0xF0).
  { rewrite lenZ_app. specialize (IH t2 ltac:(lia)).
    match goal with |- lenZ (debug_char shown ?x ?l) + _ <= _ => pose proof (debug_char_len x l ltac:(cbn; lia)) end. change (lenZ [b0; b1; b2]) with 3 in *. lia. }
  destruct t2 as [|b3 t3]; [cbn; lia|]. cbn [length] in L. rewrite lenZ_cons, lenZ_app. specialize (IH t3 ltac:(lia)).
  match goal with |- lenZ (debug_char shown ?x ?l) + _ <= _ => pose proof (debug_char_len x l ltac:(cbn; lia)) end. change (lenZ [b0; b1; b2; b3]) with 4 in *. lia.
Qed.

Fixpoint dweight (d : dbg) : Z :=
  match d with
  | DInt x => lenZ (int_text x)
  | DBool _ => 5
  | DF32 _ => 73
  | DStr s => 2 + 10 * lenZ s
  | DName n => lenZ n
  | DTuple n l => 2 + lenZ n + total (fun x => 2 + dweight x) l
  | DStruct n l => 5 + lenZ n + total (fun kv => 4 + lenZ (fst kv) + dweight (snd kv)) l
  | DList l => 2 + total (fun x => 2 + dweight x) l
  end.

Section Induction.
Context (P : dbg -> Prop) (Hi : forall x, P (DInt x)) (Hb : forall b, P (DBool b)) (Hf : forall x, P (DF32 x))
  (Hs : forall s, P (DStr s)) (Hn : forall n, P (DName n)) (Ht : forall n l, Forall P l -> P (DTuple n l))
  (Hr : forall n l, Forall (fun kv => P (snd kv)) l -> P (DStruct n l)) (Hl : forall l, Forall P l -> P (DList l)).
Fixpoint dbg_rec' (d : dbg) : P d :=
  match d with
  | DInt x => Hi x
  | DBool b => Hb b
  | DF32 x => Hf x
  | DStr s => Hs s
  | DName n => Hn n
  | DTuple n l => Ht n l ((fix go l : Forall P l := match l with [] => Forall_nil _ | x :: t => Forall_cons _ (dbg_rec' x) (go t) end) l)
  | DStruct n l => Hr n l ((fix go l : Forall (fun kv => P (snd kv)) l :=
      match l with [] => Forall_nil _ | kv :: t => Forall_cons _ (dbg_rec' (snd kv)) (go t) end) l)
  | DList l => Hl l ((fix go l : Forall P l := match l with [] => Forall_nil _ | x :: t => Forall_cons _ (dbg_rec' x) (go t) end) l)
  end.
End Induction.

Lemma commas_len l : lenZ (commas l) <= total (fun x => 2 + lenZ x) l.
Proof.
  induction l as [|x [|y t] IH]; [cbn; lia|rewrite total_cons, total_nil; cbn [commas]; lia|].
  change (commas (x :: y :: t)) with (x ++ lit ", " ++ commas (y :: t)). rewrite total_cons, !lenZ_app. change (lenZ (lit ", ")) with 2. lia.
Qed.
Lemma debug_len d : lenZ (debug_text shown d) <= dweight d.
Proof.
  induction d as [x|b|x|s|n|n l IH|n l IH|l IH] using dbg_rec'; cbn [debug_text dweight]; try lia.
  - destruct b; cbn; lia.
  - apply debug_f32_len.
  - unfold debug_str. rewrite lenZ_cons, lenZ_app. pose proof (debug_chars_len _ s (le_n _)). change (lenZ [x22]) with 1. lia.
  - rewrite !lenZ_app. pose proof (commas_len (map (debug_text shown) l)) as C. rewrite total_map in C.
    assert (total (fun x => 2 + lenZ (debug_text shown x)) l <= total (fun x => 2 + dweight x) l).
    { clear C. induction IH; [reflexivity|]. rewrite !total_cons. lia. }
    change (lenZ (lit "(")) with 1. change (lenZ (lit ")")) with 1. lia.
  - rewrite !lenZ_app. match goal with |- context [commas ?m] => pose proof (commas_len m) as C end. rewrite total_map in C.
    match type of C with _ <= ?t => assert (t <= total (fun kv => 4 + lenZ (fst kv) + dweight (snd kv)) l) end.
    { clear C. induction IH as [|[k v] l Hx _ IHl]; [reflexivity|]. rewrite !total_cons. cbn [fst snd] in *. rewrite !lenZ_app.
      change (lenZ (lit ": ")) with 2. lia. }
    change (lenZ (lit " { ")) with 3. change (lenZ (lit " }")) with 2. lia.
  - rewrite !lenZ_app. pose proof (commas_len (map (debug_text shown) l)) as C. rewrite total_map in C.
    assert (total (fun x => 2 + lenZ (debug_text shown x)) l <= total (fun x => 2 + dweight x) l).
    { clear C. induction IH; [reflexivity|]. rewrite !total_cons. lia. }
    change (lenZ (lit "[")) with 1. change (lenZ (lit "]")) with 1. lia.
Qed.
End Shown.

(** ** Attributes *)

Notation dw := dweight.
Lemma dw_i8 x : is_i8 x -> dw (DInt x) <= 4.
Proof. intros H. red in H. pose proof (int_text_len x 3 ltac:(lia) ltac:(lia)). cbn [dweight]. destruct (x <? 0); lia. Qed.
Lemma dw_u8 x : is_u8 x -> dw (DInt x) <= 4.
Proof. intros H. red in H. pose proof (int_text_len x 3 ltac:(lia) ltac:(lia)). cbn [dweight]. destruct (x <? 0); lia. Qed.
Lemma dw_u16 x : is_u16 x -> dw (DInt x) <= 6.
Proof. intros H. red in H. pose proof (int_text_len x 5 ltac:(lia) ltac:(lia)). cbn [dweight]. destruct (x <? 0); lia. Qed.
Lemma dw_u32 x : is_u32 x -> dw (DInt x) <= 11.
Proof. intros H. red in H. pose proof (int_text_len x 10 ltac:(lia) ltac:(lia)). cbn [dweight]. destruct (x <? 0); lia. Qed.
Lemma dw_i32 x : is_i32 x -> dw (DInt x) <= 11.
Proof. intros H. red in H. pose proof (int_text_len x 10 ltac:(lia) ltac:(lia)). cbn [dweight]. destruct (x <? 0); lia. Qed.
Lemma dw_i64 x : is_i64 x -> dw (DInt x) <= 21.
Proof. intros H. red in H. pose proof (int_text_len x 20 ltac:(lia) ltac:(lia)). cbn [dweight]. destruct (x <? 0); lia. Qed.
Lemma dw_u64 x : is_u64 x -> dw (DInt x) <= 21.
Proof. intros H. red in H. pose proof (int_text_len x 20 ltac:(lia) ltac:(lia)). cbn [dweight]. destruct (x <? 0); lia. Qed.
Lemma dw_f32 x : dw (DF32 x) <= 73.
Proof. reflexivity. Qed.
Lemma dw_bool b : dw (DBool b) <= 5.
Proof. reflexivity. Qed.
Lemma dw_str s : dw (DStr s) <= 2 + 10 * text_size s.
Proof. reflexivity. Qed.
Lemma dw_name n : dw (DName n) <= lenZ n.
Proof. reflexivity. Qed.
Lemma dw_id s x : is_i32 x -> dw (DTuple (lit s) [DInt x]) <= 15 + lenZ (lit s).
Proof. intros H. apply dw_i32 in H. cbn [dweight] in *. rewrite total_cons, total_nil. cbn [dweight]. lia. Qed.
Lemma dw_actor x : is_i32 x -> dw (dbg_actor_id x) <= 22.
Proof. apply dw_id. Qed.
Lemma dw_object x : is_i32 x -> dw (dbg_object_id x) <= 23.
Proof. apply dw_id. Qed.
Lemma dw_bytes l : dw (dbg_bytes l) <= 2 + 6 * bytes_size l.
Proof.
  unfold dbg_bytes, bytes_size. cbn [dweight]. rewrite total_map.
  assert (total (fun b => 2 + dw (DInt (byteZ b))) l <= 6 * len l); [|lia].
  induction l as [|b l IH]; [reflexivity|]. rewrite total_cons. cbn [length].
  assert (dw (DInt (byteZ b)) <= 4); [|lia]. apply dw_u8. apply byteZ_range.
Qed.
Lemma dw_opt {A} (f : A -> dbg) P c o : all_opt P o -> (forall x, P x -> dw (f x) <= c) -> dw (dbg_opt f o) <= Z.max 0 c + 8.
Proof. intros H K. destruct o as [x|]; cbn [dbg_opt all_opt] in *; [specialize (K x H); cbn [dweight]; rewrite total_cons, total_nil; change (lenZ (lit "Some")) with 4; lia|cbn [dweight]; change (lenZ (lit "None")) with 4; lia]. Qed.
Lemma dw_opt' {A} (f : A -> dbg) c o : (forall x, dw (f x) <= c) -> dw (dbg_opt f o) <= Z.max 0 c + 8.
Proof. intros K. apply (dw_opt f (fun _ => True)); [destruct o; exact I|auto]. Qed.
Lemma dw_vec {A} (f : A -> dbg) P c l : all_vec P l -> (forall x, P x -> 2 + dw (f x) <= c x) -> dw (dbg_vec f l) <= 2 + total c l.
Proof.
  intros H K. unfold dbg_vec. cbn [dweight]. rewrite total_map.
  assert (total (fun x => 2 + dw (f x)) l <= total c l); [|lia].
  induction H as [|x l Hx _ IH]; [reflexivity|]. rewrite !total_cons. specialize (K x Hx). lia.
Qed.

#[global] Hint Resolve dw_i8 dw_u8 dw_u16 dw_u32 dw_i32 dw_i64 dw_u64 dw_f32 dw_bool dw_str dw_name dw_actor dw_object dw_bytes : dws.
#[global] Hint Resolve dw_opt | 2 : dws.
#[global] Hint Resolve dw_opt' | 1 : dws.

Ltac names :=
  repeat match goal with
  | |- context [lenZ (lit ?s)] => let v := eval vm_compute in (lenZ (lit s)) in change (lenZ (lit s)) with v
  end.
Ltac weigh_dbg :=
  repeat match goal with
  | |- context [dweight (DName ?n)] => change (dweight (DName n)) with (lenZ n)
  | |- context [dweight (DTuple ?n ?l)] => change (dweight (DTuple n l)) with (2 + lenZ n + total (fun x => 2 + dweight x) l)
  | |- context [dweight (DStruct ?n ?l)] => change (dweight (DStruct n l)) with (5 + lenZ n + total (fun kv => 4 + lenZ (fst kv) + dweight (snd kv)) l)
  | |- context [dweight (DList (?a :: ?l))] => change (dweight (DList (a :: l))) with (2 + total (fun x => 2 + dweight x) (a :: l))
  | |- _ => rewrite ?total_cons, ?total_nil; progress cbn [fst snd]
  | |- _ => progress (rewrite ?total_cons, ?total_nil)
  end;
  names;
  repeat match goal with
  | |- context [dweight ?t] =>
      let H := fresh "W" in eassert (H : dweight t <= _) by (solve [eauto with dws]); revert H; generalize (dweight t); intros ? H
  end.
Ltac weigh :=
  let v := fresh "v" in intros v; destruct v;
  try match goal with |- ?T -> _ => let H := fresh "H" in intros H; red in H;
      repeat match goal with H : _ /\ _ |- _ => destruct H end end;
  match goal with |- dweight (?f _) <= _ => unfold f end;
  weigh_dbg; try lia.

Lemma dw_vector3f : forall v, dw (dbg_vector3f v) <= 260.
Proof. weigh. Qed.
Lemma dw_vector3i : forall v, typed_vector3i v -> dw (dbg_vector3i v) <= 100.
Proof. weigh. Qed.
Lemma dw_quaternion : forall v, dw (dbg_quaternion v) <= 340.
Proof. weigh. Qed.
Lemma dw_rotation : forall v, typed_rotation v -> dw (dbg_rotation v) <= 100.
Proof. weigh. Qed.
#[global] Hint Resolve dw_vector3f dw_vector3i dw_quaternion dw_rotation : dws.
Lemma dw_active_actor : forall v, typed_active_actor v -> dw (dbg_active_actor v) <= 100.
Proof. weigh. Qed.
#[global] Hint Resolve dw_active_actor : dws.
Lemma dw_cam_settings : forall v, dw (dbg_cam_settings v) <= 700.
Proof. weigh. Qed.
Lemma dw_club_colors : forall v, typed_club_colors v -> dw (dbg_club_colors v) <= 150.
Proof. weigh. Qed.
Lemma dw_applied_damage : forall v, typed_applied_damage v -> dw (dbg_applied_damage v) <= 400.
Proof. weigh. Qed.
Lemma dw_damage_state : forall v, typed_damage_state v -> dw (dbg_damage_state v) <= 450.
Proof. weigh. Qed.
Lemma dw_demolish : forall v, typed_demolish v -> dw (dbg_demolish v) <= 750.
Proof. weigh. Qed.
Lemma dw_demolish_extended : forall v, typed_demolish_extended v -> dw (dbg_demolish_extended v) <= 1300.
Proof. weigh. Qed.
Lemma dw_demolish_fx : forall v, typed_demolish_fx v -> dw (dbg_demolish_fx v) <= 850.
Proof. weigh. Qed.
Lemma dw_explosion : forall v, typed_explosion v -> dw (dbg_explosion v) <= 350.
Proof. weigh. Qed.
#[global] Hint Resolve dw_cam_settings dw_club_colors dw_applied_damage dw_damage_state dw_demolish dw_demolish_extended dw_demolish_fx
  dw_explosion : dws.
Lemma dw_extended_explosion : forall v, typed_extended_explosion v -> dw (dbg_extended_explosion v) <= 450.
Proof. weigh. Qed.
Lemma dw_loadout : forall v, typed_loadout v -> dw (dbg_loadout v) <= 500.
Proof. weigh. Qed.
#[global] Hint Resolve dw_extended_explosion dw_loadout : dws.
Lemma dw_team_loadout : forall v, typed_team_loadout v -> dw (dbg_team_loadout v) <= 1100.
Proof. weigh. Qed.
Lemma dw_stat_event : forall v, typed_stat_event v -> dw (dbg_stat_event v) <= 100.
Proof. weigh. Qed.
Lemma dw_music_stinger : forall v, typed_music_stinger v -> dw (dbg_music_stinger v) <= 100.
Proof. weigh. Qed.
Lemma dw_pickup : forall v, typed_pickup v -> dw (dbg_pickup v) <= 100.
Proof. weigh. Qed.
Lemma dw_pickup_new : forall v, typed_pickup_new v -> dw (dbg_pickup_new v) <= 100.
Proof. weigh. Qed.
Lemma dw_welded : forall v, typed_welded v -> dw (dbg_welded v) <= 600.
Proof. weigh. Qed.
Lemma dw_team_paint : forall v, typed_team_paint v -> dw (dbg_team_paint v) <= 200.
Proof. weigh. Qed.
Lemma dw_rigid_body : forall v, dw (dbg_rigid_body v) <= 1300.
Proof. weigh. Qed.
#[global] Hint Resolve dw_team_loadout dw_stat_event dw_music_stinger dw_pickup dw_pickup_new dw_welded dw_team_paint dw_rigid_body : dws.
Lemma dw_remote_id : forall v, typed_remote_id v -> dw (dbg_remote_id v) <= 200 + 10 * remote_size v.
Proof. weigh; cbn [remote_size]; unfold text_size, bytes_size in *; lia. Qed.
#[global] Hint Resolve dw_remote_id : dws.
Lemma dw_unique_id : forall v, typed_unique_id v -> dw (dbg_unique_id v) <= 300 + 10 * unique_size v.
Proof. weigh; unfold unique_size; cbn [NetTypes.ui_remote_id]; lia. Qed.
#[global] Hint Resolve dw_unique_id : dws.
Lemma dw_opt_str o : dw (dbg_opt DStr o) <= 10 + 10 * maybe text_size o.
Proof.
  destruct o as [s|]; cbn [dbg_opt maybe]; [pose proof (dw_str s)|]; cbn [dweight] in *; rewrite ?total_cons, ?total_nil; cbn [dweight];
    names; lia.
Qed.
Lemma dw_opt_unique o : all_opt typed_unique_id o -> dw (dbg_opt dbg_unique_id o) <= 320 + 10 * maybe unique_size o.
Proof.
  intros H. destruct o as [s|]; cbn [dbg_opt maybe]; [pose proof (dw_unique_id s H)|]; cbn [dweight] in *; rewrite ?total_cons, ?total_nil;
    names; lia.
Qed.
#[global] Hint Resolve dw_opt_str dw_opt_unique | 0 : dws.
Lemma dw_reservation : forall v, typed_reservation v ->
  dw (dbg_reservation v) <= 500 + 10 * (unique_size (rv_unique_id v) + maybe text_size (rv_name v)).
Proof. weigh; cbn [NetTypes.rv_unique_id NetTypes.rv_name]; lia. Qed.
Lemma dw_private_match : forall v, typed_private_match v ->
  dw (dbg_private_match v) <= 200 + 10 * (text_size (pm_mutators v) + text_size (pm_game_name v) + text_size (pm_password v)).
Proof. weigh; cbn [NetTypes.pm_mutators NetTypes.pm_game_name NetTypes.pm_password]; lia. Qed.
Lemma dw_product_value : forall v, typed_product_value v ->
  dw (dbg_product_value v) <= 30 + 10 * match v with PVTitle s => text_size s | _ => 0 end.
Proof. weigh. Qed.
#[global] Hint Resolve dw_reservation dw_private_match dw_product_value : dws.
Lemma dw_product : forall v, typed_product v -> 2 + dw (dbg_product v) <= 64 * product_bits v.
Proof.
  intros v H. assert (dw (dbg_product v) <= 120 + 10 * match pr_value v with PVTitle s => text_size s | _ => 0 end).
  { revert v H. weigh; cbn [NetTypes.pr_value]; unfold text_size in *; lia. }
  unfold product_bits, product_size, text_size in *. destruct (pr_value v); lia.
Qed.
Lemma dtotal_scale {A} (f : A -> Z) c l : total (fun x => c * f x) l = c * total f l.
Proof. induction l as [|x l IH]; [cbn; lia|]. rewrite !total_cons, IH. lia. Qed.
Lemma dw_online l : all_vec (all_vec typed_product) l -> dw (dbg_vec (dbg_vec dbg_product) l) <= 2 + 64 * online_bits l.
Proof.
  intros H. unfold online_bits. rewrite <- dtotal_scale. refine (dw_vec _ _ _ _ H _). clear l H. intros l H.
  pose proof (dw_vec _ _ _ _ H dw_product) as Q. rewrite dtotal_scale in Q. lia.
Qed.
#[global] Hint Resolve dw_online : dws.
Lemma dw_loadouts_online : forall v, typed_loadouts_online v ->
  dw (dbg_loadouts_online v) <= 100 + 64 * (online_bits (lso_blue v) + online_bits (lso_orange v)).
Proof. weigh; cbn [NetTypes.lso_blue NetTypes.lso_orange]; lia. Qed.
Lemma dw_rep_stat_title : forall v, typed_rep_stat_title v -> dw (dbg_rep_stat_title v) <= 150 + 10 * text_size (rs_name v).
Proof. weigh; cbn [NetTypes.rs_name]; lia. Qed.
Lemma dw_pickup_info : forall v, typed_pickup_info v -> dw (dbg_pickup_info v) <= 400.
Proof. weigh. Qed.
Lemma dw_impulse : forall v, typed_impulse v -> dw (dbg_impulse v) <= 150.
Proof. weigh. Qed.
Lemma dw_replicated_boost : forall v, typed_replicated_boost v -> dw (dbg_replicated_boost v) <= 150.
Proof. weigh. Qed.
Lemma dw_logo_data : forall v, typed_logo_data v -> dw (dbg_logo_data v) <= 100.
Proof. weigh. Qed.
#[global] Hint Resolve dw_loadouts_online dw_rep_stat_title dw_pickup_info dw_impulse dw_replicated_boost dw_logo_data : dws.

Lemma usize_nonneg u : 0 <= unique_size u.
Proof. unfold unique_size, remote_size, text_size, bytes_size. destruct (ui_remote_id u); lia. Qed.
Lemma maybe_pos {A} (f : A -> Z) o : (forall x, 0 <= f x) -> 0 <= maybe f o.
Proof. intros H. destruct o as [x|]; [apply H|reflexivity]. Qed.
Lemma dw_attribute v : typed_attribute v -> dw (dbg_attribute v) <= 1300 + 64 * attribute_bits v.
Proof.
  intros H. destruct v; cbn [typed_attribute] in H; repeat match goal with H : _ /\ _ |- _ => destruct H end;
    cbn [dbg_attribute attribute_bits attribute_size]; weigh_dbg;
    repeat match goal with
    | |- context [unique_size ?u] => first [match goal with K : 0 <= unique_size u |- _ => fail 2 end|pose proof (usize_nonneg u)]
    | |- context [maybe text_size ?u] => first [match goal with K : 0 <= maybe text_size u |- _ => fail 2 end|pose proof (maybe_pos text_size u text_nonneg)]
    | |- context [maybe unique_size ?u] =>
        first [match goal with K : 0 <= maybe unique_size u |- _ => fail 2 end|pose proof (maybe_pos unique_size u usize_nonneg)]
    | |- context [text_size ?u] => first [match goal with K : 0 <= text_size u |- _ => fail 2 end|pose proof (text_nonneg u)]
    end; lia.
Qed.

Lemma attribute_text_len shown v : typed_attribute v -> lenZ (debug_text shown (dbg_attribute v)) <= 1300 + 64 * attribute_bits v.
Proof. intros H. etransitivity; [apply debug_len|apply dw_attribute, H]. Qed.
