(** * Proofs: the binary32 numbers of a replay have 32 bits *)

From Coq Require Import ZArith List Bool Lia Floats.SpecFloat.
From Verif Require Import Base F32 NetTypes Errors Header Body BitReader Attributes ObjectIndex Parser Wire SpecBasic SpecNet SpecFrames
  SpecRange SpecWrite SpecFile SpecReplay SpecFacts SpecJson SpecRound RoundProofs ArithProofs QuatProofs FileFacts SendProofs
  TypedProofs Json JsonNet JsonReplay JsonLogic.
Open Scope Z_scope.

Lemma bits_hundredths n : Z.abs n <= 2 ^ 22 -> is_u32 (hundredths n).
Proof.
  intros H. unfold hundredths, is_u32. change (binary_normalize 24 128 100 0 false) with (S754_finite false 13107200 (-17)).
  assert (G : forall s m, Zpos m <= 2 ^ 22 -> 0 <= bits_of_sf (SFdiv 24 128 (binary_round 24 128 s m 0) (S754_finite false 13107200 (-17))) < 2 ^ 32).
  { intros s m Hm. change (2 ^ 22) with 4194304 in Hm. destruct (round_small s m) as (m' & k & Hk & Hm' & D & ->); [change (2 ^ 24) with 16777216; lia|].
    destruct (div_fin s m' (- k) false 13107200 (-17) 24) as [(v & F) _]; [|lia|lia|exact (fin_range _ _ F)].
    rewrite D. change (Zdigits2 13107200) with 24. lia. }
  destruct n as [|m|m]; cbn [binary_normalize]; [vm_compute; split; congruence|apply G; lia|apply G; lia].
Qed.
Lemma bits_new d : 0 <= d < 2 ^ 18 -> is_u32 (bits_of_sf (new_part d)).
Proof. intros H. destruct (new_part_value d H) as (v & F & _). exact (fin_range _ _ F). Qed.
Lemma bits_old d : 0 <= d < 2 ^ 16 -> is_u32 (bits_of_sf (old_part d)).
Proof. intros H. destruct (old_part_value d H) as (v & F & _). exact (fin_range _ _ F). Qed.
Lemma bits_largest a b c : 0 <= a < 2 ^ 18 -> 0 <= b < 2 ^ 18 -> 0 <= c < 2 ^ 18 ->
  is_u32 (bits_of_sf (largest_part (new_part a) (new_part b) (new_part c))).
Proof.
  intros Ha Hb Hc. destruct (new_part_value a Ha) as (x & Fx & Bx & _). destruct (new_part_value b Hb) as (y & Fy & By & _).
  destruct (new_part_value c Hc) as (z & Fz & Bz & _).
  destruct (rest_value _ _ _ _ _ _ Fx Fy Fz Bx By Bz) as (v & Fv & V1 & V2). unfold largest_part, ssqrt.
  set (f := sf_fma _ _ _) in *. clearbody f.
  destruct (Z.lt_ge_cases v 0) as [L|L].
  - rewrite (sqrt_neg f v Fv L). vm_compute. split; congruence.
  - destruct (sqrt_error f v Fv ltac:(lia)) as (w & Fw & _). exact (fin_range _ _ Fw).
Qed.

#[local] Opaque hundredths old_part new_part largest_part.

Lemma bits_vec3f net v : vec3f_range net v -> Forall is_u32 (floats_vector3f v).
Proof.
  intros (x & y & z & (Hx & Hy & Hz) & ->). cbn [v3i_x v3i_y v3i_z floats_vector3f one_float app] in *.
  assert (G : forall c, component_range net c -> is_u32 (hundredths c)).
  { intros c Hc. apply bits_hundredths. unfold component_range, signed in Hc. change (2 ^ 22) with 4194304.
    destruct (net <? 7); [change (2 ^ (21 - 1)) with 1048576 in Hc|change (2 ^ (23 - 1)) with 4194304 in Hc]; lia. }
  repeat (apply Forall_cons; [apply G; assumption|]). constructor.
Qed.
Lemma bits_quat net q : quat_range net q -> Forall is_u32 (floats_quaternion q).
Proof.
  unfold quat_range. destruct (net <? 7).
  - intros (x & y & z & Hx & Hy & Hz & ->). cbn [floats_quaternion one_float app]. pose proof bits_old as G.
    repeat (apply Forall_cons; [first [apply G; assumption | split; reflexivity || discriminate]|]). constructor.
  - intros (a & b & c & Ha & Hb & Hc & H). cbv zeta in H. pose proof bits_new as G.
    pose proof (bits_largest a b c Ha Hb Hc) as W.
    destruct H as [->|[->|[->| ->]]]; cbn [floats_quaternion one_float app];
      repeat (apply Forall_cons; [first [exact W | apply G; assumption]|]); constructor.
Qed.

Ltac split_floats := repeat match goal with
  | |- Forall _ (_ ++ _) => apply Forall_app; split
  | |- Forall _ (one_float _) => unfold one_float
  | |- Forall _ [_] => constructor; [|constructor]
  | |- Forall _ [] => constructor
  | |- Forall _ (opt_floats _ ?o) => destruct o; cbn [opt_floats if_any present] in *
  end.

Lemma bits_explosion net x : explosion_range net x -> Forall is_u32 (floats_explosion x).
Proof. destruct x. intros [_ H]. eapply bits_vec3f; exact H. Qed.

Lemma bits_attribute D tag a : attribute_range D tag a -> Forall is_u32 (floats_attribute a).
Proof.
  intros H. destruct tag, a; cbn [attribute_range] in H; try contradiction; cbn [floats_attribute]; try constructor; try assumption;
    try (eapply bits_vec3f; eassumption); try (eapply bits_explosion; eassumption);
    destruct x as [];
    cbn [floats_applied_damage floats_damage_state floats_cam_settings floats_demolish floats_demolish_extended floats_demolish_fx
      floats_explosion floats_extended_explosion floats_welded floats_rigid_body floats_impulse] in *; cbn in H;
    repeat match goal with H : _ /\ _ |- _ => destruct H end;
    try match goal with H : if ?b then _ /\ _ else _ |- _ => destruct b; destruct H; subst; cbn [opt_floats] end;
    split_floats; try assumption; try (eapply bits_vec3f; eassumption); try (eapply bits_explosion; eassumption);
    try (eapply bits_quat; eassumption).
  apply H5.
Qed.

(** ** Frames *)

Lemma bits_records e : forall rs h, records_range e h rs ->
  Forall is_u32 (flat_map (fun r => match r with RUpdate _ us => vec_floats floats_updated_attribute us | _ => [] end) rs).
Proof.
  induction rs as [|r rs IH]; intros h H; [constructor|]. destruct H as [H1 H2]. cbn [flat_map]. apply Forall_app. split; [|eapply IH; exact H2].
  destruct r as [a|id|id us]; try constructor. destruct H1 as (_ & obj & cls & _ & _ & F). unfold vec_floats. clear H2.
  induction F as [|u us Hu F IHu]; [constructor|]. cbn [flat_map]. apply Forall_app. split; [|exact IHu].
  destruct u. destruct Hu as (_ & bound & p & name & tag & _ & _ & _ & _ & _ & _ & Ha). eapply bits_attribute; exact Ha.
Qed.
Lemma flat_map_flat {A C} (f : A -> list C) {E} (g : E -> list A) l : flat_map f (flat_map g l) = flat_map (fun x => flat_map f (g x)) l.
Proof. induction l as [|x l IH]; auto. cbn [flat_map]. now rewrite flat_map_app, IH. Qed.
Lemma bits_frames e : forall fs h, frames_range e h fs -> Forall is_u32 (flat_map floats_frame (map to_frame fs)).
Proof.
  induction fs as [|[[t d] rs] fs IH]; intros h H; [constructor|]. destruct H as (Ht & Hd & _ & _ & _ & Hr & Hf).
  cbn [map flat_map]. apply Forall_app. split; [|eapply IH; exact Hf].
  cbn [to_frame frame_of floats_frame one_float app]. constructor; [exact Ht|]. constructor; [exact Hd|].
  unfold vec_floats. rewrite flat_map_flat. apply bits_records in Hr. unfold vec_floats in Hr.
  replace (flat_map _ rs) with (flat_map (fun r => match r with RUpdate _ us => flat_map floats_updated_attribute us | _ => [] end) rs); [exact Hr|].
  apply flat_map_ext. intros [a|id|id us]; reflexivity.
Qed.

(** ** JSON values whose numbers can be written *)

Inductive writable : json -> Prop :=
| wr_null : writable JNull
| wr_bool b : writable (JBool b)
| wr_int x : writable (JInt x)
| wr_f32 x : is_u32 x -> finite x -> writable (JF32 x)
| wr_str s : writable (JStr s)
| wr_arr l : Forall writable l -> writable (JArr l)
| wr_obj l : Forall (fun kv => writable (snd kv)) l -> writable (JObj l).

Lemma wr_float x : is_u32 x -> writable (ser_f32 x).
Proof.
  intros H. unfold ser_f32. destruct (f32_is_finite x) eqn:F; constructor; auto. now apply finite_iff.
Qed.
Lemma wr_opt {A} (f : A -> json) o : (forall x, o = Some x -> writable (f x)) -> writable (ser_opt f o).
Proof. intros H. destruct o as [x|]; cbn [ser_opt]; [now apply H|constructor]. Qed.
Lemma wr_vec {A} (f : A -> json) l : (forall x, In x l -> writable (f x)) -> writable (ser_vec f l).
Proof.
  intros H. unfold ser_vec. constructor. apply Forall_map, Forall_forall. exact H.
Qed.
Lemma wr_bytes l : writable (ser_bytes l).
Proof. constructor. apply Forall_map, Forall_forall. constructor. Qed.

Create HintDb wr.
#[local] Hint Resolve wr_bytes : wr.
#[local] Hint Extern 1 (writable (ser_i32 _)) => exact (wr_int _) : wr.
#[local] Hint Extern 1 (writable (ser_u32 _)) => exact (wr_int _) : wr.
#[local] Hint Extern 1 (writable (ser_u16 _)) => exact (wr_int _) : wr.
#[local] Hint Extern 1 (writable (ser_u8 _)) => exact (wr_int _) : wr.
#[local] Hint Extern 1 (writable (ser_i8 _)) => exact (wr_int _) : wr.
#[local] Hint Extern 1 (writable (ser_bool _)) => exact (wr_bool _) : wr.
#[local] Hint Extern 1 (writable (ser_str _)) => exact (wr_str _) : wr.
#[local] Hint Extern 1 (writable (ser_u64s _)) => exact (wr_str _) : wr.
#[local] Hint Extern 1 (writable (ser_i64s _)) => exact (wr_str _) : wr.
#[local] Hint Extern 1 (writable (JStr _)) => exact (wr_str _) : wr.
#[local] Hint Extern 1 (writable (JInt _)) => exact (wr_int _) : wr.
#[local] Hint Extern 1 (writable JNull) => exact wr_null : wr.

Ltac wr := cbv beta; repeat match goal with
  | H : Forall _ (_ ++ _) |- _ => apply Forall_app in H; destruct H
  | H : Forall _ (one_float _) |- _ => unfold one_float in H
  | H : Forall _ [_] |- _ => apply Forall_inv in H
  | |- writable (JObj _) => apply wr_obj
  | |- writable (JArr (_ :: _)) => apply wr_arr
  | |- Forall _ (_ :: _) => apply Forall_cons; cbn [snd]
  | |- Forall _ [] => constructor
  | |- writable (ser_opt _ (Some _)) => cbn [ser_opt]
  | |- writable (ser_opt _ None) => constructor
  | |- writable (ser_opt _ _) => apply wr_opt; intros ? ?; subst; cbn [opt_floats] in *
  | |- writable (ser_vec _ _) => apply wr_vec; intros ? ?
  | |- writable (ser_f32 _) => apply wr_float; try assumption
  | |- writable _ => solve [auto with wr]
  end.

Lemma wr_vector3f v : Forall is_u32 (floats_vector3f v) -> writable (ser_vector3f v).
Proof. destruct v. cbn [ser_vector3f floats_vector3f]. intros H. wr. Qed.
Lemma wr_quaternion v : Forall is_u32 (floats_quaternion v) -> writable (ser_quaternion v).
Proof. destruct v. cbn [ser_quaternion floats_quaternion]. intros H. wr. Qed.
#[local] Hint Resolve wr_vector3f wr_quaternion : wr.
Lemma wr_vector3i v : writable (ser_vector3i v).
Proof. destruct v; cbn [ser_vector3i]; wr. Qed.
#[local] Hint Resolve wr_vector3i : wr.
Lemma wr_rotation v : writable (ser_rotation v).
Proof. destruct v; cbn [ser_rotation]; wr. Qed.
#[local] Hint Resolve wr_rotation : wr.
Lemma wr_trajectory v : writable (ser_trajectory v).
Proof. destruct v; cbn [ser_trajectory]; wr. Qed.
#[local] Hint Resolve wr_trajectory : wr.
Lemma wr_new_actor v : writable (ser_new_actor v).
Proof. destruct v; cbn [ser_new_actor]; wr. Qed.
#[local] Hint Resolve wr_new_actor : wr.
Lemma wr_active_actor v : writable (ser_active_actor v).
Proof. destruct v; cbn [ser_active_actor]; wr. Qed.
#[local] Hint Resolve wr_active_actor : wr.
Lemma wr_cam_settings v : Forall is_u32 (floats_cam_settings v) -> writable (ser_cam_settings v).
Proof. destruct v. cbn [ser_cam_settings floats_cam_settings]. intros H. wr. Qed.
#[local] Hint Resolve wr_cam_settings : wr.
Lemma wr_club_colors v : writable (ser_club_colors v).
Proof. destruct v; cbn [ser_club_colors]; wr. Qed.
#[local] Hint Resolve wr_club_colors : wr.
Lemma wr_applied_damage v : Forall is_u32 (floats_applied_damage v) -> writable (ser_applied_damage v).
Proof. destruct v. cbn [ser_applied_damage floats_applied_damage]. intros H. wr. Qed.
#[local] Hint Resolve wr_applied_damage : wr.
Lemma wr_damage_state v : Forall is_u32 (floats_damage_state v) -> writable (ser_damage_state v).
Proof. destruct v. cbn [ser_damage_state floats_damage_state]. intros H. wr. Qed.
#[local] Hint Resolve wr_damage_state : wr.
Lemma wr_demolish v : Forall is_u32 (floats_demolish v) -> writable (ser_demolish v).
Proof. destruct v. cbn [ser_demolish floats_demolish]. intros H. wr. Qed.
#[local] Hint Resolve wr_demolish : wr.
Lemma wr_demolish_extended v : Forall is_u32 (floats_demolish_extended v) -> writable (ser_demolish_extended v).
Proof. destruct v. cbn [ser_demolish_extended floats_demolish_extended]. intros H. wr. Qed.
#[local] Hint Resolve wr_demolish_extended : wr.
Lemma wr_demolish_fx v : Forall is_u32 (floats_demolish_fx v) -> writable (ser_demolish_fx v).
Proof. destruct v. cbn [ser_demolish_fx floats_demolish_fx]. intros H. wr. Qed.
#[local] Hint Resolve wr_demolish_fx : wr.
Lemma wr_explosion v : Forall is_u32 (floats_explosion v) -> writable (ser_explosion v).
Proof. destruct v. cbn [ser_explosion floats_explosion]. intros H. wr. Qed.
#[local] Hint Resolve wr_explosion : wr.
Lemma wr_extended_explosion v : Forall is_u32 (floats_extended_explosion v) -> writable (ser_extended_explosion v).
Proof. destruct v. cbn [ser_extended_explosion floats_extended_explosion]. intros H. wr. Qed.
#[local] Hint Resolve wr_extended_explosion : wr.
Lemma wr_loadout v : writable (ser_loadout v).
Proof. destruct v; cbn [ser_loadout]; wr. Qed.
#[local] Hint Resolve wr_loadout : wr.
Lemma wr_team_loadout v : writable (ser_team_loadout v).
Proof. destruct v; cbn [ser_team_loadout]; wr. Qed.
#[local] Hint Resolve wr_team_loadout : wr.
Lemma wr_stat_event v : writable (ser_stat_event v).
Proof. destruct v; cbn [ser_stat_event]; wr. Qed.
#[local] Hint Resolve wr_stat_event : wr.
Lemma wr_music_stinger v : writable (ser_music_stinger v).
Proof. destruct v; cbn [ser_music_stinger]; wr. Qed.
#[local] Hint Resolve wr_music_stinger : wr.
Lemma wr_pickup v : writable (ser_pickup v).
Proof. destruct v; cbn [ser_pickup]; wr. Qed.
#[local] Hint Resolve wr_pickup : wr.
Lemma wr_pickup_new v : writable (ser_pickup_new v).
Proof. destruct v; cbn [ser_pickup_new]; wr. Qed.
#[local] Hint Resolve wr_pickup_new : wr.
Lemma wr_welded v : Forall is_u32 (floats_welded v) -> writable (ser_welded v).
Proof. destruct v. cbn [ser_welded floats_welded]. intros H. wr. Qed.
#[local] Hint Resolve wr_welded : wr.
Lemma wr_team_paint v : writable (ser_team_paint v).
Proof. destruct v; cbn [ser_team_paint]; wr. Qed.
#[local] Hint Resolve wr_team_paint : wr.
Lemma wr_rigid_body v : Forall is_u32 (floats_rigid_body v) -> writable (ser_rigid_body v).
Proof. destruct v. cbn [ser_rigid_body floats_rigid_body]. intros H. wr. Qed.
#[local] Hint Resolve wr_rigid_body : wr.
Lemma wr_remote_id v : writable (ser_remote_id v).
Proof. destruct v; cbn [ser_remote_id]; wr. Qed.
#[local] Hint Resolve wr_remote_id : wr.
Lemma wr_unique_id v : writable (ser_unique_id v).
Proof. destruct v; cbn [ser_unique_id]; wr. Qed.
#[local] Hint Resolve wr_unique_id : wr.
Lemma wr_reservation v : writable (ser_reservation v).
Proof. destruct v; cbn [ser_reservation]; wr. Qed.
#[local] Hint Resolve wr_reservation : wr.
Lemma wr_private_match v : writable (ser_private_match v).
Proof. destruct v; cbn [ser_private_match]; wr. Qed.
#[local] Hint Resolve wr_private_match : wr.
Lemma wr_product_value v : writable (ser_product_value v).
Proof. destruct v; cbn [ser_product_value]; wr. Qed.
#[local] Hint Resolve wr_product_value : wr.
Lemma wr_product v : writable (ser_product v).
Proof. destruct v; cbn [ser_product]; wr. Qed.
#[local] Hint Resolve wr_product : wr.
Lemma wr_loadouts_online v : writable (ser_loadouts_online v).
Proof. destruct v; cbn [ser_loadouts_online]; wr. Qed.
#[local] Hint Resolve wr_loadouts_online : wr.
Lemma wr_rep_stat_title v : writable (ser_rep_stat_title v).
Proof. destruct v; cbn [ser_rep_stat_title]; wr. Qed.
#[local] Hint Resolve wr_rep_stat_title : wr.
Lemma wr_pickup_info v : writable (ser_pickup_info v).
Proof. destruct v; cbn [ser_pickup_info]; wr. Qed.
#[local] Hint Resolve wr_pickup_info : wr.
Lemma wr_impulse v : Forall is_u32 (floats_impulse v) -> writable (ser_impulse v).
Proof. destruct v. cbn [ser_impulse floats_impulse]. intros H. wr. Qed.
#[local] Hint Resolve wr_impulse : wr.
Lemma wr_replicated_boost v : writable (ser_replicated_boost v).
Proof. destruct v; cbn [ser_replicated_boost]; wr. Qed.
#[local] Hint Resolve wr_replicated_boost : wr.
Lemma wr_logo_data v : writable (ser_logo_data v).
Proof. destruct v; cbn [ser_logo_data]; wr. Qed.
#[local] Hint Resolve wr_logo_data : wr.
Lemma wr_attribute v : Forall is_u32 (floats_attribute v) -> writable (ser_attribute v).
Proof. destruct v; cbn [ser_attribute floats_attribute]; intros H; wr. Qed.
#[local] Hint Resolve wr_attribute : wr.
Lemma wr_updated_attribute v : Forall is_u32 (floats_updated_attribute v) -> writable (ser_updated_attribute v).
Proof. destruct v. cbn [ser_updated_attribute floats_updated_attribute]. intros H. wr. Qed.
Lemma wr_frame v : Forall is_u32 (floats_frame v) -> writable (ser_frame v).
Proof.
  destruct v as [t d ns ds us]. cbn [ser_frame floats_frame]. intros H. wr.
  apply wr_updated_attribute. unfold vec_floats in *. rewrite Forall_flat_map, Forall_forall in H1. auto.
Qed.

(** ** The other parts *)

Lemma wr_props q i ps o : f_props q i ps o -> writable (ser_props ps).
Proof.
  intros H. unfold ser_props. constructor. apply Forall_map. revert i ps o H.
  assert (C : forall l, Forall (fun kv : str * header_prop => writable (ser_header_prop (snd kv))) l ->
    Forall (fun kv : str * header_prop => writable (snd (let (k, v) := kv in (k, ser_header_prop v)))) l).
  { intros l. apply Forall_impl. intros [k v]. auto. }
  intros i ps o H. apply C. revert i ps o H.
  apply (f_props_m q
    (fun _ ps _ => Forall (fun kv => writable (ser_header_prop (snd kv))) ps)
    (fun _ _ v _ => writable (ser_header_prop v))
    (fun n _ rows _ => Forall (Forall (fun kv => writable (ser_header_prop (snd kv)))) rows)); cbn [ser_header_prop];
    try (intros; wr; fail); try (intros; constructor; fail).
  - intros. constructor; auto.
  - auto.
  - intros i n m rows o _ _ _ H. constructor. apply Forall_map. eapply Forall_impl; [|exact H].
    intros r Hr. constructor. apply Forall_map, C, Hr.
  - intros i x o (l & _ & R & _). apply wr_float. exact R.
  - intros. wr. apply Forall_map, C. assumption.
  - intros. now constructor.
Qed.

Lemma key_times i ks o : f_list f_keyframe i ks o -> Forall (fun k => is_u32 (kf_time k)) ks.
Proof.
  intros (n & m & _ & H). unfold f_counted in H. destruct (_ || _); [destruct H|]. revert m ks o H.
  induction (Z.to_nat n) as [|k IH]; intros m ks o H.
  - destruct H as [-> _]. constructor.
  - destruct H as (x & m1 & (t & m2 & (l & _ & R & _) & f & m3 & _ & p & m4 & _ & -> & _) & xs & m5 & Hs & -> & _).
    constructor; [exact R|]. eapply IH; exact Hs.
Qed.

Section Parse.
Context (B : bitter) (HB : bitter_ok B) (ho : hash_order) (Hho : hash_order_ok ho).

Theorem replay_writable c n data r : lenZ data < 2 ^ 31 -> parse_with B ho c n data = Ok r -> writable (ser_replay r).
Proof.
  intros L E.
  assert (W : forall fs, r_network_frames r = Some fs -> Forall is_u32 (flat_map floats_frame fs)).
  { intros fs Ef. destruct (frames_in_range B HB ho Hho _ _ _ _ _ L E Ef) as (h & b & rest & e & xs & _ & _ & -> & R). eapply bits_frames; exact R. }
  destruct (parse_ok_file _ _ _ _ _ _ L E) as (h & b & rest & F & Er).
  assert (P : writable (ser_props (r_properties r)) /\ Forall (fun k => is_u32 (kf_time k)) (r_keyframes r)).
  { rewrite Er. cbn [r_properties r_keyframes replay_of].
    destruct F as (h' & m & (hs & hc & hcov & hm & hv & _ & Hh & Eh) & b' & m' & (bs & bc & bcov & bm & bv & _ & Hb & Eb) & E' & _).
    injection E' as -> ->. subst h' b'. cbn [sec_value].
    destruct Hh as (maj & m1 & _ & min & m2 & _ & net & m3 & _ & gt & m4 & _ & ps & m5 & Hp & -> & _).
    destruct Hb as (lv & m6 & _ & ks & m7 & Hk & nd & m8 & _ & dbg & m9 & _ & tk & m10 & _ & pk & m11 & _ & ob & m12 & _ & nm & m13 & _ & cl & m14 & _ & ch & m15 & _ & -> & _).
    split; [eapply wr_props; exact Hp|eapply key_times; exact Hk]. }
  destruct P as [P K]. clear Er E F. unfold ser_replay. wr.
  - match goal with H : r_network_frames r = Some ?fs |- _ => pose proof (W fs H) as W' end.
    apply wr_frame. rewrite Forall_flat_map, Forall_forall in W'. auto.
  - unfold ser_key_frame. wr. rewrite Forall_forall in K. now apply K.
  - unfold ser_debug_info. wr.
  - unfold ser_tick_mark. wr.
  - unfold ser_class_index. wr.
  - unfold ser_class_net_cache. wr. unfold ser_cache_prop. wr.
Qed.
End Parse.
