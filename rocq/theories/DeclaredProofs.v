(** * Proofs: frames, for [Debug] and in JSON, are as declared *)

From Coq Require Import ZArith List String Lia.
From Verif Require Import Base F32 NetTypes Json JsonNet Debug DebugNet SpecBasic SpecFacts SpecDecimal SpecJson SpecDeclared JsonLogic MessageProofs.
Import ListNotations.
Open Scope Z_scope.

(** ** Parts *)

Fixpoint lookup (n : string) (l : list (string * declaration)) : option declaration :=
  match l with [] => None | (k, d) :: t => if String.eqb k n then Some d else lookup n t end.
Lemma lookup_in n d l : lookup n l = Some d -> In (n, d) l.
Proof.
  induction l as [|[k e] t IH]; cbn [lookup]; [discriminate|]. destruct (String.eqb_spec k n) as [->|]; [|right; auto].
  intros [= ->]. now left.
Qed.
Lemma is_declared n d : lookup n declared = Some d -> In (n, d) declared.
Proof. apply lookup_in. Qed.

Lemma d_u8 x : is_u8 x -> describes (Unsigned 8) (DInt x) (JInt x). Proof. constructor; [assumption|reflexivity]. Qed.
Lemma d_u16 x : is_u16 x -> describes (Unsigned 16) (DInt x) (JInt x). Proof. constructor; [assumption|reflexivity]. Qed.
Lemma d_u32 x : is_u32 x -> describes (Unsigned 32) (DInt x) (JInt x). Proof. constructor; [assumption|reflexivity]. Qed.
Lemma d_i8 x : is_i8 x -> describes (Signed 8) (DInt x) (JInt x). Proof. constructor; [assumption|reflexivity]. Qed.
Lemma d_i32 x : is_i32 x -> describes (Signed 32) (DInt x) (JInt x). Proof. constructor; [assumption|reflexivity]. Qed.
Lemma d_u64 x : is_u64 x -> describes (Unsigned 64) (DInt x) (ser_u64s x).
Proof. intros H. apply de_unsigned_text; [exact H|]. apply display_decimal, u64_small', H. Qed.
Lemma d_i64 x : is_i64 x -> describes (Signed 64) (DInt x) (ser_i64s x).
Proof.
  intros H. apply de_signed_text; [exact H|]. apply display_decimal. unfold is_i64 in H. change (2 ^ 63) with 9223372036854775808 in H.
  change (10 ^ 20) with 100000000000000000000. lia.
Qed.
Lemma d_f32 x : describes Float (DF32 x) (ser_f32 x).
Proof.
  unfold ser_f32. destruct (f32_is_finite x) eqn:E; constructor.
  - now apply finite_iff.
  - intros H. apply finite_iff in H. congruence.
Qed.
Lemma d_opt {A} t (f : A -> dbg) g (P : A -> Prop) o : (forall x, P x -> describes t (f x) (g x)) -> all_opt P o ->
  describes (Optional t) (dbg_opt f o) (ser_opt g o).
Proof. intros H Ho. destruct o as [x|]; cbn [dbg_opt ser_opt all_opt] in *; constructor. auto. Qed.
Lemma d_opt_any {A} t (f : A -> dbg) g o : (forall x, describes t (f x) (g x)) -> describes (Optional t) (dbg_opt f o) (ser_opt g o).
Proof. intros H. destruct o as [x|]; cbn [dbg_opt ser_opt] in *; constructor. auto. Qed.
Lemma d_vec {A} t (f : A -> dbg) g (P : A -> Prop) l : (forall x, P x -> describes t (f x) (g x)) -> all_vec P l ->
  describes (Many t) (dbg_vec f l) (ser_vec g l).
Proof. intros H Hl. constructor. induction Hl; cbn [map]; constructor; auto. Qed.
Lemma d_bytes l : describes (Many (Unsigned 8)) (dbg_bytes l) (ser_bytes l).
Proof.
  constructor. induction l as [|b l IH]; cbn [map]; constructor; auto. apply d_u8. unfold is_u8, byteZ.
  pose proof (Byte.to_N_bounded b). change (2 ^ 8) with 256. lia.
Qed.
Lemma d_actor x : is_i32 x -> describes (Named "ActorId") (dbg_actor_id x) (ser_i32 x).
Proof. intros H. eapply de_newtype; [apply is_declared; reflexivity|]. now apply d_i32. Qed.
Lemma d_object x : is_i32 x -> describes (Named "ObjectId") (dbg_object_id x) (ser_i32 x).
Proof. intros H. eapply de_newtype; [apply is_declared; reflexivity|]. now apply d_i32. Qed.
Lemma d_stream x : is_i32 x -> describes (Named "StreamId") (dbg_stream_id x) (ser_i32 x).
Proof. intros H. eapply de_newtype; [apply is_declared; reflexivity|]. now apply d_i32. Qed.

Create HintDb declared.
Global Hint Resolve d_u8 d_u16 d_u32 d_i8 d_i32 d_u64 d_i64 d_f32 d_bytes d_actor d_object d_stream de_bool de_text : declared.
Ltac conj := repeat match goal with H : _ /\ _ |- _ => destruct H end.
Ltac leaf := unfold ser_bool, ser_u8, ser_u16, ser_u32, ser_i8, ser_i32, ser_str; eauto with declared.
Ltac fill := repeat (first [apply df_cons | apply da_cons]; [now leaf|]); constructor.
Global Hint Extern 4 (describes (Optional _) (dbg_opt _ _) (ser_opt _ _)) => first
  [ eapply d_opt; [|eassumption]; [now leaf] | apply d_opt_any; now leaf ] : declared.
Global Hint Extern 4 (describes (Many _) (dbg_vec _ _) (ser_vec _ _)) => eapply d_vec; [|eassumption];
  first [ now leaf | let x := fresh in let H := fresh in intros x H; eapply d_vec; [|exact H]; now leaf ] : declared.
Global Hint Extern 4 (describes (Exactly _ _) (DList _) (JArr _)) => apply de_exactly; [reflexivity|]; repeat (constructor; [now leaf|]); constructor : declared.
Global Hint Extern 4 (describes (Named _) (DStruct _ _) (JObj _)) => eapply de_struct; [apply is_declared; reflexivity|]; fill : declared.

Ltac member := cbn [In]; repeat first [left; reflexivity | right].
Ltac split_value := intros; match goal with v : _ |- describes _ (_ ?v) _ => destruct v end;
  match goal with H : _ |- _ => red in H; conj | _ => idtac end.
Ltac d_struct := split_value; eapply de_struct; [apply is_declared; reflexivity|]; fill.
Ltac d_enum := split_value;
  first [ eapply de_unit; [apply is_declared; reflexivity|member]
        | eapply de_variant; [apply is_declared; reflexivity|member|now leaf]
        | eapply de_variants; [apply is_declared; reflexivity|member|apply PeanoNat.Nat.leb_le; reflexivity|]; fill ].

(** ** Types *)

Lemma d_vector3f v : describes (Named "Vector3f") (dbg_vector3f v) (ser_vector3f v).
Proof. d_struct. Qed.
Global Hint Resolve d_vector3f : declared.

Lemma d_vector3i v : typed_vector3i v -> describes (Named "Vector3i") (dbg_vector3i v) (ser_vector3i v).
Proof. d_struct. Qed.
Global Hint Resolve d_vector3i : declared.

Lemma d_quaternion v : describes (Named "Quaternion") (dbg_quaternion v) (ser_quaternion v).
Proof. d_struct. Qed.
Global Hint Resolve d_quaternion : declared.

Lemma d_rotation v : typed_rotation v -> describes (Named "Rotation") (dbg_rotation v) (ser_rotation v).
Proof. d_struct. Qed.
Global Hint Resolve d_rotation : declared.

Lemma d_trajectory v : typed_trajectory v -> describes (Named "Trajectory") (dbg_trajectory v) (ser_trajectory v).
Proof. d_struct. Qed.
Global Hint Resolve d_trajectory : declared.

Lemma d_new_actor v : typed_new_actor v -> describes (Named "NewActor") (dbg_new_actor v) (ser_new_actor v).
Proof. d_struct. Qed.
Global Hint Resolve d_new_actor : declared.

Lemma d_active_actor v : typed_active_actor v -> describes (Named "ActiveActor") (dbg_active_actor v) (ser_active_actor v).
Proof. d_struct. Qed.
Global Hint Resolve d_active_actor : declared.

Lemma d_cam_settings v : describes (Named "CamSettings") (dbg_cam_settings v) (ser_cam_settings v).
Proof. d_struct. Qed.
Global Hint Resolve d_cam_settings : declared.

Lemma d_club_colors v : typed_club_colors v -> describes (Named "ClubColors") (dbg_club_colors v) (ser_club_colors v).
Proof. d_struct. Qed.
Global Hint Resolve d_club_colors : declared.

Lemma d_applied_damage v : typed_applied_damage v -> describes (Named "AppliedDamage") (dbg_applied_damage v) (ser_applied_damage v).
Proof. d_struct. Qed.
Global Hint Resolve d_applied_damage : declared.

Lemma d_damage_state v : typed_damage_state v -> describes (Named "DamageState") (dbg_damage_state v) (ser_damage_state v).
Proof. d_struct. Qed.
Global Hint Resolve d_damage_state : declared.

Lemma d_demolish v : typed_demolish v -> describes (Named "Demolish") (dbg_demolish v) (ser_demolish v).
Proof. d_struct. Qed.
Global Hint Resolve d_demolish : declared.

Lemma d_demolish_extended v : typed_demolish_extended v -> describes (Named "DemolishExtended") (dbg_demolish_extended v) (ser_demolish_extended v).
Proof. d_struct. Qed.
Global Hint Resolve d_demolish_extended : declared.

Lemma d_demolish_fx v : typed_demolish_fx v -> describes (Named "DemolishFx") (dbg_demolish_fx v) (ser_demolish_fx v).
Proof. d_struct. Qed.
Global Hint Resolve d_demolish_fx : declared.

Lemma d_explosion v : typed_explosion v -> describes (Named "Explosion") (dbg_explosion v) (ser_explosion v).
Proof. d_struct. Qed.
Global Hint Resolve d_explosion : declared.

Lemma d_extended_explosion v : typed_extended_explosion v -> describes (Named "ExtendedExplosion") (dbg_extended_explosion v) (ser_extended_explosion v).
Proof. d_struct. Qed.
Global Hint Resolve d_extended_explosion : declared.

Lemma d_loadout v : typed_loadout v -> describes (Named "Loadout") (dbg_loadout v) (ser_loadout v).
Proof. d_struct. Qed.
Global Hint Resolve d_loadout : declared.

Lemma d_team_loadout v : typed_team_loadout v -> describes (Named "TeamLoadout") (dbg_team_loadout v) (ser_team_loadout v).
Proof. d_struct. Qed.
Global Hint Resolve d_team_loadout : declared.

Lemma d_stat_event v : typed_stat_event v -> describes (Named "StatEvent") (dbg_stat_event v) (ser_stat_event v).
Proof. d_struct. Qed.
Global Hint Resolve d_stat_event : declared.

Lemma d_music_stinger v : typed_music_stinger v -> describes (Named "MusicStinger") (dbg_music_stinger v) (ser_music_stinger v).
Proof. d_struct. Qed.
Global Hint Resolve d_music_stinger : declared.

Lemma d_pickup v : typed_pickup v -> describes (Named "Pickup") (dbg_pickup v) (ser_pickup v).
Proof. d_struct. Qed.
Global Hint Resolve d_pickup : declared.

Lemma d_pickup_new v : typed_pickup_new v -> describes (Named "PickupNew") (dbg_pickup_new v) (ser_pickup_new v).
Proof. d_struct. Qed.
Global Hint Resolve d_pickup_new : declared.

Lemma d_welded v : typed_welded v -> describes (Named "Welded") (dbg_welded v) (ser_welded v).
Proof. d_struct. Qed.
Global Hint Resolve d_welded : declared.

Lemma d_team_paint v : typed_team_paint v -> describes (Named "TeamPaint") (dbg_team_paint v) (ser_team_paint v).
Proof. d_struct. Qed.
Global Hint Resolve d_team_paint : declared.

Lemma d_rigid_body v : describes (Named "RigidBody") (dbg_rigid_body v) (ser_rigid_body v).
Proof. d_struct. Qed.
Global Hint Resolve d_rigid_body : declared.

Lemma d_remote_id v : typed_remote_id v -> describes (Named "RemoteId") (dbg_remote_id v) (ser_remote_id v).
Proof. d_enum. Qed.
Global Hint Resolve d_remote_id : declared.

Lemma d_unique_id v : typed_unique_id v -> describes (Named "UniqueId") (dbg_unique_id v) (ser_unique_id v).
Proof. d_struct. Qed.
Global Hint Resolve d_unique_id : declared.

Lemma d_reservation v : typed_reservation v -> describes (Named "Reservation") (dbg_reservation v) (ser_reservation v).
Proof. d_struct. Qed.
Global Hint Resolve d_reservation : declared.

Lemma d_private_match v : typed_private_match v -> describes (Named "PrivateMatchSettings") (dbg_private_match v) (ser_private_match v).
Proof. d_struct. Qed.
Global Hint Resolve d_private_match : declared.

Lemma d_product_value v : typed_product_value v -> describes (Named "ProductValue") (dbg_product_value v) (ser_product_value v).
Proof. d_enum. Qed.
Global Hint Resolve d_product_value : declared.

Lemma d_product v : typed_product v -> describes (Named "Product") (dbg_product v) (ser_product v).
Proof. d_struct. Qed.
Global Hint Resolve d_product : declared.

Lemma d_loadouts_online v : typed_loadouts_online v -> describes (Named "LoadoutsOnline") (dbg_loadouts_online v) (ser_loadouts_online v).
Proof. d_struct. Qed.
Global Hint Resolve d_loadouts_online : declared.

Lemma d_rep_stat_title v : typed_rep_stat_title v -> describes (Named "RepStatTitle") (dbg_rep_stat_title v) (ser_rep_stat_title v).
Proof. d_struct. Qed.
Global Hint Resolve d_rep_stat_title : declared.

Lemma d_pickup_info v : typed_pickup_info v -> describes (Named "PickupInfo") (dbg_pickup_info v) (ser_pickup_info v).
Proof. d_struct. Qed.
Global Hint Resolve d_pickup_info : declared.

Lemma d_impulse v : typed_impulse v -> describes (Named "Impulse") (dbg_impulse v) (ser_impulse v).
Proof. d_struct. Qed.
Global Hint Resolve d_impulse : declared.

Lemma d_replicated_boost v : typed_replicated_boost v -> describes (Named "ReplicatedBoost") (dbg_replicated_boost v) (ser_replicated_boost v).
Proof. d_struct. Qed.
Global Hint Resolve d_replicated_boost : declared.

Lemma d_logo_data v : typed_logo_data v -> describes (Named "LogoData") (dbg_logo_data v) (ser_logo_data v).
Proof. d_struct. Qed.
Global Hint Resolve d_logo_data : declared.

Lemma d_attribute v : typed_attribute v -> describes (Named "Attribute") (dbg_attribute v) (ser_attribute v).
Proof. d_enum. Qed.
Global Hint Resolve d_attribute : declared.

Lemma d_updated_attribute v : typed_updated_attribute v -> describes (Named "UpdatedAttribute") (dbg_updated_attribute v) (ser_updated_attribute v).
Proof. d_struct. Qed.
Global Hint Resolve d_updated_attribute : declared.

Lemma d_frame v : typed_frame v -> describes (Named "Frame") (dbg_frame v) (ser_frame v).
Proof. d_struct. Qed.
Global Hint Resolve d_frame : declared.
