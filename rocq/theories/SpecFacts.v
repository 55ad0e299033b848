(** * Specification: statements about the frames of a replay *)

From Coq Require Import ZArith List Bool.
From Verif Require Import Base F32 NetTypes Header Parser SpecBasic.
Open Scope Z_scope.

(** ** Numbers *)

(** The value of a finite binary32 number times [2 ^ 149], which is an integer:
    sign bit, eight exponent bits, 23 fraction bits; the least positive number
    is [2 ^ -149].  [None] for infinities and what is not a number. *)
Definition f32_scaled (x : f32) : option Z :=
  let s := if x <? 2 ^ 31 then 1 else -1 in
  let e := (x / 2 ^ 23) mod 2 ^ 8 in
  let m := x mod 2 ^ 23 in
  if e =? 255 then None
  else if e =? 0 then Some (s * m)
  else Some (s * ((2 ^ 23 + m) * 2 ^ (e - 1))).

Definition minus_infinity : f32 := 0xFF800000.

(** zero or at least [10 ^ -10], if it is a number at all *)
Definition sane (x : f32) : Prop :=
  x <> minus_infinity /\
  forall v, f32_scaled x = Some v -> v = 0 \/ 0 < v /\ 2 ^ 149 <= v * 10 ^ 10.

(** ** Header properties *)

Definition replay_int (r : replay) (name : string) (x : Z) : Prop :=
  first_entry (lit name) (r_properties r) (HInt x).
Definition replay_text (r : replay) (name : string) (s : str) : Prop :=
  first_entry (lit name) (r_properties r) (HName s) \/ first_entry (lit name) (r_properties r) (HStr s).

(** ** Actors *)

(** the last announcement of an actor id in a list *)
Definition last_new (id : Z) (l : list new_actor) (n : new_actor) : Prop :=
  exists x y, l = x ++ n :: y /\ n_actor_id n = id /\ forall m, In m y -> n_actor_id m <> id.

(** [n] announces the actor [id] to the frame [f] that follows the frames [a]:
    in the frame itself, or it is the last announcement before it *)
Definition announces (a : list frame) (f : frame) (id : Z) (n : new_actor) : Prop :=
  In n (f_new_actors f) /\ n_actor_id n = id \/ last_new id (flat_map f_new_actors a) n.

(** the actor ids of a frame *)
Definition frame_ids (f : frame) : list Z :=
  map n_actor_id (f_new_actors f) ++ f_deleted_actors f ++ map u_actor_id (f_updated_actors f).

(** ** Attributes *)

(** the variants that belong to a kind of attribute *)
Definition has_kind (t : attribute_tag) (a : attribute) : Prop :=
  match a with
  | ABoolean _ => t = TBoolean
  | AByte _ => t = TByte
  | AAppliedDamage _ => t = TAppliedDamage
  | ADamageState _ => t = TDamageState
  | ACamSettings _ => t = TCamSettings
  | AClubColors _ => t = TClubColors
  | ADemolish _ => t = TDemolish
  | ADemolishExtended _ => t = TDemolishExtended
  | ADemolishFx _ => t = TDemolishFx
  | AEnum _ => t = TEnum
  | AExplosion _ => t = TExplosion
  | AExtendedExplosion _ => t = TExtendedExplosion
  | AFlaggedByte _ _ => t = TFlaggedByte
  | AActiveActor _ => t = TActiveActor
  | AFloat _ => t = TFloat
  | AGameMode _ _ => t = TGameMode
  | AInt _ => t = TInt
  | AInt64 _ => t = TInt64
  | ALoadout _ => t = TLoadout
  | ATeamLoadout _ => t = TTeamLoadout
  | ALocation _ => t = TLocation
  | AMusicStinger _ => t = TMusicStinger
  | APlayerHistoryKey _ => t = TPlayerHistoryKey
  | APickup _ => t = TPickup
  | APickupNew _ => t = TPickupNew
  | AQWord _ => t = TQWordString
  | AWelded _ => t = TWelded
  | ATitle _ _ _ _ _ _ _ _ => t = TTitle
  | ATeamPaint _ => t = TTeamPaint
  | ARigidBody _ => t = TRigidBody
  | AString _ => t = TString \/ t = TQWordString
  | AUniqueId _ => t = TUniqueId
  | AReservation _ => t = TReservation
  | APartyLeader _ => t = TPartyLeader
  | APrivateMatch _ => t = TPrivateMatchSettings
  | ALoadoutOnline _ => t = TLoadoutOnline
  | ALoadoutsOnline _ => t = TLoadoutsOnline
  | AStatEvent _ => t = TStatEvent
  | ARotation _ => t = TRotationTag
  | ARepStatTitle _ => t = TRepStatTitle
  | APickupInfo _ => t = TPickupInfo
  | AImpulse _ => t = TImpulse
  | AReplicatedBoost _ => t = TReplicatedBoost
  | ALogoData _ => t = TLogoData
  end.
