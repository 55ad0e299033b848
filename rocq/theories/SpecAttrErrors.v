(** * Specification: which error is reported for an attribute value

    The error of a value names the part of the format that the bits do not start
    with, or says what is wrong with the size of a text or the kind of a unique
    id. *)

From Coq Require Import ZArith List Bool.
From Verif Require Import Base NetTypes Errors Attributes Wire.
Open Scope Z_scope.

Definition misfit : Type := bits -> attribute_error -> Prop.

(** the bits do not start with a value of the format [P], which goes by the name [what] *)
Definition m_short {A} (what : string) (P : wire A) : misfit := fun i x =>
  x = ANotEnoughDataFor what /\ forall v o, ~ P i v o.
(** a part of the format [P] and what follows it *)
Definition m_part {A} (X : misfit) (P : wire A) (Y : A -> misfit) : misfit := fun i x =>
  X i x \/ exists a m, P i a m /\ Y a m x.
(** a part that goes by a name *)
Definition m_named {A} (what : string) (P : wire A) (Y : A -> misfit) : misfit := m_part (m_short what P) P Y.
Definition m_none : misfit := fun _ _ => False.

(** a text: its size is missing, too big, or more than what is there *)
Definition m_text : misfit :=
  m_named "text string" (w_int 32) (fun n i x =>
    x = ATooBigString n /\
    (1024 < n \/ n < -512 \/ Z.of_nat (length i) < 8 * (if 0 <=? n then n else 2 * - n))).

(** the part of a unique id that depends on the platform *)
Definition m_remote (net sys : Z) : misfit :=
  match sys with
  | 0 => m_short "SplitScreen" (w_uint 24)
  | 1 => m_short "Steam" (w_uint 64)
  | 2 => m_named "PS4 Name" (w_bytes 16) (fun _ =>
         m_named "PS4 Unknown" (w_bytes (if net <? 1 then 8 else 16)) (fun _ =>
         m_short "PS4 ID" (w_uint 64)))
  | 4 => m_short "Xbox" (w_uint 64)
  | 5 => m_short "QQ ID" (w_uint 64)
  | 6 => m_named "Switch ID" (w_uint 64) (fun _ => m_short "Switch ID Unknown" (w_bytes 24))
  | 7 => m_named "PsyNet ID" (w_uint 64) (fun _ =>
         if net <? 10 then m_short "PsyNet ID Unknown" (w_bytes 24) else m_none)
  | 11 => m_text
  | _ => fun _ x => x = AUnrecognizedRemoteId sys
  end.
Definition m_unique_tail (net sys : Z) : misfit :=
  m_part (m_remote net sys) (w_remote net sys) (fun _ => m_short "UniqueId local_id" (w_uint 8)).
Definition m_unique (net : Z) : misfit := m_named "System id" (w_uint 8) (m_unique_tail net).

(** the name of the player of a reservation *)
Definition m_reservation_name (u : unique_id) : misfit :=
  if ui_system_id u =? 0 then m_short "Reservation" (w_reservation_name u) else m_text.

(** the name of a format whose parts have no names of their own *)
Definition plain_name (tag : attribute_tag) : string :=
  match tag with
  | TBoolean => "Boolean"
  | TByte => "Byte"
  | TAppliedDamage => "Applied Damage"
  | TDamageState => "Damage State"
  | TCamSettings => "Cam Settings"
  | TClubColors => "Club Colors"
  | TDemolish => "Demolish"
  | TDemolishFx => "DemolishFx"
  | TDemolishExtended => "DemolishExtended"
  | TEnum => "Enum"
  | TExplosion => "Explosion"
  | TExtendedExplosion => "Extended Explosion"
  | TFlaggedByte => "FlaggedByte"
  | TActiveActor => "Active Actor"
  | TFloat => "Float"
  | TGameMode => "Game Mode"
  | TInt => "Int"
  | TInt64 => "Int64"
  | TLoadout => "Loadout"
  | TTeamLoadout => "Team Loadout"
  | TLocation => "Location"
  | TMusicStinger => "Music Stinger"
  | TPickup => "Pickup"
  | TPickupNew => "PickupNew"
  | TPlayerHistoryKey => "PlayerHistoryKey"
  | TQWordString => "QWord"
  | TWelded => "Welded"
  | TRigidBody => "Rigid Body"
  | TTitle => "Title"
  | TTeamPaint => "Team Paint"
  | TLoadoutOnline => "Loadout Online"
  | TLoadoutsOnline => "Loadouts online"
  | TStatEvent => "Stat Event"
  | TRotationTag => "Rotation"
  | TPickupInfo => "Pickup Info"
  | TImpulse => "Impulse"
  | TReplicatedBoost => "ReplicatedBoost"
  | TLogoData => "LogoData"
  | _ => ""
  end.

Definition m_attribute (D : attribute_decoder) (tag : attribute_tag) : misfit :=
  let net := v_net (ad_version D) in
  match tag with
  | TNotImplemented => fun _ x => x = AUnimplemented
  | TString => m_text
  | TQWordString => if ad_is_rl_223 D then m_text else m_short "QWord" (w_uint 64)
  | TUniqueId => m_unique net
  | TReservation =>
      m_named "Reservation" (w_uint 3) (fun _ =>
      m_part (m_unique net) (w_unique net) (fun u =>
      m_part (m_reservation_name u) (w_reservation_name u) (fun _ =>
      m_named "Reservation" w_bit (fun _ =>
      m_named "Reservation" w_bit (fun _ =>
      m_short "Reservation" (w_when (at_least (ad_version D) 868 12 0) (w_uint 6)))))))
  | TPartyLeader =>
      m_named "Party Leader" (w_uint 8) (fun sys => if sys =? 0 then m_none else m_unique_tail net sys)
  | TPrivateMatchSettings =>
      m_part m_text w_text (fun _ =>
      m_named "Private Match" w_u32 (fun _ =>
      m_named "Private Match" w_u32 (fun _ =>
      m_part m_text w_text (fun _ =>
      m_part m_text w_text (fun _ =>
      m_short "Private Match" w_bit)))))
  | TRepStatTitle =>
      m_named "RepStatTitle" w_bit (fun _ =>
      m_part m_text w_text (fun _ =>
      m_named "RepStatTitle" w_bit (fun _ =>
      m_named "RepStatTitle" w_u32 (fun _ =>
      m_short "RepStatTitle" w_u32))))
  | _ => m_short (plain_name tag) (w_attribute D tag)
  end.
