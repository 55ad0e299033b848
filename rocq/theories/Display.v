(** * Error messages: model of the [Display], [Error] and [FrameContext] parts of
    /repo/src/errors.rs

    Text is the list of its UTF-8 bytes.  The decimal text of an [f32] and the
    [Debug] text of an attribute are left open: they are parameters, so what is
    proved holds for all of them. *)

From Coq Require Import ZArith List Bool.
From Verif Require Import Base F32 Text NetTypes SegArray Errors Data Json.
Open Scope Z_scope.

(** [write!] of several pieces, e.g. errors.rs:30-34 *)
Definition say (l : list str) : str := concat l.
(** [writeln!], e.g. errors.rs:128 *)
Definition newline : str := lit "
".

(** [Display] of [ActorId], [ObjectId], [StreamId]: network/models.rs:274-278,
    298-302, 321-325; of [i32], [u32], [u8], [usize] in errors.rs *)
Definition show (x : Z) : str := display_Z x.

(** [Display for Utf8Error] of the standard library, reached from errors.rs:28 *)
Definition show_utf8 (e : utf8_error) : str :=
  match e with
  | (at_, Some n) => say [lit "invalid utf-8 sequence of "; show n; lit " bytes from index "; show at_]
  | (at_, None) => say [lit "incomplete utf-8 byte sequence from index "; show at_]
  end.

(** [derive(Debug)] for [AttributeTag], network/attributes.rs:10-57 *)
Definition tag_name (t : attribute_tag) : string :=
  match t with
  | TBoolean => "Boolean"
  | TByte => "Byte"
  | TAppliedDamage => "AppliedDamage"
  | TDamageState => "DamageState"
  | TCamSettings => "CamSettings"
  | TClubColors => "ClubColors"
  | TDemolish => "Demolish"
  | TDemolishFx => "DemolishFx"
  | TDemolishExtended => "DemolishExtended"
  | TEnum => "Enum"
  | TExplosion => "Explosion"
  | TExtendedExplosion => "ExtendedExplosion"
  | TFlaggedByte => "FlaggedByte"
  | TActiveActor => "ActiveActor"
  | TFloat => "Float"
  | TGameMode => "GameMode"
  | TInt => "Int"
  | TInt64 => "Int64"
  | TLoadout => "Loadout"
  | TTeamLoadout => "TeamLoadout"
  | TLocation => "Location"
  | TMusicStinger => "MusicStinger"
  | TPickup => "Pickup"
  | TPickupNew => "PickupNew"
  | TPlayerHistoryKey => "PlayerHistoryKey"
  | TQWordString => "QWordString"
  | TWelded => "Welded"
  | TRigidBody => "RigidBody"
  | TTitle => "Title"
  | TTeamPaint => "TeamPaint"
  | TNotImplemented => "NotImplemented"
  | TString => "String"
  | TUniqueId => "UniqueId"
  | TReservation => "Reservation"
  | TPartyLeader => "PartyLeader"
  | TPrivateMatchSettings => "PrivateMatchSettings"
  | TLoadoutOnline => "LoadoutOnline"
  | TLoadoutsOnline => "LoadoutsOnline"
  | TStatEvent => "StatEvent"
  | TRotationTag => "RotationTag"
  | TRepStatTitle => "RepStatTitle"
  | TPickupInfo => "PickupInfo"
  | TImpulse => "Impulse"
  | TReplicatedBoost => "ReplicatedBoost"
  | TLogoData => "LogoData"
  end.

(** [derive(Debug)] for options of [i8], network/models.rs:178-183 *)
Definition debug_opt_i8 (o : option Z) : str :=
  match o with Some x => say [lit "Some("; show x; lit ")"] | None => lit "None" end.

(** [derive(Debug)] for [Option<Vector3i>], network/models.rs:24-29, used at
    errors.rs:146 *)
Definition debug_location (o : option vector3i) : str :=
  match o with
  | Some v => say [lit "Some(Vector3i { x: "; show (v3i_x v); lit ", y: "; show (v3i_y v); lit ", z: "; show (v3i_z v); lit " })"]
  | None => lit "None"
  end.

(** [derive(Debug)] for [Option<Rotation>], network/models.rs:178-183, used at
    errors.rs:147 *)
Definition debug_rotation (o : option rotation) : str :=
  match o with
  | Some r => say [lit "Some(Rotation { yaw: "; debug_opt_i8 (r_yaw r); lit ", pitch: "; debug_opt_i8 (r_pitch r);
                   lit ", roll: "; debug_opt_i8 (r_roll r); lit " })"]
  | None => lit "None"
  end.

(** errors.rs:92-105 *)
Definition display_attribute_error (e : attribute_error) : str :=
  match e with
  | ANotEnoughDataFor what => say [lit "Not enough data to decode attribute "; lit what]
  | AUnrecognizedRemoteId id => say [lit "Unrecognized remote id of "; show id]
  | AUnimplemented => lit "Does not have an attribute implementation"
  | ATooBigString size => say [lit "Unexpected size for string: "; show size]
  end.

(** [Vec::sort] on strings, errors.rs:323, 333: insertion into a sorted list. *)
Fixpoint sort_insert (x : str) (l : list str) : list str :=
  match l with
  | [] => [x]
  | y :: t => if str_geb y x then x :: l else y :: sort_insert x t
  end.
(** errors.rs:323, 333 *)
Fixpoint sort (l : list str) : list str :=
  match l with [] => [] | x :: t => sort_insert x (sort t) end.

(** [Vec::dedup], errors.rs:324, 334: removes repetitions that are adjacent *)
Fixpoint dedup (l : list str) : list str :=
  match l with
  | [] => []
  | x :: t =>
      match dedup t with
      | y :: t' => if str_eqb x y then y :: t' else x :: y :: t'
      | [] => [x]
      end
  end.

(** [join(", ")], errors.rs:345, 350 *)
Fixpoint join (l : list str) : str :=
  match l with
  | [] => []
  | [x] => x
  | x :: t => x ++ lit ", " ++ join t
  end.

(** [Iterator::filter_map], e.g. errors.rs:280-281 *)
Fixpoint filter_map {A C} (f : A -> option C) (l : list A) : list C :=
  match l with
  | [] => []
  | x :: t => match f x with Some y => y :: filter_map f t | None => filter_map f t end
  end.

(** [-] repeated, errors.rs:130, 153, 379 *)
Definition dashes (n : nat) : str := repeat "-"%byte n.

Section Texts.
(** [Display for f32]; [Debug for Attribute] *)
Context (show_f32 : f32 -> str) (debug_attribute : attribute -> str).

(** errors.rs:118-125 *)
Definition object_ind_to_string (c : frame_context) (id : Z) : str :=
  match getZ (as_usize id) (fc_objects c) with Some s => s | None => lit "Out of bounds" end.

(** errors.rs:127-148 *)
Definition display_new_actor (c : frame_context) (a : new_actor) : str :=
  say [newline;
       lit "Last new actor:"; newline;
       dashes (length (lit "Last new actor:")); newline;
       lit "actor id: "; show (n_actor_id a); newline;
       lit "name id: "; match n_name_id a with Some x => show x | None => lit "<none>" end; newline;
       lit "object id: "; show (n_object_id a); newline;
       lit "object name: "; object_ind_to_string c (n_object_id a); newline;
       lit "location: "; debug_location (t_location (n_traj a)); newline;
       lit "rotation: "; debug_rotation (t_rotation (n_traj a)); newline].

(** errors.rs:150-170 *)
Definition display_update (c : frame_context) (u : updated_attribute) : str :=
  say [newline;
       lit "Last actor update:"; newline;
       dashes (length (lit "Last actor update:")); newline;
       lit "actor id: "; show (u_actor_id u); newline;
       match map_get (u_actor_id u) (fc_actors c) with
       | Some obj =>
           say [lit "object id: "; show obj; newline;
                lit "object name: "; object_ind_to_string c obj; newline]
       | None => say [lit "object id: <none>"; newline]
       end;
       lit "attribute stream id: "; show (u_stream_id u); newline;
       lit "attribute object id: "; show (u_object_id u); newline;
       lit "attribute object name: "; object_ind_to_string c (u_object_id u); newline;
       lit "attribute: "; debug_attribute (u_attribute u); newline].

(** [Vec::last] and [slice::last], e.g. errors.rs:183 *)
Definition last_of {A} (l : list A) : option A :=
  match rev l with x :: _ => Some x | [] => None end.

(** for errors.rs:175: number the frames *)
Fixpoint enumerate {A} (i : Z) (l : list A) : list (Z * A) :=
  match l with [] => [] | x :: t => (i, x) :: enumerate (i + 1) t end.

(** errors.rs:177 *)
Definition has_data (f : frame) : bool :=
  match f_updated_actors f, f_new_actors f with [], [] => false | _, _ => true end.

(** errors.rs:172-178 *)
Definition most_recent_frame_with_data (c : frame_context) : option (Z * frame) :=
  find (fun p => has_data (snd p)) (rev (enumerate 0 (fc_frames c))).

(** errors.rs:181-217 *)
Definition display_context (c : frame_context) : str :=
  let last_frame := last_of (fc_frames c) in
  say [lit "Current frame: "; show (lenZ (fc_frames c));
       lit " (time: "; show_f32 (match last_frame with Some f => f_time f | None => 0 end);
       lit " delta: "; show_f32 (match last_frame with Some f => f_delta f | None => 0 end);
       lit ")"; newline;
       match last_of (fc_updated_actors c) with
       | Some u => display_update c u
       | None =>
           match last_of (fc_new_actors c) with
           | Some a => display_new_actor c a
           | None =>
               say [lit "- No actor information decoded"; newline;
                    match most_recent_frame_with_data c with
                    | None => []
                    | Some (i, f) =>
                        say [lit "Retrace frame: "; show i; lit " (time: "; show_f32 (f_time f);
                             lit ", delta: "; show_f32 (f_delta f); lit ")"; newline;
                             match last_of (f_updated_actors f) with
                             | Some u => display_update c u
                             | None =>
                                 match last_of (f_new_actors f) with
                                 | Some a => display_new_actor c a
                                 | None => say [lit "- No actor information decoded"; newline]
                                 end
                             end]
                    end]
           end
       end].

(** errors.rs:284-288: an entry of the attribute table of an object *)
Definition attribute_of (c : frame_context) (obj stream : Z) : option object_attribute :=
  match getZ (as_usize obj) (fc_object_attributes c) with
  | Some (Some ci) => seg_get stream (ci_attributes ci)
  | _ => None
  end.

(** errors.rs:277-282, 318-324 *)
Definition names_with_stream (c : frame_context) (stream : Z) : list str :=
  dedup (sort (filter_map (fun a => getZ (as_usize (oa_object_id a)) (fc_objects c))
    (filter_map (fun o => match o with Some ci => seg_get stream (ci_attributes ci) | None => None end)
      (fc_object_attributes c)))).

(** errors.rs:326-334 *)
Definition unknown_of (names : list str) : list str :=
  dedup (sort (filter (fun n => negb (existsb (fun kv => str_eqb (fst kv) n) ATTRIBUTES)) names)).

(** errors.rs:336-352 *)
Definition display_names (c : frame_context) (stream : Z) : str :=
  let names := names_with_stream c stream in
  say [lit "searching all attributes with the same stream id, ";
       lit "unknown attributes: ["; join (unknown_of names); lit "], ";
       lit "all attributes with that stream id: ["; join (map (fun n => say [lit "("; n; lit ")"]) names); lit "]. "].

(** errors.rs:261-353: for the two errors about an attribute *)
Definition contextualize_attribute (c : frame_context) (obj stream : Z) : str :=
  let name := match getZ (as_usize obj) (fc_objects c) with Some s => s | None => lit "<none>" end in
  match attribute_of c obj stream with
  | Some a =>
      match oa_attribute a with
      | TNotImplemented =>
          say [lit "attribute: ";
               match getZ (as_usize (oa_object_id a)) (fc_objects c) with Some s => s | None => lit "<unknown>" end; newline]
      | t =>
          say [lit "found attribute ("; lit (tag_name t); lit ") on "; name; lit " in network cache data. ";
               display_names c stream]
      end
  | None =>
      say [lit "did not find attribute id ("; show stream; lit ") on "; name; lit " in object hierarchy: ";
           display_names c stream]
  end.

(** errors.rs:251-357 *)
Definition contextualize (c : frame_context) (e : frame_error) : str :=
  match e with
  | FMissingCache _ obj =>
      match getZ (as_usize obj) (fc_objects c) with Some s => say [lit "("; s; lit ")"] | None => [] end
  | FMissingAttribute _ obj stream => contextualize_attribute c obj stream
  | FAttributeError _ obj stream _ => contextualize_attribute c obj stream
  | _ => []
  end.

(** errors.rs:368-387 *)
Definition display_frame_error (e : frame_error) : str :=
  match e with
  | FNotEnoughDataFor what => say [lit "not enough data to decode "; lit what]
  | FTimeOutOfRange t => say [lit "time is out of range: "; show_f32 t]
  | FDeltaOutOfRange d => say [lit "delta is out of range: "; show_f32 d]
  | FObjectIdOutOfRange o => say [lit "new actor object id out of range: "; show o]
  | FMissingActor a => say [lit "attribute update references unknown actor: "; show a]
  | FMissingCache a o =>
      say [lit "no known attributes found for actor id / object id: "; show a; lit " / "; show o]
  | FMissingAttribute a o s =>
      say [lit "attribute unknown or not implemented:"; newline;
           dashes 10; newline;
           lit "actor id: "; show a; newline;
           lit "actor object id: "; show o; newline;
           lit "attribute stream id: "; show s; newline]
  | FAttributeError a o s x =>
      say [lit "attribute decoding error encountered: "; display_attribute_error x;
           lit " for actor id / actor object id / attribute id: "; show a; lit " / "; show o; lit " / "; show s]
  end.

(** errors.rs:409-444 *)
Definition display_network_error (e : network_error) : str :=
  match e with
  | NNotEnoughDataFor what => say [lit "Not enough data to decode "; lit what]
  | NObjectIdOutOfRange id => say [lit "Object Id of "; show id; lit " exceeds range"]
  | NStreamTooLargeIndex s o =>
      say [lit "Stream id of "; show s; lit " references out of range object index: "; show o]
  | NMissingParentClass o p =>
      say [lit "Replay contained object: "; o; lit " but not the parent class: "; p]
  | NParentHasNoAttributes p o =>
      say [lit "Parent id of "; show p; lit " for object id of "; show o; lit " was not recognized to have attributes"]
  | NTooManyFrames n => say [lit "Too many frames to decode: "; show n]
  | NFrameError x c =>
      say [lit "Error decoding frame: "; display_frame_error x;
           match x with FMissingAttribute _ _ _ => [] | _ => lit ". " end;
           contextualize c x; newline;
           display_context c]
  end.

(** errors.rs:24-58 *)
Fixpoint display_parse_error (e : parse_error) : str :=
  match e with
  | EUtf8Error x => say [lit "Unable decode data as utf8: "; show_utf8 x]
  | ETextTooLarge n => say [lit "Text of size "; show n; lit " is too large"]
  | EInsufficientData want have =>
      say [lit "Insufficient data. Expected "; show want; lit " bytes, but only "; show have; lit " left"]
  | EUnexpectedProperty p => say [lit "Did not expect a property of: "; p]
  | ECrcMismatch want found =>
      say [lit "Crc mismatch. Expected "; show want; lit " but received "; show found]
  | ECorruptReplay section _ =>
      say [lit "Failed to parse "; lit section; lit " and crc check failed. Replay is corrupt"]
  | EListTooLarge n => say [lit "list of size "; show n; lit " is too large"]
  | EParseError section at_ e' =>
      say [lit "Could not decode replay "; lit section; lit " at offset ("; show at_; lit "): "; display_parse_error e']
  | ENetworkError x => display_network_error x
  end.

End Texts.

(** [&dyn Error]: the error types of errors.rs and [Utf8Error] *)
Inductive any_error :=
| AnyParse (e : parse_error)
| AnyUtf8 (e : utf8_error)
| AnyNetwork (e : network_error)
| AnyFrame (e : frame_error)
| AnyAttribute (e : attribute_error).

(** [Error::source]: errors.rs:60-70, 86-90, 359-366, 400-407 *)
Definition source (e : any_error) : option any_error :=
  match e with
  | AnyParse (EUtf8Error x) => Some (AnyUtf8 x)
  | AnyParse (ECorruptReplay _ x) => Some (AnyParse x)
  | AnyParse (EParseError _ _ x) => Some (AnyParse x)
  | AnyParse (ENetworkError x) => Some (AnyNetwork x)
  | AnyNetwork (NFrameError x _) => Some (AnyFrame x)
  | AnyFrame (FAttributeError _ _ _ x) => Some (AnyAttribute x)
  | _ => None
  end.
