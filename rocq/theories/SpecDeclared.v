(** * Specification: the declared types of a replay

    Written by /verif/tools/gen_declared.py: the declarations of /repo/src/models.rs and
    /repo/src/network as a table, and which values a declaration allows. *)

From Coq Require Import ZArith List String.
From Verif Require Import Base F32 Json Debug SpecBasic SpecDecimal SpecJson.
Import ListNotations.
Open Scope Z_scope.

Inductive type :=
| Bool | Float | Text
| Unsigned (bits : Z) | Signed (bits : Z)
| Optional (t : type) | Many (t : type) | Exactly (n : nat) (t : type)
| Entries (t : type)   (** pairs of a text and a value *)
| Named (name : string).

Inductive variant :=
| Values (l : list type)
| Fields (l : list (string * type)).

Inductive declaration :=
| Newtype (t : type)
| Struct (fields : list (string * type))
| Enum (variants : list (string * variant))
| Untagged (variants : list (string * variant)).   (** in JSON without the name of the variant *)

Definition declared : list (string * declaration) := [
  ("Replay", Struct [("header_size", (Signed 32)); ("header_crc", (Unsigned 32)); ("major_version", (Signed 32)); ("minor_version", (Signed 32)); ("net_version", (Optional (Signed 32))); ("game_type", Text); ("properties", (Entries (Named "HeaderProp"))); ("content_size", (Signed 32)); ("content_crc", (Unsigned 32)); ("network_frames", (Optional (Named "NetworkFrames"))); ("levels", (Many Text)); ("keyframes", (Many (Named "KeyFrame"))); ("debug_info", (Many (Named "DebugInfo"))); ("tick_marks", (Many (Named "TickMark"))); ("packages", (Many Text)); ("objects", (Many Text)); ("names", (Many Text)); ("class_indices", (Many (Named "ClassIndex"))); ("net_cache", (Many (Named "ClassNetCache")))]); (* models.rs:19-43 *)
  ("NetworkFrames", Struct [("frames", (Many (Named "Frame")))]); (* models.rs:47-49 *)
  ("TickMark", Struct [("description", Text); ("frame", (Signed 32))]); (* models.rs:56-59 *)
  ("KeyFrame", Struct [("time", Float); ("frame", (Signed 32)); ("position", (Signed 32))]); (* models.rs:67-71 *)
  ("HeaderProp", Untagged [("Array", Values [(Many (Entries (Named "HeaderProp")))]);
    ("Bool", Values [Bool]);
    ("Byte", Fields [("kind", Text); ("value", (Optional Text))]);
    ("Float", Values [Float]);
    ("Int", Values [(Signed 32)]);
    ("Name", Values [Text]);
    ("QWord", Values [(Unsigned 64)]);
    ("Str", Values [Text]);
    ("Struct", Fields [("name", Text); ("fields", (Entries (Named "HeaderProp")))])]); (* models.rs:82-98 *)
  ("DebugInfo", Struct [("frame", (Signed 32)); ("user", Text); ("text", Text)]); (* models.rs:225-229 *)
  ("ClassIndex", Struct [("class", Text); ("index", (Signed 32))]); (* models.rs:233-239 *)
  ("CacheProp", Struct [("object_ind", (Signed 32)); ("stream_id", (Signed 32))]); (* models.rs:244-251 *)
  ("ClassNetCache", Struct [("object_ind", (Signed 32)); ("parent_id", (Signed 32)); ("cache_id", (Signed 32)); ("properties", (Many (Named "CacheProp")))]); (* models.rs:255-267 *)
  ("Vector3f", Struct [("x", Float); ("y", Float); ("z", Float)]); (* network/models.rs:6-10 *)
  ("Vector3i", Struct [("x", (Signed 32)); ("y", (Signed 32)); ("z", (Signed 32))]); (* network/models.rs:25-29 *)
  ("Quaternion", Struct [("x", Float); ("y", Float); ("z", Float); ("w", Float)]); (* network/models.rs:89-94 *)
  ("Rotation", Struct [("yaw", (Optional (Signed 8))); ("pitch", (Optional (Signed 8))); ("roll", (Optional (Signed 8)))]); (* network/models.rs:179-183 *)
  ("UpdatedAttribute", Struct [("actor_id", (Named "ActorId")); ("stream_id", (Named "StreamId")); ("object_id", (Named "ObjectId")); ("attribute", (Named "Attribute"))]); (* network/models.rs:221-233 *)
  ("Frame", Struct [("time", Float); ("delta", Float); ("new_actors", (Many (Named "NewActor"))); ("deleted_actors", (Many (Named "ActorId"))); ("updated_actors", (Many (Named "UpdatedAttribute")))]); (* network/models.rs:237-252 *)
  ("ObjectId", Newtype (Signed 32)); (* network/models.rs:260-260 *)
  ("StreamId", Newtype (Signed 32)); (* network/models.rs:284-284 *)
  ("ActorId", Newtype (Signed 32)); (* network/models.rs:307-307 *)
  ("NewActor", Struct [("actor_id", (Named "ActorId")); ("name_id", (Optional (Signed 32))); ("object_id", (Named "ObjectId")); ("initial_trajectory", (Named "Trajectory"))]); (* network/models.rs:329-341 *)
  ("Trajectory", Struct [("location", (Optional (Named "Vector3i"))); ("rotation", (Optional (Named "Rotation")))]); (* network/models.rs:345-348 *)
  ("Attribute", Enum [("Boolean", Values [Bool]);
    ("Byte", Values [(Unsigned 8)]);
    ("AppliedDamage", Values [(Named "AppliedDamage")]);
    ("DamageState", Values [(Named "DamageState")]);
    ("CamSettings", Values [(Named "CamSettings")]);
    ("ClubColors", Values [(Named "ClubColors")]);
    ("Demolish", Values [(Named "Demolish")]);
    ("DemolishExtended", Values [(Named "DemolishExtended")]);
    ("DemolishFx", Values [(Named "DemolishFx")]);
    ("Enum", Values [(Unsigned 16)]);
    ("Explosion", Values [(Named "Explosion")]);
    ("ExtendedExplosion", Values [(Named "ExtendedExplosion")]);
    ("FlaggedByte", Values [Bool; (Unsigned 8)]);
    ("ActiveActor", Values [(Named "ActiveActor")]);
    ("Float", Values [Float]);
    ("GameMode", Values [(Unsigned 8); (Unsigned 8)]);
    ("Int", Values [(Signed 32)]);
    ("Int64", Values [(Signed 64)]);
    ("Loadout", Values [(Named "Loadout")]);
    ("TeamLoadout", Values [(Named "TeamLoadout")]);
    ("Location", Values [(Named "Vector3f")]);
    ("MusicStinger", Values [(Named "MusicStinger")]);
    ("PlayerHistoryKey", Values [(Unsigned 16)]);
    ("Pickup", Values [(Named "Pickup")]);
    ("PickupNew", Values [(Named "PickupNew")]);
    ("QWord", Values [(Unsigned 64)]);
    ("Welded", Values [(Named "Welded")]);
    ("Title", Values [Bool; Bool; (Unsigned 32); (Unsigned 32); (Unsigned 32); (Unsigned 32); (Unsigned 32); Bool]);
    ("TeamPaint", Values [(Named "TeamPaint")]);
    ("RigidBody", Values [(Named "RigidBody")]);
    ("String", Values [Text]);
    ("UniqueId", Values [(Named "UniqueId")]);
    ("Reservation", Values [(Named "Reservation")]);
    ("PartyLeader", Values [(Optional (Named "UniqueId"))]);
    ("PrivateMatch", Values [(Named "PrivateMatchSettings")]);
    ("LoadoutOnline", Values [(Many (Many (Named "Product")))]);
    ("LoadoutsOnline", Values [(Named "LoadoutsOnline")]);
    ("StatEvent", Values [(Named "StatEvent")]);
    ("Rotation", Values [(Named "Rotation")]);
    ("RepStatTitle", Values [(Named "RepStatTitle")]);
    ("PickupInfo", Values [(Named "PickupInfo")]);
    ("Impulse", Values [(Named "Impulse")]);
    ("ReplicatedBoost", Values [(Named "ReplicatedBoost")]);
    ("LogoData", Values [(Named "LogoData")])]); (* network/attributes.rs:65-120 *)
  ("ActiveActor", Struct [("active", Bool); ("actor", (Named "ActorId"))]); (* network/attributes.rs:123-126 *)
  ("CamSettings", Struct [("fov", Float); ("height", Float); ("angle", Float); ("distance", Float); ("stiffness", Float); ("swivel", Float); ("transition", (Optional Float))]); (* network/attributes.rs:129-137 *)
  ("ClubColors", Struct [("blue_flag", Bool); ("blue_color", (Unsigned 8)); ("orange_flag", Bool); ("orange_color", (Unsigned 8))]); (* network/attributes.rs:140-145 *)
  ("AppliedDamage", Struct [("id", (Unsigned 8)); ("position", (Named "Vector3f")); ("damage_index", (Signed 32)); ("total_damage", (Signed 32))]); (* network/attributes.rs:148-153 *)
  ("DamageState", Struct [("tile_state", (Unsigned 8)); ("damaged", Bool); ("offender", (Named "ActorId")); ("ball_position", (Named "Vector3f")); ("direct_hit", Bool); ("unknown1", Bool)]); (* network/attributes.rs:156-172 *)
  ("Demolish", Struct [("attacker_flag", Bool); ("attacker", (Named "ActorId")); ("victim_flag", Bool); ("victim", (Named "ActorId")); ("attack_velocity", (Named "Vector3f")); ("victim_velocity", (Named "Vector3f"))]); (* network/attributes.rs:175-182 *)
  ("DemolishExtended", Struct [("attacker_pri", (Named "ActiveActor")); ("self_demo", (Named "ActiveActor")); ("self_demolish", Bool); ("goal_explosion_owner", (Named "ActiveActor")); ("attacker", (Named "ActiveActor")); ("victim", (Named "ActiveActor")); ("attacker_velocity", (Named "Vector3f")); ("victim_velocity", (Named "Vector3f"))]); (* network/attributes.rs:185-194 *)
  ("DemolishFx", Struct [("custom_demo_flag", Bool); ("custom_demo_id", (Signed 32)); ("attacker_flag", Bool); ("attacker", (Named "ActorId")); ("victim_flag", Bool); ("victim", (Named "ActorId")); ("attack_velocity", (Named "Vector3f")); ("victim_velocity", (Named "Vector3f"))]); (* network/attributes.rs:197-206 *)
  ("Explosion", Struct [("flag", Bool); ("actor", (Named "ActorId")); ("location", (Named "Vector3f"))]); (* network/attributes.rs:209-213 *)
  ("ExtendedExplosion", Struct [("explosion", (Named "Explosion")); ("unknown1", Bool); ("secondary_actor", (Named "ActorId"))]); (* network/attributes.rs:216-220 *)
  ("Loadout", Struct [("version", (Unsigned 8)); ("body", (Unsigned 32)); ("decal", (Unsigned 32)); ("wheels", (Unsigned 32)); ("rocket_trail", (Unsigned 32)); ("antenna", (Unsigned 32)); ("topper", (Unsigned 32)); ("unknown1", (Unsigned 32)); ("unknown2", (Optional (Unsigned 32))); ("engine_audio", (Optional (Unsigned 32))); ("trail", (Optional (Unsigned 32))); ("goal_explosion", (Optional (Unsigned 32))); ("banner", (Optional (Unsigned 32))); ("product_id", (Optional (Unsigned 32)))]); (* network/attributes.rs:223-238 *)
  ("TeamLoadout", Struct [("blue", (Named "Loadout")); ("orange", (Named "Loadout"))]); (* network/attributes.rs:241-244 *)
  ("StatEvent", Struct [("unknown1", Bool); ("object_id", (Signed 32))]); (* network/attributes.rs:247-250 *)
  ("MusicStinger", Struct [("flag", Bool); ("cue", (Unsigned 32)); ("trigger", (Unsigned 8))]); (* network/attributes.rs:253-257 *)
  ("Pickup", Struct [("instigator", (Optional (Named "ActorId"))); ("picked_up", Bool)]); (* network/attributes.rs:260-263 *)
  ("PickupNew", Struct [("instigator", (Optional (Named "ActorId"))); ("picked_up", (Unsigned 8))]); (* network/attributes.rs:266-269 *)
  ("Welded", Struct [("active", Bool); ("actor", (Named "ActorId")); ("offset", (Named "Vector3f")); ("mass", Float); ("rotation", (Named "Rotation"))]); (* network/attributes.rs:272-278 *)
  ("TeamPaint", Struct [("team", (Unsigned 8)); ("primary_color", (Unsigned 8)); ("accent_color", (Unsigned 8)); ("primary_finish", (Unsigned 32)); ("accent_finish", (Unsigned 32))]); (* network/attributes.rs:281-287 *)
  ("RigidBody", Struct [("sleeping", Bool); ("location", (Named "Vector3f")); ("rotation", (Named "Quaternion")); ("linear_velocity", (Optional (Named "Vector3f"))); ("angular_velocity", (Optional (Named "Vector3f")))]); (* network/attributes.rs:290-296 *)
  ("UniqueId", Struct [("system_id", (Unsigned 8)); ("remote_id", (Named "RemoteId")); ("local_id", (Unsigned 8))]); (* network/attributes.rs:299-303 *)
  ("PsyNetId", Struct [("online_id", (Unsigned 64)); ("unknown1", (Many (Unsigned 8)))]); (* network/attributes.rs:306-313 *)
  ("SwitchId", Struct [("online_id", (Unsigned 64)); ("unknown1", (Many (Unsigned 8)))]); (* network/attributes.rs:316-323 *)
  ("Ps4Id", Struct [("online_id", (Unsigned 64)); ("name", Text); ("unknown1", (Many (Unsigned 8)))]); (* network/attributes.rs:326-334 *)
  ("RemoteId", Enum [("PlayStation", Values [(Named "Ps4Id")]);
    ("PsyNet", Values [(Named "PsyNetId")]);
    ("SplitScreen", Values [(Unsigned 32)]);
    ("Steam", Values [(Unsigned 64)]);
    ("Switch", Values [(Named "SwitchId")]);
    ("Xbox", Values [(Unsigned 64)]);
    ("QQ", Values [(Unsigned 64)]);
    ("Epic", Values [Text])]); (* network/attributes.rs:337-361 *)
  ("Reservation", Struct [("number", (Unsigned 32)); ("unique_id", (Named "UniqueId")); ("name", (Optional Text)); ("unknown1", Bool); ("unknown2", Bool); ("unknown3", (Optional (Unsigned 8)))]); (* network/attributes.rs:364-371 *)
  ("PrivateMatchSettings", Struct [("mutators", Text); ("joinable_by", (Unsigned 32)); ("max_players", (Unsigned 32)); ("game_name", Text); ("password", Text); ("flag", Bool)]); (* network/attributes.rs:374-381 *)
  ("Product", Struct [("unknown", Bool); ("object_ind", (Named "ObjectId")); ("value", (Named "ProductValue"))]); (* network/attributes.rs:384-388 *)
  ("LoadoutsOnline", Struct [("blue", (Many (Many (Named "Product")))); ("orange", (Many (Many (Named "Product")))); ("unknown1", Bool); ("unknown2", Bool)]); (* network/attributes.rs:391-396 *)
  ("ProductValue", Enum [("NoColor", Values []);
    ("Absent", Values []);
    ("OldColor", Values [(Unsigned 32)]);
    ("NewColor", Values [(Unsigned 32)]);
    ("OldPaint", Values [(Unsigned 32)]);
    ("NewPaint", Values [(Unsigned 32)]);
    ("Title", Values [Text]);
    ("SpecialEdition", Values [(Unsigned 32)]);
    ("OldTeamEdition", Values [(Unsigned 32)]);
    ("NewTeamEdition", Values [(Unsigned 32)])]); (* network/attributes.rs:399-410 *)
  ("RepStatTitle", Struct [("unknown", Bool); ("name", Text); ("unknown2", Bool); ("index", (Unsigned 32)); ("value", (Unsigned 32))]); (* network/attributes.rs:413-419 *)
  ("PickupInfo", Struct [("available_pickups", (Exactly 3 (Named "ActiveActor"))); ("items_are_preview", Bool)]); (* network/attributes.rs:422-425 *)
  ("Impulse", Struct [("compressed_rotation", (Signed 32)); ("speed", Float)]); (* network/attributes.rs:428-431 *)
  ("ReplicatedBoost", Struct [("grant_count", (Unsigned 8)); ("boost_amount", (Unsigned 8)); ("unused1", (Unsigned 8)); ("unused2", (Unsigned 8))]); (* network/attributes.rs:434-439 *)
  ("LogoData", Struct [("logo_id", (Unsigned 32)); ("swap_colors", Bool)]) (* network/attributes.rs:442-445 *)
]%string.

(** [describes t d j]: [d], for [Debug], and [j], in JSON, show the same value of type
    [t] *)
Inductive describes : type -> dbg -> json -> Prop :=
| de_bool b : describes Bool (DBool b) (JBool b)
| de_float x : finite x -> describes Float (DF32 x) (JF32 x)
| de_not_finite x : ~ finite x -> describes Float (DF32 x) JNull
| de_text s : describes Text (DStr s) (JStr s)
(** whole numbers of 64 bits are texts in JSON *)
| de_unsigned bits x : 0 <= x < 2 ^ bits -> bits < 64 -> describes (Unsigned bits) (DInt x) (JInt x)
| de_signed bits x : - 2 ^ (bits - 1) <= x < 2 ^ (bits - 1) -> bits < 64 -> describes (Signed bits) (DInt x) (JInt x)
| de_unsigned_text x s : 0 <= x < 2 ^ 64 -> decimal x s -> describes (Unsigned 64) (DInt x) (JStr s)
| de_signed_text x s : - 2 ^ 63 <= x < 2 ^ 63 -> decimal x s -> describes (Signed 64) (DInt x) (JStr s)
| de_none t : describes (Optional t) (DName (lit "None")) JNull
| de_some t d j : describes t d j -> describes (Optional t) (DTuple (lit "Some") [d]) j
| de_many t l m : Forall2 (describes t) l m -> describes (Many t) (DList l) (JArr m)
| de_exactly n t l m : length l = n -> Forall2 (describes t) l m -> describes (Exactly n t) (DList l) (JArr m)
| de_entries t l m : Forall2 (fun a b => exists d, a = DTuple [] [DStr (fst b); d] /\ describes t d (snd b)) l m ->
    describes (Entries t) (DList l) (JObj m)
| de_newtype n t d j : In (n, Newtype t) declared -> describes t d j -> describes (Named n) (DTuple (lit n) [d]) j
| de_struct n fs l m : In (n, Struct fs) declared -> describes_fields fs l m -> describes (Named n) (DStruct (lit n) l) (JObj m)
| de_unit n vs v : In (n, Enum vs) declared -> In (v, Values []) vs -> describes (Named n) (DName (lit v)) (JStr (lit v))
| de_variant n vs v t d j : In (n, Enum vs) declared -> In (v, Values [t]) vs -> describes t d j ->
    describes (Named n) (DTuple (lit v) [d]) (JObj [(lit v, j)])
| de_variants n vs v ts l m : In (n, Enum vs) declared -> In (v, Values ts) vs -> (2 <= length ts)%nat -> describes_all ts l m ->
    describes (Named n) (DTuple (lit v) l) (JObj [(lit v, JArr m)])
| de_untagged n vs v t d j : In (n, Untagged vs) declared -> In (v, Values [t]) vs -> describes t d j ->
    describes (Named n) (DTuple (lit v) [d]) j
| de_untagged_fields n vs v fs l m : In (n, Untagged vs) declared -> In (v, Fields fs) vs -> describes_fields fs l m ->
    describes (Named n) (DStruct (lit v) l) (JObj m)
with describes_all : list type -> list dbg -> list json -> Prop :=
| da_nil : describes_all [] [] []
| da_cons t d j ts l m : describes t d j -> describes_all ts l m -> describes_all (t :: ts) (d :: l) (j :: m)
(** in the order of the declaration *)
with describes_fields : list (string * type) -> list (str * dbg) -> list (str * json) -> Prop :=
| df_nil : describes_fields [] [] []
| df_cons k t d j fs l m : describes t d j -> describes_fields fs l m ->
    describes_fields ((k, t) :: fs) ((lit k, d) :: l) ((lit k, j) :: m).

(** ** Kinds *)

(** the variant that a kind of attribute is decoded to: the one of the same name, but
    for three; [newer]: of version 2.23 of the game or later *)
Definition variant_of (newer : bool) (kind : string) : string :=
  if String.eqb kind "QWordString" then if newer then "String" else "QWord"
  else if String.eqb kind "PrivateMatchSettings" then "PrivateMatch"
  else if String.eqb kind "RotationTag" then "Rotation"
  else kind.
