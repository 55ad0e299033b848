(** * Attribute decoders: model of /repo/src/network/attributes.rs

    [Option]-returning functions are computations with error type [unit].
    Boxing is dropped. *)

From Coq Require Import ZArith List Bool.
From Verif Require Import Base Text F32 NetTypes Errors BitReader NetModels.
Open Scope Z_scope.

(** attributes.rs:447-455 *)
Record product_value_decoder := mkProductDecoder {
  pd_version : version; pd_color_ind : Z; pd_painted_ind : Z;
  pd_special_edition_ind : Z; pd_team_edition_ind : Z; pd_title_ind : Z }.

(** attributes.rs:534-539 *)
Record attribute_decoder := mkAttrDecoder {
  ad_version : version; ad_product : product_value_decoder; ad_is_rl_223 : bool }.

(** A function returning [Result<A, AttributeError>]. e.g.
    network/attributes.rs:613-616. *)
Definition ard (A : Type) : Type := rd attribute_error A.

(** [.ok_or(AttributeError::NotEnoughDataFor(what))]. network/attributes.rs:619;
    macros.rs:2. *)
Definition not_enough {A} (what : string) (m : rd unit A) : ard A :=
  ok_or (ANotEnoughDataFor what) m.

Section Attributes.
Context (B : bitter).

(** ** Text *)

(** attributes.rs:1533-1535 (and 1541-1543): [if bytes > buf.len() ||
    !bits.read_bytes(&mut buf[..bytes]) { Err(TooBigString(size)) }], giving the
    bytes read *)
Definition text_bytes (size bytes : Z) : ard (list byte) :=
  let* n := buf_len in
  if n <? bytes then fail (ATooBigString size)
  else
    let* _ := ok_or (ATooBigString size) (read_bytes B (Z.to_nat bytes)) in
    buf_slice (Z.to_nat bytes).

(** attributes.rs:1513-1550; [checked_mul] fails when the product does not fit
    an [i32]; decoding never fails (Text.v) *)
Definition decode_text : ard str :=
  let* size := not_enough "text string" (read_i32 B) in
  if size =? 0 then ret []
  else if size <? 0 then
    let bytes := size * -2 in
    if fits_i32 bytes then
      let* data := text_bytes size (as_usize bytes) in ret (decode_utf16 data)
    else fail (ATooBigString size)
  else
    let* data := text_bytes size (as_usize size) in ret (decode_windows1252 data).

(** ** Products *)

(** attributes.rs:485-531 *)
Definition product_value_decode (P : product_value_decoder) (obj_ind : Z) : rd unit product_value :=
  if obj_ind =? pd_color_ind P then
    if version_geb (pd_version P) (mkVersion 868 23 8) then
      fmap PVNewColor (read_u32 B)
    else
      fmap (fun x => match x with Some v => v | None => PVNoColor end)
           (if_get B (fmap (fun x => PVOldColor (as_u32 x)) (read_bits B 31)))
  else if obj_ind =? pd_painted_ind P then
    if version_geb (pd_version P) (mkVersion 868 18 0) then
      fmap (fun x => PVNewPaint (as_u32 x)) (read_bits B 31)
    else
      fmap (fun x => PVOldPaint (as_u32 x)) (read_bits_max_computed B 3 14)
  else if obj_ind =? pd_title_ind P then
    fmap PVTitle (to_option decode_text)
  else if obj_ind =? pd_special_edition_ind P then
    fmap (fun x => PVSpecialEdition (as_u32 x)) (read_bits B 31)
  else if obj_ind =? pd_team_edition_ind P then
    if version_geb (pd_version P) (mkVersion 868 18 0) then
      fmap (fun x => PVNewTeamEdition (as_u32 x)) (read_bits B 31)
    else
      fmap (fun x => PVOldTeamEdition (as_u32 x)) (read_bits_max_computed B 3 14)
  else ret PVAbsent.

(** attributes.rs:1445-1455 *)
Definition decode_product (D : attribute_decoder) : rd unit product :=
  let* unknown := read_bit B in
  let* obj_ind := read_i32 B in
  let* val := product_value_decode (ad_product D) obj_ind in
  ret (mkProduct unknown obj_ind val).

(** [for _ in 0..n { v.push(f(bits)?) }]. network/attributes.rs:1467-1469. *)
Fixpoint rd_repeat {E A} (n : nat) (f : rd E A) : rd E (list A) :=
  match n with
  | O => ret []
  | S n' => let* x := f in let* xs := rd_repeat n' f in ret (x :: xs)
  end.

(** attributes.rs:1457-1483 *)
Definition inner_decode_online_loadout (D : attribute_decoder) : rd unit (list (list product)) :=
  let* size := read_u8 B in
  rd_repeat (Z.to_nat size)
    (let* attribute_size := read_u8 B in
     rd_repeat (Z.to_nat attribute_size) (decode_product D)).

(** ** Unique ids *)

(** [take_while(|&&x| x != 0)], attributes.rs:1650-1654 *)
Fixpoint until_nul (l : list byte) : list byte :=
  match l with
  | [] => []
  | b :: t => if byteZ b =? 0 then [] else b :: until_nul t
  end.

(** attributes.rs:1642-1681: [system_id] 2 *)
Definition decode_ps4 (net_version : Z) : ard remote_id :=
  let* _ := not_enough "PS4 Name" (read_bytes B 16) in
  let* name_bytes := buf_slice 16 in
  let name := decode_cp1252 (until_nul name_bytes) in
  let to_read := if 1 <=? net_version then 16%nat else 8%nat in
  let* _ := not_enough "PS4 Unknown" (read_bytes B to_read) in
  let* online_id := not_enough "PS4 ID" (read_u64 B) in
  let* unknown1 := buf_slice to_read in
  ret (RPlayStation online_id name unknown1).

(** attributes.rs:1690-1704: [system_id] 6 *)
Definition decode_switch : ard remote_id :=
  let* online_id := not_enough "Switch ID" (read_u64 B) in
  let* _ := not_enough "Switch ID Unknown" (read_bytes B 24) in
  let* unknown1 := buf_slice 24 in
  ret (RSwitch online_id unknown1).

(** attributes.rs:1705-1726: [system_id] 7 *)
Definition decode_psynet (net_version : Z) : ard remote_id :=
  let* online_id := not_enough "PsyNet ID" (read_u64 B) in
  if net_version <? 10 then
    let* _ := not_enough "PsyNet ID Unknown" (read_bytes B 24) in
    let* unknown1 := buf_slice 24 in
    ret (RPsyNet online_id unknown1)
  else ret (RPsyNet online_id []).

(** attributes.rs:1629-1742 *)
Definition decode_unique_id_with_system_id (net_version system_id : Z) : ard unique_id :=
  let* remote_id :=
    (if system_id =? 0 then
       fmap (fun x => RSplitScreen (as_u32 x)) (not_enough "SplitScreen" (read_bits B 24))
     else if system_id =? 1 then fmap RSteam (not_enough "Steam" (read_u64 B))
     else if system_id =? 2 then decode_ps4 net_version
     else if system_id =? 4 then fmap RXbox (not_enough "Xbox" (read_u64 B))
     else if system_id =? 5 then fmap RQQ (not_enough "QQ ID" (read_u64 B))
     else if system_id =? 6 then decode_switch
     else if system_id =? 7 then decode_psynet net_version
     else if system_id =? 11 then fmap REpic decode_text
     else fail (AUnrecognizedRemoteId system_id)) in
  let* local_id := not_enough "UniqueId local_id" (read_u8 B) in
  ret (mkUniqueId system_id remote_id local_id).

(** attributes.rs:1618-1627 *)
Definition decode_unique_id (net_version : Z) : ard unique_id :=
  let* system_id := not_enough "System id" (read_u8 B) in
  decode_unique_id_with_system_id net_version system_id.

(** ** Loadouts *)

(** attributes.rs:1552-1559 *)
Definition decode_loadout_specials : rd unit (option Z * option Z * option Z) :=
  let* engine_audio := read_u32 B in
  let* trail := read_u32 B in
  let* goal_explosion := read_u32 B in
  ret (Some engine_audio, Some trail, Some goal_explosion).

(** [if cond { Some(bits.read_u32()?) } else { None }].
    network/attributes.rs:1570-1590. *)
Definition opt_u32 (cond : bool) : rd unit (option Z) :=
  if cond then fmap Some (read_u32 B) else ret None.

(** attributes.rs:1561-1616 *)
Definition decode_loadout : rd unit loadout :=
  let* version := read_u8 B in
  let* body := read_u32 B in
  let* decal := read_u32 B in
  let* wheels := read_u32 B in
  let* rocket_trail := read_u32 B in
  let* antenna := read_u32 B in
  let* topper := read_u32 B in
  let* unknown1 := read_u32 B in
  let* unknown2 := opt_u32 (10 <? version) in
  let* specials :=
    (if 16 <=? version then decode_loadout_specials else ret (None, None, None)) in
  let* banner := opt_u32 (17 <=? version) in
  let* product_id := opt_u32 (19 <=? version) in
  let* _ :=
    (if 22 <=? version then
       let* _ := read_u32 B in
       let* _ := read_u32 B in
       let* _ := read_u32 B in ret tt
     else ret tt) in
  ret (mkLoadout version body decal wheels rocket_trail antenna topper unknown1
        unknown2 (fst (fst specials)) (snd (fst specials)) (snd specials)
        banner product_id).

(** attributes.rs:1502-1511 *)
Definition decode_explosion (net_version : Z) : rd unit explosion :=
  let* flag := read_bit B in
  let* actor := read_i32 B in
  let* location := vector3f_decode B net_version in
  ret (mkExplosion flag actor location).

(** ** Methods of [AttributeDecoder] *)

Context (D : attribute_decoder).
(** [self.version.net_version()], network/attributes.rs:660, 1258 *)
Let net := v_net (ad_version D).

(** attributes.rs:613-620 *)
Definition decode_byte : ard attribute :=
  not_enough "Byte" (fmap AByte (read_u8 B)).

(** attributes.rs:622-630 *)
Definition decode_player_history_key : ard attribute :=
  not_enough "PlayerHistoryKey"
    (fmap (fun x => APlayerHistoryKey (as_u16 x)) (read_bits B 14)).

(** attributes.rs:632-644 *)
Definition decode_flagged_byte : ard attribute :=
  not_enough "FlaggedByte"
    (let* b := read_bit B in
     let* data := read_u8 B in
     ret (AFlaggedByte b data)).

(** attributes.rs:646-653 *)
Definition decode_boolean : ard attribute :=
  not_enough "Boolean" (fmap ABoolean (read_bit B)).

(** attributes.rs:655-678 *)
Definition decode_applied_damage : ard attribute :=
  not_enough "Applied Damage"
    (let* id := read_u8 B in
     let* position := vector3f_decode B net in
     let* damage_index := read_i32 B in
     let* total_damage := read_i32 B in
     ret (AAppliedDamage (mkApplied id position damage_index total_damage))).

(** attributes.rs:680-704 *)
Definition decode_damage_state : ard attribute :=
  not_enough "Damage State"
    (let* tile_state := read_u8 B in
     let* damaged := read_bit B in
     let* offender := read_i32 B in
     let* ball_position := vector3f_decode B net in
     let* direct_hit := read_bit B in
     let* unknown1 := read_bit B in
     ret (ADamageState (mkDamage tile_state damaged offender ball_position direct_hit unknown1))).

(** attributes.rs:706-738 *)
Definition decode_cam_settings : ard attribute :=
  not_enough "Cam Settings"
    (let* fov := read_f32 B in
     let* height := read_f32 B in
     let* angle := read_f32 B in
     let* distance := read_f32 B in
     let* stiffness := read_f32 B in
     let* swivel := read_f32 B in
     let* transition :=
       (if version_geb (ad_version D) (mkVersion 868 20 0)
        then fmap Some (read_f32 B) else ret None) in
     ret (ACamSettings (mkCam fov height angle distance stiffness swivel transition))).

(** attributes.rs:740-760 *)
Definition decode_club_colors : ard attribute :=
  not_enough "Club Colors"
    (let* blue_flag := read_bit B in
     let* blue_color := read_u8 B in
     let* orange_flag := read_bit B in
     let* orange_color := read_u8 B in
     ret (AClubColors (mkClub blue_flag blue_color orange_flag orange_color))).

(** attributes.rs:762-787 *)
Definition decode_demolish : ard attribute :=
  not_enough "Demolish"
    (let* attacker_flag := read_bit B in
     let* attacker := read_i32 B in
     let* victim_flag := read_bit B in
     let* victim := read_i32 B in
     let* attack_velocity := vector3f_decode B net in
     let* victim_velocity := vector3f_decode B net in
     ret (ADemolish (mkDemolish attacker_flag attacker victim_flag victim
                       attack_velocity victim_velocity))).

(** attributes.rs:789-819 *)
Definition decode_demolish_fx : ard attribute :=
  not_enough "DemolishFx"
    (let* custom_demo_flag := read_bit B in
     let* custom_demo_id := read_i32 B in
     let* attacker_flag := read_bit B in
     let* attacker := read_i32 B in
     let* victim_flag := read_bit B in
     let* victim := read_i32 B in
     let* attack_velocity := vector3f_decode B net in
     let* victim_velocity := vector3f_decode B net in
     ret (ADemolishFx (mkDemolishFx custom_demo_flag custom_demo_id attacker_flag attacker
                         victim_flag victim attack_velocity victim_velocity))).

(** attributes.rs:1012-1021 *)
Definition active_actor_inner : rd unit active_actor :=
  let* _ := refill B in
  let* la := lookahead_bits in
  if la <? 33 then fail tt
  else
    let* active := peek_and_consume 1 in
    let* actor := peek_and_consume 32 in
    ret (mkActive (active =? 1) (as_i32 actor)).

(** attributes.rs:1023-1030 *)
Definition decode_active_actor : ard attribute :=
  not_enough "Active Actor" (fmap AActiveActor active_actor_inner).

(** attributes.rs:821-854 *)
Definition decode_demolish_extended : ard attribute :=
  not_enough "DemolishExtended"
    (let* attacker_pri := active_actor_inner in
     let* self_demo := active_actor_inner in
     let* self_demolish := read_bit B in
     let* goal_explosion_owner := active_actor_inner in
     let* attacker := active_actor_inner in
     let* victim := active_actor_inner in
     let* attacker_velocity := vector3f_decode B net in
     let* victim_velocity := vector3f_decode B net in
     ret (ADemolishExtended (mkDemolishExt attacker_pri self_demo self_demolish
            goal_explosion_owner attacker victim attacker_velocity victim_velocity))).

(** attributes.rs:856-864 *)
Definition decode_enum : ard attribute :=
  not_enough "Enum" (fmap (fun x => AEnum (as_u16 x)) (read_bits B 11)).

(** attributes.rs:866-873 *)
Definition decode_explosion_attr : ard attribute :=
  not_enough "Explosion" (fmap AExplosion (decode_explosion net)).

(** attributes.rs:875-891 *)
Definition decode_stat_event : ard attribute :=
  not_enough "Stat Event"
    (let* unknown1 := read_bit B in
     let* object_id := read_i32 B in
     ret (AStatEvent (mkStat unknown1 object_id))).

(** attributes.rs:893-918 *)
Definition decode_rep_stat_title : ard attribute :=
  let* unknown := not_enough "RepStatTitle" (read_bit B) in
  let* name := decode_text in
  let* unknown2 := not_enough "RepStatTitle" (read_bit B) in
  let* index := not_enough "RepStatTitle" (read_u32 B) in
  let* value := not_enough "RepStatTitle" (read_u32 B) in
  ret (ARepStatTitle (mkRepStat unknown name unknown2 index value)).

(** attributes.rs:920-941 *)
Definition decode_pickup_info : ard attribute :=
  not_enough "Pickup Info"
    (let* a := active_actor_inner in
     let* b := active_actor_inner in
     let* c := active_actor_inner in
     let* items_are_preview := read_bit B in
     ret (APickupInfo (mkPickupInfo a b c items_are_preview))).

(** attributes.rs:943-959 *)
Definition decode_impulse : ard attribute :=
  let* compressed_rotation := not_enough "Impulse" (read_i32 B) in
  let* speed := not_enough "Impulse" (read_f32 B) in
  ret (AImpulse (mkImpulse compressed_rotation speed)).

(** attributes.rs:961-987 *)
Definition decode_replicated_boost : ard attribute :=
  let* grant_count := not_enough "ReplicatedBoost" (read_u8 B) in
  let* boost_amount := not_enough "ReplicatedBoost" (read_u8 B) in
  let* unused1 := not_enough "ReplicatedBoost" (read_u8 B) in
  let* unused2 := not_enough "ReplicatedBoost" (read_u8 B) in
  ret (AReplicatedBoost (mkBoost grant_count boost_amount unused1 unused2)).

(** attributes.rs:989-1010 *)
Definition decode_extended_explosion : ard attribute :=
  not_enough "Extended Explosion"
    (let* explosion := decode_explosion net in
     let* unknown1 := read_bit B in
     let* secondary_actor := read_i32 B in
     ret (AExtendedExplosion (mkExtExplosion explosion unknown1 secondary_actor))).

(** attributes.rs:1032-1039 *)
Definition decode_float : ard attribute :=
  not_enough "Float" (fmap AFloat (read_f32 B)).

(** attributes.rs:1041-1055 *)
Definition decode_game_mode : ard attribute :=
  let init := if negb (version_geb (ad_version D) (mkVersion 868 12 0)) then 2 else 8 in
  not_enough "Game Mode"
    (fmap (fun x => AGameMode init (as_u8 x)) (read_bits B (Z.to_nat init))).

(** attributes.rs:1057-1064 *)
Definition decode_int : ard attribute :=
  not_enough "Int" (fmap AInt (read_i32 B)).

(** attributes.rs:1066-1073 *)
Definition decode_int64 : ard attribute :=
  not_enough "Int64" (fmap AInt64 (read_i64 B)).

(** attributes.rs:1075-1083 *)
Definition decode_loadout_attr : ard attribute :=
  not_enough "Loadout" (fmap ALoadout decode_loadout).

(** attributes.rs:1085-1096 *)
Definition decode_team_loadout : ard attribute :=
  let* blue := not_enough "Team Loadout" decode_loadout in
  let* orange := not_enough "Team Loadout" decode_loadout in
  ret (ATeamLoadout (mkTeamLoadout blue orange)).

(** attributes.rs:1098-1105 *)
Definition decode_location : ard attribute :=
  not_enough "Location" (fmap ALocation (vector3f_decode B net)).

(** attributes.rs:1107-1121 *)
Definition decode_music_stinger : ard attribute :=
  not_enough "Music Stinger"
    (let* flag := read_bit B in
     let* cue := read_u32 B in
     let* trigger := read_u8 B in
     ret (AMusicStinger (mkStinger flag cue trigger))).

(** attributes.rs:1123-1138 *)
Definition decode_pickup : ard attribute :=
  let* instigator := not_enough "Pickup" (if_get B (read_i32 B)) in
  let* picked_up := not_enough "Pickup" (read_bit B) in
  ret (APickup (mkPickup instigator picked_up)).

(** attributes.rs:1140-1155 *)
Definition decode_pickup_new : ard attribute :=
  let* instigator := not_enough "PickupNew" (if_get B (read_i32 B)) in
  let* picked_up := not_enough "PickupNew" (read_u8 B) in
  ret (APickupNew (mkPickupNew instigator picked_up)).

(** attributes.rs:1157-1164 *)
Definition decode_qword : ard attribute :=
  not_enough "QWord" (fmap AQWord (read_u64 B)).

(** attributes.rs:1299-1305 *)
Definition decode_string : ard attribute := fmap AString decode_text.

(** attributes.rs:1166-1176 *)
Definition decode_qword_string : ard attribute :=
  if ad_is_rl_223 D then decode_string else decode_qword.

(** attributes.rs:1178-1200 *)
Definition decode_welded : ard attribute :=
  not_enough "Welded"
    (let* active := read_bit B in
     let* actor := read_i32 B in
     let* offset := vector3f_decode B net in
     let* mass := read_f32 B in
     let* rotation := rotation_decode B in
     ret (AWelded (mkWelded active actor offset mass rotation))).

(** attributes.rs:1202-1208 *)
Definition decode_rotation : ard attribute :=
  let* rot := not_enough "Rotation" (rotation_decode B) in ret (ARotation rot).

(** attributes.rs:1210-1229 *)
Definition decode_title : ard attribute :=
  not_enough "Title"
    (let* unknown1 := read_bit B in
     let* unknown2 := read_bit B in
     let* unknown3 := read_u32 B in
     let* unknown4 := read_u32 B in
     let* unknown5 := read_u32 B in
     let* unknown6 := read_u32 B in
     let* unknown7 := read_u32 B in
     let* unknown8 := read_bit B in
     ret (ATitle unknown1 unknown2 unknown3 unknown4 unknown5 unknown6 unknown7 unknown8)).

(** attributes.rs:1231-1254 *)
Definition decode_team_paint : ard attribute :=
  not_enough "Team Paint"
    (let* team := read_u8 B in
     let* primary_color := read_u8 B in
     let* accent_color := read_u8 B in
     let* primary_finish := read_u32 B in
     let* accent_finish := read_u32 B in
     ret (ATeamPaint (mkTeamPaint team primary_color accent_color primary_finish accent_finish))).

(** attributes.rs:1256-1290.  Lines 1270-1271 read
    [Some(Vector3f::decode(..))?]: the [?] unwraps the outer [Some], so a vector
    that fails to decode yields [None] and decoding goes on. *)
Definition decode_rigid_body : ard attribute :=
  not_enough "Rigid Body"
    (let* sleeping := read_bit B in
     let* location := vector3f_decode B net in
     let* rotation := (if 7 <=? net then quat_decode B else quat_decode_compressed B) in
     if sleeping : bool then
       ret (ARigidBody (mkRigid sleeping location rotation None None))
     else
       let* linear_velocity := attempt (vector3f_decode B net) in
       let* angular_velocity := attempt (vector3f_decode B net) in
       ret (ARigidBody (mkRigid sleeping location rotation linear_velocity angular_velocity))).

(** attributes.rs:1292-1297 *)
Definition decode_not_implemented : ard attribute := fail AUnimplemented.

(** attributes.rs:1307-1315 *)
Definition decode_unique_id_attr : ard attribute := fmap AUniqueId (decode_unique_id net).

(** attributes.rs:1332-1338: [while result.len() < 255]; every iteration that
    continues appends at least one byte, 256 rounds of fuel suffice *)
Fixpoint reservation_name (fuel : nat) (result : str) : ard str :=
  if lenZ result <? 255 then
    match fuel with
    | O => panics PanicFuel
    | S fuel' =>
        let* c := not_enough "Reservation" (read_u8 B) in
        if c =? 0 then ret result
        else reservation_name fuel' (result ++ utf8_char c)
    end
  else ret result.

(** [unique.remote_id != RemoteId::SplitScreen(0)], attributes.rs:1327 *)
Definition is_splitscreen0 (r : remote_id) : bool :=
  match r with RSplitScreen x => x =? 0 | _ => false end.

(** attributes.rs:1317-1361 *)
Definition decode_reservation : ard attribute :=
  let* number := not_enough "Reservation" (fmap as_u32 (read_bits B 3)) in
  let* unique := decode_unique_id net in
  let* name :=
    (if negb (ui_system_id unique =? 0) then fmap Some decode_text
     else if negb (is_splitscreen0 (ui_remote_id unique)) then
       fmap Some (reservation_name 256 [])
     else ret None) in
  let* unknown1 := not_enough "Reservation" (read_bit B) in
  let* unknown2 := not_enough "Reservation" (read_bit B) in
  let* unknown3 :=
    (if version_geb (ad_version D) (mkVersion 868 12 0) then
       not_enough "Reservation" (fmap (fun x => Some (as_u8 (as_u32 x))) (read_bits B 6))
     else ret None) in
  ret (AReservation (mkReservation number unique name unknown1 unknown2 unknown3)).

(** attributes.rs:1363-1383 *)
Definition decode_party_leader : ard attribute :=
  let* system_id := not_enough "Party Leader" (read_u8 B) in
  if negb (system_id =? 0) then
    fmap (fun id => APartyLeader (Some id)) (decode_unique_id_with_system_id net system_id)
  else ret (APartyLeader None).

(** attributes.rs:1385-1406 *)
Definition decode_private_match_settings : ard attribute :=
  let* mutators := decode_text in
  let* joinable_by := not_enough "Private Match" (read_u32 B) in
  let* max_players := not_enough "Private Match" (read_u32 B) in
  let* game_name := decode_text in
  let* password := decode_text in
  let* flag := not_enough "Private Match" (read_bit B) in
  ret (APrivateMatch (mkPrivateMatch mutators joinable_by max_players game_name password flag)).

(** attributes.rs:1408-1416 *)
Definition decode_loadout_online : ard attribute :=
  not_enough "Loadout Online" (fmap ALoadoutOnline (inner_decode_online_loadout D)).

(** attributes.rs:1418-1443 *)
Definition decode_loadouts_online : ard attribute :=
  not_enough "Loadouts online"
    (let* blue := inner_decode_online_loadout D in
     let* orange := inner_decode_online_loadout D in
     let* unknown1 := read_bit B in
     let* unknown2 := read_bit B in
     ret (ALoadoutsOnline (mkLoadoutsOnline blue orange unknown1 unknown2))).

(** attributes.rs:1485-1499 *)
Definition decode_logo_data : ard attribute :=
  let* logo_id := not_enough "LogoData" (read_u32 B) in
  let* swap_colors := not_enough "LogoData" (read_bit B) in
  ret (ALogoData (mkLogo logo_id swap_colors)).

(** attributes.rs:559-611.  The tags of the fast path fall into [unreachable!()]. *)
Definition decode_uncommon (tag : attribute_tag) : ard attribute :=
  match tag with
  | TAppliedDamage => decode_applied_damage
  | TDamageState => decode_damage_state
  | TCamSettings => decode_cam_settings
  | TClubColors => decode_club_colors
  | TDemolish => decode_demolish
  | TDemolishExtended => decode_demolish_extended
  | TDemolishFx => decode_demolish_fx
  | TEnum => decode_enum
  | TExplosion => decode_explosion_attr
  | TExtendedExplosion => decode_extended_explosion
  | TFlaggedByte => decode_flagged_byte
  | TFloat => decode_float
  | TGameMode => decode_game_mode
  | TInt => decode_int
  | TInt64 => decode_int64
  | TLoadout => decode_loadout_attr
  | TTeamLoadout => decode_team_loadout
  | TLocation => decode_location
  | TMusicStinger => decode_music_stinger
  | TPickup => decode_pickup
  | TPickupNew => decode_pickup_new
  | TPlayerHistoryKey => decode_player_history_key
  | TQWordString => decode_qword_string
  | TWelded => decode_welded
  | TTitle => decode_title
  | TTeamPaint => decode_team_paint
  | TNotImplemented => decode_not_implemented
  | TString => decode_string
  | TUniqueId => decode_unique_id_attr
  | TReservation => decode_reservation
  | TPartyLeader => decode_party_leader
  | TPrivateMatchSettings => decode_private_match_settings
  | TLoadoutOnline => decode_loadout_online
  | TLoadoutsOnline => decode_loadouts_online
  | TStatEvent => decode_stat_event
  | TRotationTag => decode_rotation
  | TRepStatTitle => decode_rep_stat_title
  | TPickupInfo => decode_pickup_info
  | TImpulse => decode_impulse
  | TReplicatedBoost => decode_replicated_boost
  | TLogoData => decode_logo_data
  | TBoolean | TByte | TActiveActor | TRigidBody => panics PanicUnreachable
  end.

(** attributes.rs:542-557 *)
Definition decode_attribute (tag : attribute_tag) : ard attribute :=
  match tag with
  | TRigidBody => decode_rigid_body
  | TByte => decode_byte
  | TBoolean => decode_boolean
  | TActiveActor => decode_active_actor
  | _ => decode_uncommon tag
  end.

End Attributes.
