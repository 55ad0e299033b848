(** * The width of [usize]: the same model with that width a parameter

    Generated by tools/gen_width.py from the model files.  Every definition of
    the model that uses [as_usize] is repeated here with the suffix [_w] and
    with [w], the number of bits of [usize], instead of 64; definitions that do
    not depend on it are shared.  At width 64 the copies are the originals
    (WidthProofs.v, by conversion). *)

From Coq Require Import ZArith List Bool.
From Verif Require Import Base F32 Text NetTypes SegArray Errors Core Header Body BitReader
  NetModels Attributes Data ObjectIndex FrameDecoder Network Crc Parser Display.
Open Scope Z_scope.

Section Width.
Context (w : Z).

(** core_parser.rs:102, 112; network/models.rs:270: [x as usize] on a platform
    where [usize] has [w] bits *)
Definition as_usize_w (x : Z) : Z := x mod 2 ^ w.

(** ** Core.v *)

(** core_parser.rs:97-103 *)
Definition list_of_w {A} (f : parser A) : parser (list A) :=
  let* size := raw_i32 in repeat_of (as_usize_w size) f.

(** core_parser.rs:110-113 *)
Definition parse_str_w : parser str :=
  let* size := raw_i32 in
  let* data := take_data (as_usize_w size) in
  match decode_str data with
  | inr s => ret s
  | inl e => fail (EUtf8Error e)
  end.

(** core_parser.rs:116-134; [characters * -2] cannot overflow after the range
    check, the product is in [2, 20000] *)
Definition parse_text_w : parser str :=
  let* characters := raw_i32 in
  if negb ((-10000 <=? characters) && (characters <=? 10000)) then
    fail (ETextTooLarge characters)
  else if characters <? 0 then
    let* data := take_data (as_usize_w (characters * -2)) in ret (decode_utf16 data)
  else
    let* data := take_data (as_usize_w characters) in ret (decode_windows1252 data).

(** core_parser.rs:105-107 *)
Definition text_list_w : parser (list str) := list_of_w parse_text_w.

(** ** SegArray.v *)

(** frame_decoder.rs:104-114 for keys that wrap an [i32] *)
Definition seg_insert_w {V} (k : Z) (v : V) (s : seg_array V) := raw_insert (as_usize_w k) v s.

(** network/frame_decoder.rs:108-110 *)
Definition seg_get_w {V} (k : Z) (s : seg_array V) := raw_get (as_usize_w k) s.

(** network/frame_decoder.rs:112-114 *)
Definition seg_delete_w {V} (k : Z) (s : seg_array V) := raw_delete (as_usize_w k) s.

(** ** Header.v *)

(** header.rs:81-154 and 160-164.  The [loop] is recursion on [fuel]; nested
    dictionaries are parsed with the remaining fuel.  [continue] (header.rs:110)
    is the [None] result of the inner match.  Results are consed on the way
    back instead of pushed, which is not observable because an error discards
    them. *)
Fixpoint parse_rdict_w (fuel : nat) (mode : parser_mode) {struct fuel} : parser props :=
  match fuel with
  | O => panics PanicFuel
  | S fuel' =>
      let* key := parse_str_w in
      if str_eqb key (lit "None") then ret []
      else
        let* kind := parse_str_w in
        let* _ := take_u32 "property size" in
        let* _ := take_data 4 in
        let* v :=
          (if str_eqb kind (lit "BoolProperty") then
             match mode with
             | Standard => let* d := take_data 1 in fmap Some (bool_prop d)
             | Quirks => let* d := take_data 4 in fmap Some (bool_prop d)
             end
           else if str_eqb kind (lit "ByteProperty") then
             match mode with
             | Standard =>
                 let* k := parse_str_w in
                 if str_eqb k (lit "None") then
                   let* _ := take_data 1 in ret None
                 else
                   let* value := parse_str_w in ret (Some (HByte k (Some value)))
             | Quirks => fmap (fun k => Some (HByte k None)) parse_text_w
             end
           else if str_eqb kind (lit "ArrayProperty") then
             let* size := take_i32 "array property size" in
             let* rows := repeat_of (as_usize_w size) (parse_rdict_w fuel' mode) in
             ret (Some (HArray rows))
           else if str_eqb kind (lit "FloatProperty") then
             fmap (fun l => Some (HFloat (le_Z l))) (take 4)
           else if str_eqb kind (lit "IntProperty") then
             fmap (fun l => Some (HInt (as_i32 (le_Z l)))) (take 4)
           else if str_eqb kind (lit "QWordProperty") then
             fmap (fun l => Some (HQWord (le_Z l))) (take 8)
           else if str_eqb kind (lit "NameProperty") then
             fmap (fun t => Some (HName t)) parse_text_w
           else if str_eqb kind (lit "StrProperty") then
             fmap (fun t => Some (HStr t)) parse_text_w
           else if str_eqb kind (lit "StructProperty") then
             let* name := parse_str_w in
             let* fields := parse_rdict_w fuel' mode in
             ret (Some (HStruct name fields))
           else fail (EUnexpectedProperty kind)) in
        let* rest := parse_rdict_w fuel' mode in
        ret (match v with Some p => (key, p) :: rest | None => rest end)
  end.

(** header.rs:45-73; the fuel is the number of unread bytes plus one, which
    always suffices (every iteration reads at least four bytes) *)
Definition parse_header_w : parser header :=
  let* major := take_i32 "major version" in
  let* minor := take_i32 "minor version" in
  let* net :=
    (if (865 <? major) && (17 <? minor)
     then fmap Some (take_i32 "net version") else ret None) in
  let* game_type := in_section "game type" parse_text_w in
  let* properties :=
    in_section "header properties"
      (fun s => parse_rdict_w (S (length (c_data s))) (mode_of major minor net) s) in
  ret (mkHeader major minor net game_type properties).

(** ** Body.v *)

(** parser.rs:520-527 *)
Definition parse_tickmarks_w : parser (list tick_mark) :=
  list_of_w (let* d := parse_text_w in let* f := raw_i32 in ret (mkTick d f)).

(** parser.rs:529-537 *)
Definition parse_keyframe_w : parser (list key_frame) :=
  list_of_w (let* t := raw_f32 in let* f := raw_i32 in let* p := raw_i32 in
           ret (mkKeyFrame t f p)).

(** parser.rs:539-547 *)
Definition parse_debuginfo_w : parser (list debug_info) :=
  list_of_w (let* f := raw_i32 in let* u := parse_text_w in let* t := parse_text_w in
           ret (mkDebug f u t)).

(** parser.rs:549-556 *)
Definition parse_classindex_w : parser (list class_index) :=
  list_of_w (let* c := parse_str_w in let* i := raw_i32 in ret (mkClassIndex c i)).

(** parser.rs:558-572 *)
Definition parse_classcache_w : parser (list class_net_cache) :=
  list_of_w (let* o := raw_i32 in let* p := raw_i32 in let* c := raw_i32 in
           let* ps := list_of_w (let* o := raw_i32 in let* s := raw_i32 in
                               ret (mkCacheProp o s)) in
           ret (mkNetCache o p c ps)).

(** parser.rs:461-518 *)
Definition parse_body_w : parser body :=
  let* levels := in_section "levels" text_list_w in
  let* keyframes := in_section "keyframes" parse_keyframe_w in
  let* network_size := take_i32 "network size" in
  let* network_data := in_section "network data" (take_data (as_usize_w network_size)) in
  let* debug_infos := in_section "debug info" parse_debuginfo_w in
  let* tickmarks := in_section "tickmarks" parse_tickmarks_w in
  let* packages := in_section "packages" text_list_w in
  let* objects := in_section "objects" text_list_w in
  let* names := in_section "names" text_list_w in
  let* class_index := in_section "class index" parse_classindex_w in
  let* net_cache := in_section "net cache" parse_classcache_w in
  ret (mkBody levels keyframes debug_infos tickmarks packages objects names
              class_index net_cache network_data).

(** ** Attributes.v *)

Section AttributesW.
Context (B : bitter).

(** attributes.rs:1513-1550; [checked_mul] fails when the product does not fit
    an [i32]; decoding never fails (Text.v) *)
Definition decode_text_w : ard str :=
  let* size := not_enough "text string" (read_i32 B) in
  if size =? 0 then ret []
  else if size <? 0 then
    let bytes := size * -2 in
    if fits_i32 bytes then
      let* data := (text_bytes B) size (as_usize_w bytes) in ret (decode_utf16 data)
    else fail (ATooBigString size)
  else
    let* data := (text_bytes B) size (as_usize_w size) in ret (decode_windows1252 data).

(** attributes.rs:485-531 *)
Definition product_value_decode_w (P : product_value_decoder) (obj_ind : Z) : rd unit product_value :=
  if obj_ind =? pd_color_ind P then
    if version_geb (pd_version P) (mkVersion 868 23 8) then
      fmap PVNewColor (read_u32 B)
    else
      fmap (fun x => match x with Some v => v | None => PVNoColor end)
           (if_get B (fmap (fun x => PVOldColor (as_u32 x)) (read_bits B 31)))
  else if obj_ind =? pd_painted_ind P then
    if version_geb (pd_version P) (mkVersion 868 18 0) then
      fmap (fun x => PVNewPaint (as_u32 x)) (read_bits B 31)
    else
      fmap (fun x => PVOldPaint (as_u32 x)) (read_bits_max_computed B 3 14)
  else if obj_ind =? pd_title_ind P then
    fmap PVTitle (to_option decode_text_w)
  else if obj_ind =? pd_special_edition_ind P then
    fmap (fun x => PVSpecialEdition (as_u32 x)) (read_bits B 31)
  else if obj_ind =? pd_team_edition_ind P then
    if version_geb (pd_version P) (mkVersion 868 18 0) then
      fmap (fun x => PVNewTeamEdition (as_u32 x)) (read_bits B 31)
    else
      fmap (fun x => PVOldTeamEdition (as_u32 x)) (read_bits_max_computed B 3 14)
  else ret PVAbsent.

(** attributes.rs:1445-1455 *)
Definition decode_product_w (D : attribute_decoder) : rd unit product :=
  let* unknown := read_bit B in
  let* obj_ind := read_i32 B in
  let* val := product_value_decode_w (ad_product D) obj_ind in
  ret (mkProduct unknown obj_ind val).

(** attributes.rs:1457-1483 *)
Definition inner_decode_online_loadout_w (D : attribute_decoder) : rd unit (list (list product)) :=
  let* size := read_u8 B in
  rd_repeat (Z.to_nat size)
    (let* attribute_size := read_u8 B in
     rd_repeat (Z.to_nat attribute_size) (decode_product_w D)).

(** attributes.rs:1629-1742 *)
Definition decode_unique_id_with_system_id_w (net_version system_id : Z) : ard unique_id :=
  let* remote_id :=
    (if system_id =? 0 then
       fmap (fun x => RSplitScreen (as_u32 x)) (not_enough "SplitScreen" (read_bits B 24))
     else if system_id =? 1 then fmap RSteam (not_enough "Steam" (read_u64 B))
     else if system_id =? 2 then (decode_ps4 B) net_version
     else if system_id =? 4 then fmap RXbox (not_enough "Xbox" (read_u64 B))
     else if system_id =? 5 then fmap RQQ (not_enough "QQ ID" (read_u64 B))
     else if system_id =? 6 then (decode_switch B)
     else if system_id =? 7 then (decode_psynet B) net_version
     else if system_id =? 11 then fmap REpic decode_text_w
     else fail (AUnrecognizedRemoteId system_id)) in
  let* local_id := not_enough "UniqueId local_id" (read_u8 B) in
  ret (mkUniqueId system_id remote_id local_id).

(** attributes.rs:1618-1627 *)
Definition decode_unique_id_w (net_version : Z) : ard unique_id :=
  let* system_id := not_enough "System id" (read_u8 B) in
  decode_unique_id_with_system_id_w net_version system_id.

Context (D : attribute_decoder).

Let net := v_net (ad_version D).

(** attributes.rs:893-918 *)
Definition decode_rep_stat_title_w : ard attribute :=
  let* unknown := not_enough "RepStatTitle" (read_bit B) in
  let* name := decode_text_w in
  let* unknown2 := not_enough "RepStatTitle" (read_bit B) in
  let* index := not_enough "RepStatTitle" (read_u32 B) in
  let* value := not_enough "RepStatTitle" (read_u32 B) in
  ret (ARepStatTitle (mkRepStat unknown name unknown2 index value)).

(** attributes.rs:1299-1305 *)
Definition decode_string_w : ard attribute := fmap AString decode_text_w.

(** attributes.rs:1166-1176 *)
Definition decode_qword_string_w : ard attribute :=
  if ad_is_rl_223 D then decode_string_w else (decode_qword B).

(** attributes.rs:1307-1315 *)
Definition decode_unique_id_attr_w : ard attribute := fmap AUniqueId (decode_unique_id_w net).

(** attributes.rs:1317-1361 *)
Definition decode_reservation_w : ard attribute :=
  let* number := not_enough "Reservation" (fmap as_u32 (read_bits B 3)) in
  let* unique := decode_unique_id_w net in
  let* name :=
    (if negb (ui_system_id unique =? 0) then fmap Some decode_text_w
     else if negb (is_splitscreen0 (ui_remote_id unique)) then
       fmap Some ((reservation_name B) 256 [])
     else ret None) in
  let* unknown1 := not_enough "Reservation" (read_bit B) in
  let* unknown2 := not_enough "Reservation" (read_bit B) in
  let* unknown3 :=
    (if version_geb (ad_version D) (mkVersion 868 12 0) then
       not_enough "Reservation" (fmap (fun x => Some (as_u8 (as_u32 x))) (read_bits B 6))
     else ret None) in
  ret (AReservation (mkReservation number unique name unknown1 unknown2 unknown3)).

(** attributes.rs:1363-1383 *)
Definition decode_party_leader_w : ard attribute :=
  let* system_id := not_enough "Party Leader" (read_u8 B) in
  if negb (system_id =? 0) then
    fmap (fun id => APartyLeader (Some id)) (decode_unique_id_with_system_id_w net system_id)
  else ret (APartyLeader None).

(** attributes.rs:1385-1406 *)
Definition decode_private_match_settings_w : ard attribute :=
  let* mutators := decode_text_w in
  let* joinable_by := not_enough "Private Match" (read_u32 B) in
  let* max_players := not_enough "Private Match" (read_u32 B) in
  let* game_name := decode_text_w in
  let* password := decode_text_w in
  let* flag := not_enough "Private Match" (read_bit B) in
  ret (APrivateMatch (mkPrivateMatch mutators joinable_by max_players game_name password flag)).

(** attributes.rs:1408-1416 *)
Definition decode_loadout_online_w : ard attribute :=
  not_enough "Loadout Online" (fmap ALoadoutOnline (inner_decode_online_loadout_w D)).

(** attributes.rs:1418-1443 *)
Definition decode_loadouts_online_w : ard attribute :=
  not_enough "Loadouts online"
    (let* blue := inner_decode_online_loadout_w D in
     let* orange := inner_decode_online_loadout_w D in
     let* unknown1 := read_bit B in
     let* unknown2 := read_bit B in
     ret (ALoadoutsOnline (mkLoadoutsOnline blue orange unknown1 unknown2))).

(** attributes.rs:559-611.  The tags of the fast path fall into [unreachable!()]. *)
Definition decode_uncommon_w (tag : attribute_tag) : ard attribute :=
  match tag with
  | TAppliedDamage => (decode_applied_damage B D)
  | TDamageState => (decode_damage_state B D)
  | TCamSettings => (decode_cam_settings B D)
  | TClubColors => (decode_club_colors B)
  | TDemolish => (decode_demolish B D)
  | TDemolishExtended => (decode_demolish_extended B D)
  | TDemolishFx => (decode_demolish_fx B D)
  | TEnum => (decode_enum B)
  | TExplosion => (decode_explosion_attr B D)
  | TExtendedExplosion => (decode_extended_explosion B D)
  | TFlaggedByte => (decode_flagged_byte B)
  | TFloat => (decode_float B)
  | TGameMode => (decode_game_mode B D)
  | TInt => (decode_int B)
  | TInt64 => (decode_int64 B)
  | TLoadout => (decode_loadout_attr B)
  | TTeamLoadout => (decode_team_loadout B)
  | TLocation => (decode_location B D)
  | TMusicStinger => (decode_music_stinger B)
  | TPickup => (decode_pickup B)
  | TPickupNew => (decode_pickup_new B)
  | TPlayerHistoryKey => (decode_player_history_key B)
  | TQWordString => decode_qword_string_w
  | TWelded => (decode_welded B D)
  | TTitle => (decode_title B)
  | TTeamPaint => (decode_team_paint B)
  | TNotImplemented => decode_not_implemented
  | TString => decode_string_w
  | TUniqueId => decode_unique_id_attr_w
  | TReservation => decode_reservation_w
  | TPartyLeader => decode_party_leader_w
  | TPrivateMatchSettings => decode_private_match_settings_w
  | TLoadoutOnline => decode_loadout_online_w
  | TLoadoutsOnline => decode_loadouts_online_w
  | TStatEvent => (decode_stat_event B)
  | TRotationTag => (decode_rotation B)
  | TRepStatTitle => decode_rep_stat_title_w
  | TPickupInfo => (decode_pickup_info B)
  | TImpulse => (decode_impulse B)
  | TReplicatedBoost => (decode_replicated_boost B)
  | TLogoData => (decode_logo_data B)
  | TBoolean | TByte | TActiveActor | TRigidBody => panics PanicUnreachable
  end.

(** attributes.rs:542-557 *)
Definition decode_attribute_w (tag : attribute_tag) : ard attribute :=
  match tag with
  | TRigidBody => (decode_rigid_body B D)
  | TByte => (decode_byte B)
  | TBoolean => (decode_boolean B)
  | TActiveActor => (decode_active_actor B)
  | _ => decode_uncommon_w tag
  end.

End AttributesW.

(** ** FrameDecoder.v *)

(** [actors.insert(k, v)], [actors.delete(k)], [actors.get(k)].
    network/frame_decoder.rs:240, 306, 245-247. *)
Definition actors_insert_w (k : Z) (v : Z * cache_info) : fcomp unit := fun s =>
  (Ok tt, mkFState (fs_r s) (seg_insert_w k v (fs_actors s)) (fs_new s) (fs_deleted s) (fs_updated s)).

(** network/frame_decoder.rs:306 *)
Definition actors_delete_w (k : Z) : fcomp unit := fun s =>
  (Ok tt, mkFState (fs_r s) (seg_delete_w k (fs_actors s)) (fs_new s) (fs_deleted s) (fs_updated s)).

(** network/frame_decoder.rs:245-247 *)
Definition actors_get_w (k : Z) : fcomp (option (Z * cache_info)) := fun s =>
  (Ok (seg_get_w k (fs_actors s)), s).

Section FrameDecoderW.
Context (B : bitter) (ho : hash_order) (F : frame_decoder).

(** frame_decoder.rs:137-173 *)
Definition parse_new_actor_w (actor_id : Z) : fcomp new_actor :=
  let* name_id :=
    (if (do_parse_name F) then f_not_enough "New Actor" (fmap Some (read_i32 B)) else ret None) in
  let* _ := f_not_enough "New Actor" (read_bit B) in
  let* object_id := f_not_enough "New Actor" (read_i32 B) in
  let* spawn := need (FObjectIdOutOfRange object_id) (getZ (as_usize_w object_id) (fd_spawns F)) in
  let* traj := f_not_enough "New Actor" (trajectory_from_spawn B spawn (v_net (fd_version F))) in
  ret (mkNew actor_id name_id object_id traj).

(** frame_decoder.rs:247-301: the loop over the updated attributes of an actor *)
Fixpoint attributes_loop_w (fuel : nat) (actor_id object_id : Z) (ci : cache_info) : fcomp unit :=
  match fuel with
  | O => panics PanicFuel
  | S fuel' =>
      let* more := f_not_enough "Is prop present" (read_bit B) in
      if more : bool then
        let* _ := on_reader (refill B) in
        let* la := on_reader lookahead_bits in
        if la <? ci_prop_id_bits ci + 1 then fail (FNotEnoughDataFor "Prop id")
        else
          let* stream_id_raw :=
            on_reader (peek_bits_max_computed (Z.to_nat (ci_prop_id_bits ci)) (ci_max_prop_id ci)) in
          let stream_id := as_i32 stream_id_raw in
          let* attr := need (FMissingAttribute actor_id object_id stream_id)
                            (seg_get_w stream_id (ci_attributes ci)) in
          let* attribute :=
            map_err (fun _ e => attr_error actor_id object_id stream_id e)
              (on_reader (decode_attribute_w B (attr_decoder F) (oa_attribute attr))) in
          let* _ := push_updated (mkUpdated actor_id stream_id (oa_object_id attr) attribute) in
          attributes_loop_w fuel' actor_id object_id ci
      else ret tt
  end.

(** [.and_then(|x| x.as_ref())], frame_decoder.rs:229 *)
Definition cache_of_w (object_id : Z) : option cache_info :=
  match getZ (as_usize_w object_id) (fd_object_ind_attributes F) with
  | Some (Some ci) => Some ci
  | _ => None
  end.

(** frame_decoder.rs:203-307: the loop over the actors of a frame *)
Fixpoint actors_loop_w (afuel fuel : nat) : fcomp unit :=
  match fuel with
  | O => panics PanicFuel
  | S fuel' =>
      let* more := f_not_enough "Actor data" (read_bit B) in
      if more : bool then
        let* _ := on_reader (refill B) in
        let* la := on_reader lookahead_bits in
        if la <? fd_channel_bits F + 1 + 1 then fail (FNotEnoughDataFor "Actor Id")
        else
          let* actor_id_raw :=
            on_reader (peek_bits_max_computed (Z.to_nat (fd_channel_bits F)) (fd_max_channels F)) in
          let actor_id := as_i32 actor_id_raw in
          let* alive := on_reader (peek_and_consume 1) in
          let* _ :=
            (if alive =? 1 then
               let* is_new := f_not_enough "Is new actor" (read_bit B) in
               if is_new : bool then
                 let* actor := parse_new_actor_w actor_id in
                 let* ci := need (FMissingCache actor_id (n_object_id actor))
                                 (cache_of_w (n_object_id actor)) in
                 let* _ := actors_insert_w (n_actor_id actor) (n_object_id actor, ci) in
                 push_new actor
               else
                 let* found := actors_get_w actor_id in
                 let* oc := need (FMissingActor actor_id) found in
                 attributes_loop_w afuel actor_id (fst oc) (snd oc)
             else
               let* _ := push_deleted actor_id in
               actors_delete_w actor_id) in
          actors_loop_w afuel fuel'
      else ret tt
  end.

(** frame_decoder.rs:176-344; [None] is [DecodedFrame::EndFrame] (130-134) *)
Definition decode_frame_w (fuel : nat) : fcomp (option frame) :=
  let* time := f_not_enough "Time" (read_f32 B) in
  if out_of_range time then fail (FTimeOutOfRange time)
  else
    let* delta := f_not_enough "Delta" (read_f32 B) in
    if out_of_range delta then fail (FDeltaOutOfRange delta)
    else if f32_eq time f32_zero && f32_eq delta f32_zero then ret None
    else
      let* _ := actors_loop_w fuel fuel in
      fmap Some (finish_frame time delta).

(** frame_decoder.rs:361-405: the loop; [n] is the number of frames that may
    still be pushed ([frames_len - frames.len()]) and [acc] the frames pushed so
    far, last first. *)
Fixpoint frames_loop_w (fuel n : nat) (acc : list frame) (s : fstate)
  : outcome network_error (list frame) :=
  match n with
  | O => Ok (rev acc)
  | S n' =>
      if is_empty (fs_r s) then Ok (rev acc)
      else
        match decode_frame_w fuel s with
        | (Ok None, _) => Ok (rev acc)
        | (Ok (Some f), s') => frames_loop_w fuel n' (f :: acc) s'
        | (Err e, s') => Err (NFrameError e ((frame_context_of ho F) (rev acc) s'))
        | (Panic p, _) => Panic p
        end
  end.

(** frame_decoder.rs:346-414.  The final [read_u32] of the trailer (408-411) has
    no effect on the result and is omitted. *)
Definition decode_frames_w : outcome network_error (list frame) :=
  frames_loop_w (loop_fuel F) (Z.to_nat (fd_frames_len F)) []
    (mkFState (reader_new (fd_network_data F) (repeat x00 1024)) (seg_new 200) [] [] []).

End FrameDecoderW.

(** ** Network.v *)

(** mod.rs:54-60 *)
Fixpoint seed_spawns_w (ix : object_index) (stats : list (str * spawn_trajectory)) (spawns : spawn_vec)
  : outcome network_error spawn_vec :=
  match stats with
  | [] => Ok spawns
  | (name, sp) :: t =>
      match by_name ix name with
      | None => seed_spawns_w ix t spawns
      | Some id =>
          let? spawns' := must PanicIndex (setZ (as_usize_w id) (Some sp) spawns) in
          seed_spawns_w ix t spawns'
      end
  end.

(** mod.rs:65-73: the walk up the hierarchy; returns the trajectory found (or
    [SpNone]) and the ids pushed on [parent_stack] *)
Fixpoint spawn_walk_w (spawns : spawn_vec) (ids : list Z)
  : outcome network_error (spawn_trajectory * list Z) :=
  match ids with
  | [] => Ok (SpNone, [])
  | id :: t =>
      let? cell := must PanicIndex (getZ (as_usize_w id) spawns) in
      match cell with
      | Some sp => Ok (sp, [])
      | None =>
          let? r := spawn_walk_w spawns t in
          Ok (fst r, id :: snd r)
      end
  end.

(** mod.rs:75-77 *)
Fixpoint fill_spawns_w (result : spawn_trajectory) (stack : list Z) (spawns : spawn_vec)
  : outcome network_error spawn_vec :=
  match stack with
  | [] => Ok spawns
  | id :: t =>
      let? spawns' := must PanicIndex (setZ (as_usize_w id) (Some result) spawns) in
      fill_spawns_w result t spawns'
  end.

(** mod.rs:63-78 *)
Fixpoint spread_spawns_w (ix : object_index) (objects : list str) (spawns : spawn_vec)
  : outcome network_error spawn_vec :=
  match objects with
  | [] => Ok spawns
  | name :: t =>
      let? ids := must PanicFuel (hierarchy ix name) in
      let? r := spawn_walk_w spawns ids in
      let? spawns' := fill_spawns_w (fst r) (snd r) spawns in
      spread_spawns_w ix t spawns'
  end.

(** mod.rs:51-78 *)
Definition compute_spawns_w (ix : object_index) (objects : list str) : outcome network_error spawn_vec :=
  let? seeded := seed_spawns_w ix SPAWN_STATS (repeat None (length objects)) in
  spread_spawns_w ix objects seeded.

(** mod.rs:87-97 *)
Definition attr_of_prop_w (objects : list str) (x : cache_prop) : outcome network_error (Z * object_attribute) :=
  match getZ (as_usize_w (cp_object_ind x)) objects with
  | None => Err (NStreamTooLargeIndex (cp_stream_id x) (cp_object_ind x))
  | Some name =>
      let tag := match str_assoc name ATTRIBUTES with Some t => t | None => TNotImplemented end in
      Ok (cp_stream_id x, mkObjAttr tag (cp_object_ind x))
  end.

(** mod.rs:87-106: the inner loop, pushing on [properties] *)
Fixpoint push_props_w (objects : list str) (ps : list cache_prop) (acc : list (Z * object_attribute))
  : outcome network_error (list (Z * object_attribute)) :=
  match ps with
  | [] => Ok acc
  | x :: t =>
      let? a := attr_of_prop_w objects x in
      push_props_w objects t (acc ++ [a])
  end.

(** mod.rs:82-107: [entry(key).or_default()] then pushes *)
Fixpoint build_net_properties_w (objects : list str) (caches : list class_net_cache)
    (m : amap (list (Z * object_attribute)))
  : outcome network_error (amap (list (Z * object_attribute))) :=
  match caches with
  | [] => Ok m
  | c :: t =>
      let key := nc_object_ind c in
      let old := match map_get key m with Some l => l | None => [] end in
      let? new := push_props_w objects (nc_properties c) old in
      build_net_properties_w objects t (map_insert key new m)
  end.

Section AttrsW.
Context (ho : hash_order).

(** mod.rs:128-147: the closure building a [CacheInfo] *)
Definition cache_info_of_w (attrs : amap object_attribute) : cache_info :=
  let max := saturating_succ (match max_key (ho _ attrs) with Some x => x | None => 2 end) in
  let attributes :=
    fold_left (fun a kv => seg_insert_w (fst kv) (snd kv) a) (ho _ attrs) (seg_new 64) in
  let max_bit_width := bit_width (as_u64 max) in
  mkCache (as_u32 max) (Z.max max_bit_width 1 - 1) attributes.

(** mod.rs:151-154 *)
Fixpoint store_caches_w (l : list (Z * amap object_attribute)) (v : list (option cache_info))
  : outcome network_error (list (option cache_info)) :=
  match l with
  | [] => Ok v
  | (obj, attrs) :: t =>
      let? v' := must PanicIndex (setZ (as_usize_w obj) (Some (cache_info_of_w attrs)) v) in
      store_caches_w t v'
  end.

(** mod.rs:80-154 *)
Definition compute_caches_w (ix : object_index) (objects : list str) (net_cache : list class_net_cache)
  : outcome network_error (list (option cache_info)) :=
  let? net_properties := build_net_properties_w objects net_cache [] in
  let? object_ind_attrs := (traverse_all ho) ix net_properties objects [] in
  store_caches_w (ho _ object_ind_attrs) (repeat None (length objects)).

End AttrsW.

(** mod.rs:42-194 *)
Definition network_parse_frames_w (B : bitter) (ho : hash_order) (h : header) (b : body)
  : outcome network_error (list frame) :=
  let version := version_of h in
  let ix := object_index_new (b_objects b) in
  let? spawns := compute_spawns_w ix (b_objects b) in
  let? object_ind_attributes := compute_caches_w ho ix (b_objects b) (b_net_cache b) in
  let product_decoder := product_decoder_create version ix in
  match num_frames h with
  | Some frame_len =>
      if lenZ (b_network_data b) <? as_usize_w frame_len then Err (NTooManyFrames frame_len)
      else
        decode_frames_w B ho
          (mkFrameDecoder (as_usize_w frame_len) product_decoder (max_channels_of h)
             (channel_bits_of h) (b_objects b) (b_network_data b)
             (map (fun x => match x with Some s => s | None => SpNone end) spawns)
             object_ind_attributes version (is_lan_of h) (is_rl_223_of h))
  | None => Ok []
  end.

(** ** Parser.v *)

Section ParserW.
Context (B : bitter) (ho : hash_order).

(** parser.rs:379-389 and 415-421 *)
Definition parse_network_w (np : network_parse) (h : header) (b : body) : parser (option (list frame)) :=
  fun s =>
    match np with
    | NetAlways =>
        match network_parse_frames_w B ho h b with
        | Ok fs => (Ok (Some fs), s)
        | Err e => (Err (ENetworkError e), s)
        | Panic p => (Panic p, s)
        end
    | NetIgnoreOnError =>
        match network_parse_frames_w B ho h b with
        | Ok fs => (Ok (Some fs), s)
        | Err _ => (Ok None, s)
        | Panic p => (Panic p, s)
        end
    | NetNever => (Ok None, s)
    end.

(** parser.rs:361-413 *)
Definition parse_replay_w (check : crc_check) (np : network_parse) : parser replay :=
  let* header_size := take_i32 "header size" in
  let* header_crc := take_u32 "header crc" in
  let* header_data := in_section "header data" (view_data (as_usize_w header_size)) in
  let* h := crc_section check header_data header_crc "header" parse_header_w in
  let* content_size := take_i32 "content size" in
  let* content_crc := take_u32 "content crc" in
  let* content_data := in_section "content data" (view_data (as_usize_w content_size)) in
  let* b := crc_section check content_data content_crc "body" parse_body_w in
  let* network := parse_network_w np h b in
  ret (mkReplay header_size header_crc (h_major h) (h_minor h) (h_net h) (h_game_type h)
         (h_properties h) content_size content_crc network (b_levels b) (b_keyframes b)
         (b_debug_info b) (b_tick_marks b) (b_packages b) (b_objects b) (b_names b)
         (b_class_indices b) (b_net_cache b)).

(** parser.rs:319-326 and 352-358 ([Parser::new]) *)
Definition builder_parse_w (p : parser_builder) : outcome parse_error replay :=
  fst (parse_replay_w
         (match pb_crc_check p with Some c => c | None => CrcOnError end)
         (match pb_network_parse p with Some n => n | None => NetIgnoreOnError end)
         (core_new (pb_data p))).

End ParserW.

(** ** SpecReplay.v *)

(** parser.rs:319-326: parsing with the two options given explicitly *)
Definition parse_with_w B ho (c : crc_check) (n : network_parse) (data : list byte) :
  outcome parse_error replay :=
  builder_parse_w B ho (with_network_parse n (with_crc_check c (builder_new data))).

(** ** Display.v *)

Section TextsW.
Context (show_f32 : f32 -> str) (debug_attribute : attribute -> str).

(** errors.rs:118-125 *)
Definition object_ind_to_string_w (c : frame_context) (id : Z) : str :=
  match getZ (as_usize_w id) (fc_objects c) with Some s => s | None => lit "Out of bounds" end.

(** errors.rs:127-148 *)
Definition display_new_actor_w (c : frame_context) (a : new_actor) : str :=
  say [newline;
       lit "Last new actor:"; newline;
       dashes (length (lit "Last new actor:")); newline;
       lit "actor id: "; show (n_actor_id a); newline;
       lit "name id: "; match n_name_id a with Some x => show x | None => lit "<none>" end; newline;
       lit "object id: "; show (n_object_id a); newline;
       lit "object name: "; object_ind_to_string_w c (n_object_id a); newline;
       lit "location: "; debug_location (t_location (n_traj a)); newline;
       lit "rotation: "; debug_rotation (t_rotation (n_traj a)); newline].

(** errors.rs:150-170 *)
Definition display_update_w (c : frame_context) (u : updated_attribute) : str :=
  say [newline;
       lit "Last actor update:"; newline;
       dashes (length (lit "Last actor update:")); newline;
       lit "actor id: "; show (u_actor_id u); newline;
       match map_get (u_actor_id u) (fc_actors c) with
       | Some obj =>
           say [lit "object id: "; show obj; newline;
                lit "object name: "; object_ind_to_string_w c obj; newline]
       | None => say [lit "object id: <none>"; newline]
       end;
       lit "attribute stream id: "; show (u_stream_id u); newline;
       lit "attribute object id: "; show (u_object_id u); newline;
       lit "attribute object name: "; object_ind_to_string_w c (u_object_id u); newline;
       lit "attribute: "; debug_attribute (u_attribute u); newline].

(** errors.rs:181-217 *)
Definition display_context_w (c : frame_context) : str :=
  let last_frame := last_of (fc_frames c) in
  say [lit "Current frame: "; show (lenZ (fc_frames c));
       lit " (time: "; show_f32 (match last_frame with Some f => f_time f | None => 0 end);
       lit " delta: "; show_f32 (match last_frame with Some f => f_delta f | None => 0 end);
       lit ")"; newline;
       match last_of (fc_updated_actors c) with
       | Some u => display_update_w c u
       | None =>
           match last_of (fc_new_actors c) with
           | Some a => display_new_actor_w c a
           | None =>
               say [lit "- No actor information decoded"; newline;
                    match most_recent_frame_with_data c with
                    | None => []
                    | Some (i, f) =>
                        say [lit "Retrace frame: "; show i; lit " (time: "; show_f32 (f_time f);
                             lit ", delta: "; show_f32 (f_delta f); lit ")"; newline;
                             match last_of (f_updated_actors f) with
                             | Some u => display_update_w c u
                             | None =>
                                 match last_of (f_new_actors f) with
                                 | Some a => display_new_actor_w c a
                                 | None => say [lit "- No actor information decoded"; newline]
                                 end
                             end]
                    end]
           end
       end].

(** errors.rs:284-288: an entry of the attribute table of an object *)
Definition attribute_of_w (c : frame_context) (obj stream : Z) : option object_attribute :=
  match getZ (as_usize_w obj) (fc_object_attributes c) with
  | Some (Some ci) => seg_get_w stream (ci_attributes ci)
  | _ => None
  end.

(** errors.rs:277-282, 318-324 *)
Definition names_with_stream_w (c : frame_context) (stream : Z) : list str :=
  dedup (sort (filter_map (fun a => getZ (as_usize_w (oa_object_id a)) (fc_objects c))
    (filter_map (fun o => match o with Some ci => seg_get_w stream (ci_attributes ci) | None => None end)
      (fc_object_attributes c)))).

(** errors.rs:336-352 *)
Definition display_names_w (c : frame_context) (stream : Z) : str :=
  let names := names_with_stream_w c stream in
  say [lit "searching all attributes with the same stream id, ";
       lit "unknown attributes: ["; join (unknown_of names); lit "], ";
       lit "all attributes with that stream id: ["; join (map (fun n => say [lit "("; n; lit ")"]) names); lit "]. "].

(** errors.rs:261-353: for the two errors about an attribute *)
Definition contextualize_attribute_w (c : frame_context) (obj stream : Z) : str :=
  let name := match getZ (as_usize_w obj) (fc_objects c) with Some s => s | None => lit "<none>" end in
  match attribute_of_w c obj stream with
  | Some a =>
      match oa_attribute a with
      | TNotImplemented =>
          say [lit "attribute: ";
               match getZ (as_usize_w (oa_object_id a)) (fc_objects c) with Some s => s | None => lit "<unknown>" end; newline]
      | t =>
          say [lit "found attribute ("; lit (tag_name t); lit ") on "; name; lit " in network cache data. ";
               display_names_w c stream]
      end
  | None =>
      say [lit "did not find attribute id ("; show stream; lit ") on "; name; lit " in object hierarchy: ";
           display_names_w c stream]
  end.

(** errors.rs:251-357 *)
Definition contextualize_w (c : frame_context) (e : frame_error) : str :=
  match e with
  | FMissingCache _ obj =>
      match getZ (as_usize_w obj) (fc_objects c) with Some s => say [lit "("; s; lit ")"] | None => [] end
  | FMissingAttribute _ obj stream => contextualize_attribute_w c obj stream
  | FAttributeError _ obj stream _ => contextualize_attribute_w c obj stream
  | _ => []
  end.

(** errors.rs:409-444 *)
Definition display_network_error_w (e : network_error) : str :=
  match e with
  | NNotEnoughDataFor what => say [lit "Not enough data to decode "; lit what]
  | NObjectIdOutOfRange id => say [lit "Object Id of "; show id; lit " exceeds range"]
  | NStreamTooLargeIndex s o =>
      say [lit "Stream id of "; show s; lit " references out of range object index: "; show o]
  | NMissingParentClass o p =>
      say [lit "Replay contained object: "; o; lit " but not the parent class: "; p]
  | NParentHasNoAttributes p o =>
      say [lit "Parent id of "; show p; lit " for object id of "; show o; lit " was not recognized to have attributes"]
  | NTooManyFrames n => say [lit "Too many frames to decode: "; show n]
  | NFrameError x c =>
      say [lit "Error decoding frame: "; (display_frame_error show_f32) x;
           match x with FMissingAttribute _ _ _ => [] | _ => lit ". " end;
           contextualize_w c x; newline;
           display_context_w c]
  end.

(** errors.rs:24-58 *)
Fixpoint display_parse_error_w (e : parse_error) : str :=
  match e with
  | EUtf8Error x => say [lit "Unable decode data as utf8: "; show_utf8 x]
  | ETextTooLarge n => say [lit "Text of size "; show n; lit " is too large"]
  | EInsufficientData want have =>
      say [lit "Insufficient data. Expected "; show want; lit " bytes, but only "; show have; lit " left"]
  | EUnexpectedProperty p => say [lit "Did not expect a property of: "; p]
  | ECrcMismatch want found =>
      say [lit "Crc mismatch. Expected "; show want; lit " but received "; show found]
  | ECorruptReplay section _ =>
      say [lit "Failed to parse "; lit section; lit " and crc check failed. Replay is corrupt"]
  | EListTooLarge n => say [lit "list of size "; show n; lit " is too large"]
  | EParseError section at_ e' =>
      say [lit "Could not decode replay "; lit section; lit " at offset ("; show at_; lit "): "; display_parse_error_w e']
  | ENetworkError x => display_network_error_w x
  end.

End TextsW.

End Width.
