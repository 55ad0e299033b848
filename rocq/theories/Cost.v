(** * The frame decoder with its operations counted

    Generated by tools/gen_cost.py from the model files.  Every definition of the
    model that works on the bit reader is repeated here with the suffix [_c] and a
    counter beside the state.  Each call of the bit reader counts as one, and one
    more for each byte copied by [read_bytes] and for each byte of the scratch buffer
    looked at; so does each operation on the table of actors and each record pushed.
    Without the counter the copies are the originals (CostProofs.v). *)

From Coq Require Import ZArith List Bool.
From Verif Require Import Base F32 Text NetTypes SegArray Errors BitReader NetModels Attributes Data ObjectIndex FrameDecoder.
Open Scope Z_scope.

(** a state and a counter; there is no such thing in the code, network/frame_decoder.rs:346-414 *)
Definition counted (S : Type) : Type := S * Z.
(** an operation of cost [k], e.g. network/frame_decoder.rs:210 *)
Definition op {S E A} (k : Z) (m : comp S E A) : comp (counted S) E A := fun s =>
  let '(o, s') := m (fst s) in (o, (s', snd s + k)).

(** ** BitReader.v *)

(** A function on the reader returning [Option<A>] ([E] = unit) or
    [Result<A, E>]. e.g. bits.rs:11. *)
Definition rd_c (E A : Type) : Type := comp (counted rs) E A.

Section ReaderC.
Context (B : bitter).

(** [BitReader::refill_lookahead]. network/models.rs:40, 60;
    network/frame_decoder.rs:210. *)
Definition refill_c {E} : rd_c E unit := op 1 (refill B).

(** [BitReader::lookahead_bits]. network/models.rs:61; network/frame_decoder.rs:211. *)
Definition lookahead_bits_c {E} : rd_c E Z := op 1 lookahead_bits.

(** [BitReader::read_bits(n)], n <= 64.  After a failure the position is not
    specified by bitter; the model leaves it unchanged, which is not observable
    because every caller in /repo gives up. bits.rs:52; network/attributes.rs:626. *)
Definition read_bits_c (n : nat) : rd_c unit Z := op 1 (read_bits B n).

(** [BitReader::read_bit] and the fixed-width readers. network/attributes.rs:633. *)
Definition read_bit_c : rd_c unit bool := fmap (fun x => negb (x =? 0)) (read_bits_c 1).

(** network/attributes.rs:617 *)
Definition read_u8_c : rd_c unit Z := read_bits_c 8.

(** network/models.rs:201 *)
Definition read_i8_c : rd_c unit Z := fmap as_i8 (read_bits_c 8).

(** network/attributes.rs:906 *)
Definition read_u32_c : rd_c unit Z := read_bits_c 32.

(** network/attributes.rs:1061 *)
Definition read_i32_c : rd_c unit Z := fmap as_i32 (read_bits_c 32).

(** network/attributes.rs:1161 *)
Definition read_u64_c : rd_c unit Z := read_bits_c 64.

(** network/attributes.rs:1070 *)
Definition read_i64_c : rd_c unit Z := fmap as_i64 (read_bits_c 64).

(** the bit pattern of the [f32]. network/attributes.rs:707. *)
Definition read_f32_c : rd_c unit Z := read_bits_c 32.

(** [BitReader::peek] followed by [BitReader::consume] (bits.rs:19-23); bitter
    asserts that the bits are in the lookahead and are at most 56. *)
Definition peek_and_consume_c {E} (n : nat) : rd_c E Z := op 1 (peek_and_consume n).

(** [BitReader::has_bits_remaining(n)]. network/models.rs:69. *)
Definition has_bits_remaining_c {E} (n : nat) : rd_c E bool := op 1 (has_bits_remaining n).

(** [BitReader::unbuffered_bytes_remaining() >= n]. network/models.rs:39. *)
Definition unbuffered_at_least_c {E} (n : nat) : rd_c E bool := op 1 (unbuffered_at_least n).

(** [bits.read_bytes(&mut buf[..n])]: panics when the slice is out of range;
    fails when fewer than [n] bytes remain; otherwise fills the slice.
    network/attributes.rs:1531. *)
Definition read_bytes_c (n : nat) : rd_c unit unit := fun s =>
  op (1 + Z.min (Z.of_nat n) (lenZ (buf (fst s)))) (read_bytes B n) s.

(** [&buf[..n]]. network/attributes.rs:1533, 1543. *)
Definition buf_slice_c {E} (n : nat) : rd_c E (list byte) := fun s =>
  op (Z.min (Z.of_nat n) (lenZ (buf (fst s)))) (buf_slice n) s.

(** [buf.len()]. network/attributes.rs:1531. *)
Definition buf_len_c {E} : rd_c E Z := op 0 buf_len.

(** bits.rs:26-32 *)
Definition if_get_c {A} (f : rd_c unit A) : rd_c unit (option A) :=
  let* b := read_bit_c in
  if b then fmap Some f else ret None.

(** the [debug_assert!] of bits.rs:36 and 51 *)
Definition assert_width_c {E} (n : nat) (max : Z) : rd_c E unit :=
  if Z.max (bit_width max) 1 =? Z.of_nat n + 1 then ret tt else panics PanicAssert.

(** bits.rs:35-47 *)
Definition peek_bits_max_computed_c {E} (n : nat) (max : Z) : rd_c E Z :=
  let* _ := assert_width_c n max in
  let* data := peek_and_consume_c n in
  let up := data + 2 ^ Z.of_nat n in
  if max <=? up then ret data
  else
    let* b := peek_and_consume_c 1 in
    if negb (b =? 0) then ret up else ret data.

(** bits.rs:50-61 *)
Definition read_bits_max_computed_c (n : nat) (max : Z) : rd_c unit Z :=
  let* _ := assert_width_c n max in
  let* data := read_bits_c n in
  let up := data + 2 ^ Z.of_nat n in
  if max <=? up then ret data
  else fmap (fun x : bool => if x then up else data) read_bit_c.

End ReaderC.

(** ** NetModels.v *)

Section NetModelsC.
Context (B : bitter).

(** network/models.rs:46-54 and 72-84: the end of both decoders.  [assert] is
    the [debug_assert!] of line 76, present in [eof_decode] only. *)
Definition vector3i_tail_c (bias : Z) (bit_limit : nat) (assert : bool) : rd_c unit vector3i :=
  let* dx := peek_and_consume_c bit_limit in
  let* _ := refill_c B in
  let* la := lookahead_bits_c in
  let* _ := (if assert && (la <? Z.of_nat bit_limit * 2)
             then panics PanicAssert else ret tt) in
  let* dy := peek_and_consume_c bit_limit in
  let* dz := peek_and_consume_c bit_limit in
  ret (mkV3i (as_i32 dx - bias) (as_i32 dy - bias) (as_i32 dz - bias)).

(** network/models.rs:58-85 *)
Definition vector3i_eof_decode_c (net_version : Z) : rd_c unit vector3i :=
  let* _ := refill_c B in
  let* la := lookahead_bits_c in
  if la <? 5 then fail tt
  else
    let* size_bits := peek_bits_max_computed_c 4 (size_limit net_version) in
    let bias := 2 ^ (size_bits + 1) in
    let bit_limit := Z.to_nat (size_bits + 2) in
    let* enough := has_bits_remaining_c (3 * bit_limit) in
    if negb enough then fail tt else vector3i_tail_c bias bit_limit true.

(** network/models.rs:33-56 *)
Definition vector3i_decode_c (net_version : Z) : rd_c unit vector3i :=
  let* fast := unbuffered_at_least_c 16 in
  if fast : bool then
    let* _ := refill_c B in
    let* size_bits := peek_bits_max_computed_c 4 (size_limit net_version) in
    let bias := 2 ^ (size_bits + 1) in
    let bit_limit := Z.to_nat (size_bits + 2) in
    vector3i_tail_c bias bit_limit false
  else vector3i_eof_decode_c net_version.

(** network/models.rs:14-20 *)
Definition vector3f_decode_c (net_version : Z) : rd_c unit vector3f :=
  fmap (fun v => mkV3f (centi (v3i_x v)) (centi (v3i_y v)) (centi (v3i_z v)))
       (vector3i_decode_c net_version).

(** network/models.rs:106-122 *)
Definition quat_compressed_f32_c : rd_c unit f32 :=
  let* res := peek_and_consume_c 16 in ret (bits_of_sf (quat_compressed_value res)).

(** network/models.rs:124-134 *)
Definition quat_decode_compressed_c : rd_c unit quaternion :=
  let* _ := refill_c B in
  let* la := lookahead_bits_c in
  if 3 * 16 <=? la then
    let* x := quat_compressed_f32_c in
    let* y := quat_compressed_f32_c in
    let* z := quat_compressed_f32_c in
    ret (mkQuat x y z f32_zero)
  else fail tt.

(** network/models.rs:147-173 *)
Definition quat_arrange_c (largest : Z) (a b c extra : f32) : rd_c unit quaternion :=
  if largest =? 0 then ret (mkQuat extra a b c)
  else if largest =? 1 then ret (mkQuat a extra b c)
  else if largest =? 2 then ret (mkQuat a b extra c)
  else if largest =? 3 then ret (mkQuat a b c extra)
  else panics PanicUnreachable.

(** network/models.rs:136-174 *)
Definition quat_decode_c : rd_c unit quaternion :=
  let* _ := refill_c B in
  let* la := lookahead_bits_c in
  if la <? 2 + 3 * 18 then fail tt
  else
    let* largest := peek_and_consume_c 2 in
    let* va := peek_and_consume_c 18 in
    let* vb := peek_and_consume_c 18 in
    let* vc := peek_and_consume_c 18 in
    let a := quat_unpack va in
    let b := quat_unpack vb in
    let c := quat_unpack vc in
    quat_arrange_c largest (bits_of_sf a) (bits_of_sf b) (bits_of_sf c)
                 (bits_of_sf (quat_extra a b c)).

(** network/models.rs:189-190 and the two following pairs of lines:
    [peek_and_consume(1)] then [peek_and_consume(has << 3) as i8] *)
Definition rotation_part_c : rd_c unit (option Z) :=
  let* has := peek_and_consume_c 1 in
  let* v := peek_and_consume_c (Z.to_nat (has * 8)) in
  ret (if negb (has =? 0) then Some (as_i8 v) else None).

(** network/models.rs:186-206 *)
Definition rotation_decode_c : rd_c unit rotation :=
  let* _ := refill_c B in
  let* la := lookahead_bits_c in
  if 3 * 9 <=? la then
    let* yaw := rotation_part_c in
    let* pitch := rotation_part_c in
    let* roll := rotation_part_c in
    ret (mkRot yaw pitch roll)
  else
    let* yaw := if_get_c B (read_i8_c B) in
    let* pitch := if_get_c B (read_i8_c B) in
    let* roll := if_get_c B (read_i8_c B) in
    ret (mkRot yaw pitch roll).

(** network/models.rs:351-376 *)
Definition trajectory_from_spawn_c (sp : spawn_trajectory) (net_version : Z) : rd_c unit trajectory :=
  match sp with
  | SpNone => ret (mkTraj None None)
  | SpLocation =>
      fmap (fun v => mkTraj (Some v) None) (vector3i_decode_c net_version)
  | SpLocationAndRotation =>
      let* v := vector3i_decode_c net_version in
      let* r := rotation_decode_c in
      ret (mkTraj (Some v) (Some r))
  end.

End NetModelsC.

(** ** Attributes.v *)

(** A function returning [Result<A, AttributeError>]. e.g.
    network/attributes.rs:613-616. *)
Definition ard_c (A : Type) : Type := rd_c attribute_error A.

(** [.ok_or(AttributeError::NotEnoughDataFor(what))]. network/attributes.rs:619;
    macros.rs:2. *)
Definition not_enough_c {A} (what : string) (m : rd_c unit A) : ard_c A :=
  ok_or (ANotEnoughDataFor what) m.

Section AttributesC.
Context (B : bitter).

(** attributes.rs:1533-1535 (and 1541-1543): [if bytes > buf.len() ||
    !bits.read_bytes(&mut buf[..bytes]) { Err(TooBigString(size)) }], giving the
    bytes read *)
Definition text_bytes_c (size bytes : Z) : ard_c (list byte) :=
  let* n := buf_len_c in
  if n <? bytes then fail (ATooBigString size)
  else
    let* _ := ok_or (ATooBigString size) (read_bytes_c B (Z.to_nat bytes)) in
    buf_slice_c (Z.to_nat bytes).

(** attributes.rs:1513-1550; [checked_mul] fails when the product does not fit
    an [i32]; decoding never fails (Text.v) *)
Definition decode_text_c : ard_c str :=
  let* size := not_enough_c "text string" (read_i32_c B) in
  if size =? 0 then ret []
  else if size <? 0 then
    let bytes := size * -2 in
    if fits_i32 bytes then
      let* data := text_bytes_c size (as_usize bytes) in ret (decode_utf16 data)
    else fail (ATooBigString size)
  else
    let* data := text_bytes_c size (as_usize size) in ret (decode_windows1252 data).

(** attributes.rs:485-531 *)
Definition product_value_decode_c (P : product_value_decoder) (obj_ind : Z) : rd_c unit product_value :=
  if obj_ind =? pd_color_ind P then
    if version_geb (pd_version P) (mkVersion 868 23 8) then
      fmap PVNewColor (read_u32_c B)
    else
      fmap (fun x => match x with Some v => v | None => PVNoColor end)
           (if_get_c B (fmap (fun x => PVOldColor (as_u32 x)) (read_bits_c B 31)))
  else if obj_ind =? pd_painted_ind P then
    if version_geb (pd_version P) (mkVersion 868 18 0) then
      fmap (fun x => PVNewPaint (as_u32 x)) (read_bits_c B 31)
    else
      fmap (fun x => PVOldPaint (as_u32 x)) (read_bits_max_computed_c B 3 14)
  else if obj_ind =? pd_title_ind P then
    fmap PVTitle (to_option decode_text_c)
  else if obj_ind =? pd_special_edition_ind P then
    fmap (fun x => PVSpecialEdition (as_u32 x)) (read_bits_c B 31)
  else if obj_ind =? pd_team_edition_ind P then
    if version_geb (pd_version P) (mkVersion 868 18 0) then
      fmap (fun x => PVNewTeamEdition (as_u32 x)) (read_bits_c B 31)
    else
      fmap (fun x => PVOldTeamEdition (as_u32 x)) (read_bits_max_computed_c B 3 14)
  else ret PVAbsent.

(** attributes.rs:1445-1455 *)
Definition decode_product_c (D : attribute_decoder) : rd_c unit product :=
  let* unknown := read_bit_c B in
  let* obj_ind := read_i32_c B in
  let* val := product_value_decode_c (ad_product D) obj_ind in
  ret (mkProduct unknown obj_ind val).

(** [for _ in 0..n { v.push(f(bits)?) }]. network/attributes.rs:1467-1469. *)
Fixpoint rd_repeat_c {E A} (n : nat) (f : rd_c E A) : rd_c E (list A) :=
  match n with
  | O => ret []
  | S n' => let* x := f in let* xs := rd_repeat_c n' f in ret (x :: xs)
  end.

(** attributes.rs:1457-1483 *)
Definition inner_decode_online_loadout_c (D : attribute_decoder) : rd_c unit (list (list product)) :=
  let* size := read_u8_c B in
  rd_repeat_c (Z.to_nat size)
    (let* attribute_size := read_u8_c B in
     rd_repeat_c (Z.to_nat attribute_size) (decode_product_c D)).

(** attributes.rs:1642-1681: [system_id] 2 *)
Definition decode_ps4_c (net_version : Z) : ard_c remote_id :=
  let* _ := not_enough_c "PS4 Name" (read_bytes_c B 16) in
  let* name_bytes := buf_slice_c 16 in
  let name := decode_cp1252 (until_nul name_bytes) in
  let to_read := if 1 <=? net_version then 16%nat else 8%nat in
  let* _ := not_enough_c "PS4 Unknown" (read_bytes_c B to_read) in
  let* online_id := not_enough_c "PS4 ID" (read_u64_c B) in
  let* unknown1 := buf_slice_c to_read in
  ret (RPlayStation online_id name unknown1).

(** attributes.rs:1690-1704: [system_id] 6 *)
Definition decode_switch_c : ard_c remote_id :=
  let* online_id := not_enough_c "Switch ID" (read_u64_c B) in
  let* _ := not_enough_c "Switch ID Unknown" (read_bytes_c B 24) in
  let* unknown1 := buf_slice_c 24 in
  ret (RSwitch online_id unknown1).

(** attributes.rs:1705-1726: [system_id] 7 *)
Definition decode_psynet_c (net_version : Z) : ard_c remote_id :=
  let* online_id := not_enough_c "PsyNet ID" (read_u64_c B) in
  if net_version <? 10 then
    let* _ := not_enough_c "PsyNet ID Unknown" (read_bytes_c B 24) in
    let* unknown1 := buf_slice_c 24 in
    ret (RPsyNet online_id unknown1)
  else ret (RPsyNet online_id []).

(** attributes.rs:1629-1742 *)
Definition decode_unique_id_with_system_id_c (net_version system_id : Z) : ard_c unique_id :=
  let* remote_id :=
    (if system_id =? 0 then
       fmap (fun x => RSplitScreen (as_u32 x)) (not_enough_c "SplitScreen" (read_bits_c B 24))
     else if system_id =? 1 then fmap RSteam (not_enough_c "Steam" (read_u64_c B))
     else if system_id =? 2 then decode_ps4_c net_version
     else if system_id =? 4 then fmap RXbox (not_enough_c "Xbox" (read_u64_c B))
     else if system_id =? 5 then fmap RQQ (not_enough_c "QQ ID" (read_u64_c B))
     else if system_id =? 6 then decode_switch_c
     else if system_id =? 7 then decode_psynet_c net_version
     else if system_id =? 11 then fmap REpic decode_text_c
     else fail (AUnrecognizedRemoteId system_id)) in
  let* local_id := not_enough_c "UniqueId local_id" (read_u8_c B) in
  ret (mkUniqueId system_id remote_id local_id).

(** attributes.rs:1618-1627 *)
Definition decode_unique_id_c (net_version : Z) : ard_c unique_id :=
  let* system_id := not_enough_c "System id" (read_u8_c B) in
  decode_unique_id_with_system_id_c net_version system_id.

(** attributes.rs:1552-1559 *)
Definition decode_loadout_specials_c : rd_c unit (option Z * option Z * option Z) :=
  let* engine_audio := read_u32_c B in
  let* trail := read_u32_c B in
  let* goal_explosion := read_u32_c B in
  ret (Some engine_audio, Some trail, Some goal_explosion).

(** [if cond { Some(bits.read_u32()?) } else { None }].
    network/attributes.rs:1570-1590. *)
Definition opt_u32_c (cond : bool) : rd_c unit (option Z) :=
  if cond then fmap Some (read_u32_c B) else ret None.

(** attributes.rs:1561-1616 *)
Definition decode_loadout_c : rd_c unit loadout :=
  let* version := read_u8_c B in
  let* body := read_u32_c B in
  let* decal := read_u32_c B in
  let* wheels := read_u32_c B in
  let* rocket_trail := read_u32_c B in
  let* antenna := read_u32_c B in
  let* topper := read_u32_c B in
  let* unknown1 := read_u32_c B in
  let* unknown2 := opt_u32_c (10 <? version) in
  let* specials :=
    (if 16 <=? version then decode_loadout_specials_c else ret (None, None, None)) in
  let* banner := opt_u32_c (17 <=? version) in
  let* product_id := opt_u32_c (19 <=? version) in
  let* _ :=
    (if 22 <=? version then
       let* _ := read_u32_c B in
       let* _ := read_u32_c B in
       let* _ := read_u32_c B in ret tt
     else ret tt) in
  ret (mkLoadout version body decal wheels rocket_trail antenna topper unknown1
        unknown2 (fst (fst specials)) (snd (fst specials)) (snd specials)
        banner product_id).

(** attributes.rs:1502-1511 *)
Definition decode_explosion_c (net_version : Z) : rd_c unit explosion :=
  let* flag := read_bit_c B in
  let* actor := read_i32_c B in
  let* location := vector3f_decode_c B net_version in
  ret (mkExplosion flag actor location).

Context (D : attribute_decoder).

Let net := v_net (ad_version D).

(** attributes.rs:613-620 *)
Definition decode_byte_c : ard_c attribute :=
  not_enough_c "Byte" (fmap AByte (read_u8_c B)).

(** attributes.rs:622-630 *)
Definition decode_player_history_key_c : ard_c attribute :=
  not_enough_c "PlayerHistoryKey"
    (fmap (fun x => APlayerHistoryKey (as_u16 x)) (read_bits_c B 14)).

(** attributes.rs:632-644 *)
Definition decode_flagged_byte_c : ard_c attribute :=
  not_enough_c "FlaggedByte"
    (let* b := read_bit_c B in
     let* data := read_u8_c B in
     ret (AFlaggedByte b data)).

(** attributes.rs:646-653 *)
Definition decode_boolean_c : ard_c attribute :=
  not_enough_c "Boolean" (fmap ABoolean (read_bit_c B)).

(** attributes.rs:655-678 *)
Definition decode_applied_damage_c : ard_c attribute :=
  not_enough_c "Applied Damage"
    (let* id := read_u8_c B in
     let* position := vector3f_decode_c B net in
     let* damage_index := read_i32_c B in
     let* total_damage := read_i32_c B in
     ret (AAppliedDamage (mkApplied id position damage_index total_damage))).

(** attributes.rs:680-704 *)
Definition decode_damage_state_c : ard_c attribute :=
  not_enough_c "Damage State"
    (let* tile_state := read_u8_c B in
     let* damaged := read_bit_c B in
     let* offender := read_i32_c B in
     let* ball_position := vector3f_decode_c B net in
     let* direct_hit := read_bit_c B in
     let* unknown1 := read_bit_c B in
     ret (ADamageState (mkDamage tile_state damaged offender ball_position direct_hit unknown1))).

(** attributes.rs:706-738 *)
Definition decode_cam_settings_c : ard_c attribute :=
  not_enough_c "Cam Settings"
    (let* fov := read_f32_c B in
     let* height := read_f32_c B in
     let* angle := read_f32_c B in
     let* distance := read_f32_c B in
     let* stiffness := read_f32_c B in
     let* swivel := read_f32_c B in
     let* transition :=
       (if version_geb (ad_version D) (mkVersion 868 20 0)
        then fmap Some (read_f32_c B) else ret None) in
     ret (ACamSettings (mkCam fov height angle distance stiffness swivel transition))).

(** attributes.rs:740-760 *)
Definition decode_club_colors_c : ard_c attribute :=
  not_enough_c "Club Colors"
    (let* blue_flag := read_bit_c B in
     let* blue_color := read_u8_c B in
     let* orange_flag := read_bit_c B in
     let* orange_color := read_u8_c B in
     ret (AClubColors (mkClub blue_flag blue_color orange_flag orange_color))).

(** attributes.rs:762-787 *)
Definition decode_demolish_c : ard_c attribute :=
  not_enough_c "Demolish"
    (let* attacker_flag := read_bit_c B in
     let* attacker := read_i32_c B in
     let* victim_flag := read_bit_c B in
     let* victim := read_i32_c B in
     let* attack_velocity := vector3f_decode_c B net in
     let* victim_velocity := vector3f_decode_c B net in
     ret (ADemolish (mkDemolish attacker_flag attacker victim_flag victim
                       attack_velocity victim_velocity))).

(** attributes.rs:789-819 *)
Definition decode_demolish_fx_c : ard_c attribute :=
  not_enough_c "DemolishFx"
    (let* custom_demo_flag := read_bit_c B in
     let* custom_demo_id := read_i32_c B in
     let* attacker_flag := read_bit_c B in
     let* attacker := read_i32_c B in
     let* victim_flag := read_bit_c B in
     let* victim := read_i32_c B in
     let* attack_velocity := vector3f_decode_c B net in
     let* victim_velocity := vector3f_decode_c B net in
     ret (ADemolishFx (mkDemolishFx custom_demo_flag custom_demo_id attacker_flag attacker
                         victim_flag victim attack_velocity victim_velocity))).

(** attributes.rs:1012-1021 *)
Definition active_actor_inner_c : rd_c unit active_actor :=
  let* _ := refill_c B in
  let* la := lookahead_bits_c in
  if la <? 33 then fail tt
  else
    let* active := peek_and_consume_c 1 in
    let* actor := peek_and_consume_c 32 in
    ret (mkActive (active =? 1) (as_i32 actor)).

(** attributes.rs:1023-1030 *)
Definition decode_active_actor_c : ard_c attribute :=
  not_enough_c "Active Actor" (fmap AActiveActor active_actor_inner_c).

(** attributes.rs:821-854 *)
Definition decode_demolish_extended_c : ard_c attribute :=
  not_enough_c "DemolishExtended"
    (let* attacker_pri := active_actor_inner_c in
     let* self_demo := active_actor_inner_c in
     let* self_demolish := read_bit_c B in
     let* goal_explosion_owner := active_actor_inner_c in
     let* attacker := active_actor_inner_c in
     let* victim := active_actor_inner_c in
     let* attacker_velocity := vector3f_decode_c B net in
     let* victim_velocity := vector3f_decode_c B net in
     ret (ADemolishExtended (mkDemolishExt attacker_pri self_demo self_demolish
            goal_explosion_owner attacker victim attacker_velocity victim_velocity))).

(** attributes.rs:856-864 *)
Definition decode_enum_c : ard_c attribute :=
  not_enough_c "Enum" (fmap (fun x => AEnum (as_u16 x)) (read_bits_c B 11)).

(** attributes.rs:866-873 *)
Definition decode_explosion_attr_c : ard_c attribute :=
  not_enough_c "Explosion" (fmap AExplosion (decode_explosion_c net)).

(** attributes.rs:875-891 *)
Definition decode_stat_event_c : ard_c attribute :=
  not_enough_c "Stat Event"
    (let* unknown1 := read_bit_c B in
     let* object_id := read_i32_c B in
     ret (AStatEvent (mkStat unknown1 object_id))).

(** attributes.rs:893-918 *)
Definition decode_rep_stat_title_c : ard_c attribute :=
  let* unknown := not_enough_c "RepStatTitle" (read_bit_c B) in
  let* name := decode_text_c in
  let* unknown2 := not_enough_c "RepStatTitle" (read_bit_c B) in
  let* index := not_enough_c "RepStatTitle" (read_u32_c B) in
  let* value := not_enough_c "RepStatTitle" (read_u32_c B) in
  ret (ARepStatTitle (mkRepStat unknown name unknown2 index value)).

(** attributes.rs:920-941 *)
Definition decode_pickup_info_c : ard_c attribute :=
  not_enough_c "Pickup Info"
    (let* a := active_actor_inner_c in
     let* b := active_actor_inner_c in
     let* c := active_actor_inner_c in
     let* items_are_preview := read_bit_c B in
     ret (APickupInfo (mkPickupInfo a b c items_are_preview))).

(** attributes.rs:943-959 *)
Definition decode_impulse_c : ard_c attribute :=
  let* compressed_rotation := not_enough_c "Impulse" (read_i32_c B) in
  let* speed := not_enough_c "Impulse" (read_f32_c B) in
  ret (AImpulse (mkImpulse compressed_rotation speed)).

(** attributes.rs:961-987 *)
Definition decode_replicated_boost_c : ard_c attribute :=
  let* grant_count := not_enough_c "ReplicatedBoost" (read_u8_c B) in
  let* boost_amount := not_enough_c "ReplicatedBoost" (read_u8_c B) in
  let* unused1 := not_enough_c "ReplicatedBoost" (read_u8_c B) in
  let* unused2 := not_enough_c "ReplicatedBoost" (read_u8_c B) in
  ret (AReplicatedBoost (mkBoost grant_count boost_amount unused1 unused2)).

(** attributes.rs:989-1010 *)
Definition decode_extended_explosion_c : ard_c attribute :=
  not_enough_c "Extended Explosion"
    (let* explosion := decode_explosion_c net in
     let* unknown1 := read_bit_c B in
     let* secondary_actor := read_i32_c B in
     ret (AExtendedExplosion (mkExtExplosion explosion unknown1 secondary_actor))).

(** attributes.rs:1032-1039 *)
Definition decode_float_c : ard_c attribute :=
  not_enough_c "Float" (fmap AFloat (read_f32_c B)).

(** attributes.rs:1041-1055 *)
Definition decode_game_mode_c : ard_c attribute :=
  let init := if negb (version_geb (ad_version D) (mkVersion 868 12 0)) then 2 else 8 in
  not_enough_c "Game Mode"
    (fmap (fun x => AGameMode init (as_u8 x)) (read_bits_c B (Z.to_nat init))).

(** attributes.rs:1057-1064 *)
Definition decode_int_c : ard_c attribute :=
  not_enough_c "Int" (fmap AInt (read_i32_c B)).

(** attributes.rs:1066-1073 *)
Definition decode_int64_c : ard_c attribute :=
  not_enough_c "Int64" (fmap AInt64 (read_i64_c B)).

(** attributes.rs:1075-1083 *)
Definition decode_loadout_attr_c : ard_c attribute :=
  not_enough_c "Loadout" (fmap ALoadout decode_loadout_c).

(** attributes.rs:1085-1096 *)
Definition decode_team_loadout_c : ard_c attribute :=
  let* blue := not_enough_c "Team Loadout" decode_loadout_c in
  let* orange := not_enough_c "Team Loadout" decode_loadout_c in
  ret (ATeamLoadout (mkTeamLoadout blue orange)).

(** attributes.rs:1098-1105 *)
Definition decode_location_c : ard_c attribute :=
  not_enough_c "Location" (fmap ALocation (vector3f_decode_c B net)).

(** attributes.rs:1107-1121 *)
Definition decode_music_stinger_c : ard_c attribute :=
  not_enough_c "Music Stinger"
    (let* flag := read_bit_c B in
     let* cue := read_u32_c B in
     let* trigger := read_u8_c B in
     ret (AMusicStinger (mkStinger flag cue trigger))).

(** attributes.rs:1123-1138 *)
Definition decode_pickup_c : ard_c attribute :=
  let* instigator := not_enough_c "Pickup" (if_get_c B (read_i32_c B)) in
  let* picked_up := not_enough_c "Pickup" (read_bit_c B) in
  ret (APickup (mkPickup instigator picked_up)).

(** attributes.rs:1140-1155 *)
Definition decode_pickup_new_c : ard_c attribute :=
  let* instigator := not_enough_c "PickupNew" (if_get_c B (read_i32_c B)) in
  let* picked_up := not_enough_c "PickupNew" (read_u8_c B) in
  ret (APickupNew (mkPickupNew instigator picked_up)).

(** attributes.rs:1157-1164 *)
Definition decode_qword_c : ard_c attribute :=
  not_enough_c "QWord" (fmap AQWord (read_u64_c B)).

(** attributes.rs:1299-1305 *)
Definition decode_string_c : ard_c attribute := fmap AString decode_text_c.

(** attributes.rs:1166-1176 *)
Definition decode_qword_string_c : ard_c attribute :=
  if ad_is_rl_223 D then decode_string_c else decode_qword_c.

(** attributes.rs:1178-1200 *)
Definition decode_welded_c : ard_c attribute :=
  not_enough_c "Welded"
    (let* active := read_bit_c B in
     let* actor := read_i32_c B in
     let* offset := vector3f_decode_c B net in
     let* mass := read_f32_c B in
     let* rotation := rotation_decode_c B in
     ret (AWelded (mkWelded active actor offset mass rotation))).

(** attributes.rs:1202-1208 *)
Definition decode_rotation_c : ard_c attribute :=
  let* rot := not_enough_c "Rotation" (rotation_decode_c B) in ret (ARotation rot).

(** attributes.rs:1210-1229 *)
Definition decode_title_c : ard_c attribute :=
  not_enough_c "Title"
    (let* unknown1 := read_bit_c B in
     let* unknown2 := read_bit_c B in
     let* unknown3 := read_u32_c B in
     let* unknown4 := read_u32_c B in
     let* unknown5 := read_u32_c B in
     let* unknown6 := read_u32_c B in
     let* unknown7 := read_u32_c B in
     let* unknown8 := read_bit_c B in
     ret (ATitle unknown1 unknown2 unknown3 unknown4 unknown5 unknown6 unknown7 unknown8)).

(** attributes.rs:1231-1254 *)
Definition decode_team_paint_c : ard_c attribute :=
  not_enough_c "Team Paint"
    (let* team := read_u8_c B in
     let* primary_color := read_u8_c B in
     let* accent_color := read_u8_c B in
     let* primary_finish := read_u32_c B in
     let* accent_finish := read_u32_c B in
     ret (ATeamPaint (mkTeamPaint team primary_color accent_color primary_finish accent_finish))).

(** attributes.rs:1256-1290.  Lines 1270-1271 read
    [Some(Vector3f::decode(..))?]: the [?] unwraps the outer [Some], so a vector
    that fails to decode yields [None] and decoding goes on. *)
Definition decode_rigid_body_c : ard_c attribute :=
  not_enough_c "Rigid Body"
    (let* sleeping := read_bit_c B in
     let* location := vector3f_decode_c B net in
     let* rotation := (if 7 <=? net then quat_decode_c B else quat_decode_compressed_c B) in
     if sleeping : bool then
       ret (ARigidBody (mkRigid sleeping location rotation None None))
     else
       let* linear_velocity := attempt (vector3f_decode_c B net) in
       let* angular_velocity := attempt (vector3f_decode_c B net) in
       ret (ARigidBody (mkRigid sleeping location rotation linear_velocity angular_velocity))).

(** attributes.rs:1292-1297 *)
Definition decode_not_implemented_c : ard_c attribute := fail AUnimplemented.

(** attributes.rs:1307-1315 *)
Definition decode_unique_id_attr_c : ard_c attribute := fmap AUniqueId (decode_unique_id_c net).

(** attributes.rs:1332-1338: [while result.len() < 255]; every iteration that
    continues appends at least one byte, 256 rounds of fuel suffice *)
Fixpoint reservation_name_c (fuel : nat) (result : str) : ard_c str :=
  if lenZ result <? 255 then
    match fuel with
    | O => panics PanicFuel
    | S fuel' =>
        let* c := not_enough_c "Reservation" (read_u8_c B) in
        if c =? 0 then ret result
        else reservation_name_c fuel' (result ++ utf8_char c)
    end
  else ret result.

(** attributes.rs:1317-1361 *)
Definition decode_reservation_c : ard_c attribute :=
  let* number := not_enough_c "Reservation" (fmap as_u32 (read_bits_c B 3)) in
  let* unique := decode_unique_id_c net in
  let* name :=
    (if negb (ui_system_id unique =? 0) then fmap Some decode_text_c
     else if negb (is_splitscreen0 (ui_remote_id unique)) then
       fmap Some (reservation_name_c 256 [])
     else ret None) in
  let* unknown1 := not_enough_c "Reservation" (read_bit_c B) in
  let* unknown2 := not_enough_c "Reservation" (read_bit_c B) in
  let* unknown3 :=
    (if version_geb (ad_version D) (mkVersion 868 12 0) then
       not_enough_c "Reservation" (fmap (fun x => Some (as_u8 (as_u32 x))) (read_bits_c B 6))
     else ret None) in
  ret (AReservation (mkReservation number unique name unknown1 unknown2 unknown3)).

(** attributes.rs:1363-1383 *)
Definition decode_party_leader_c : ard_c attribute :=
  let* system_id := not_enough_c "Party Leader" (read_u8_c B) in
  if negb (system_id =? 0) then
    fmap (fun id => APartyLeader (Some id)) (decode_unique_id_with_system_id_c net system_id)
  else ret (APartyLeader None).

(** attributes.rs:1385-1406 *)
Definition decode_private_match_settings_c : ard_c attribute :=
  let* mutators := decode_text_c in
  let* joinable_by := not_enough_c "Private Match" (read_u32_c B) in
  let* max_players := not_enough_c "Private Match" (read_u32_c B) in
  let* game_name := decode_text_c in
  let* password := decode_text_c in
  let* flag := not_enough_c "Private Match" (read_bit_c B) in
  ret (APrivateMatch (mkPrivateMatch mutators joinable_by max_players game_name password flag)).

(** attributes.rs:1408-1416 *)
Definition decode_loadout_online_c : ard_c attribute :=
  not_enough_c "Loadout Online" (fmap ALoadoutOnline (inner_decode_online_loadout_c D)).

(** attributes.rs:1418-1443 *)
Definition decode_loadouts_online_c : ard_c attribute :=
  not_enough_c "Loadouts online"
    (let* blue := inner_decode_online_loadout_c D in
     let* orange := inner_decode_online_loadout_c D in
     let* unknown1 := read_bit_c B in
     let* unknown2 := read_bit_c B in
     ret (ALoadoutsOnline (mkLoadoutsOnline blue orange unknown1 unknown2))).

(** attributes.rs:1485-1499 *)
Definition decode_logo_data_c : ard_c attribute :=
  let* logo_id := not_enough_c "LogoData" (read_u32_c B) in
  let* swap_colors := not_enough_c "LogoData" (read_bit_c B) in
  ret (ALogoData (mkLogo logo_id swap_colors)).

(** attributes.rs:559-611.  The tags of the fast path fall into [unreachable!()]. *)
Definition decode_uncommon_c (tag : attribute_tag) : ard_c attribute :=
  match tag with
  | TAppliedDamage => decode_applied_damage_c
  | TDamageState => decode_damage_state_c
  | TCamSettings => decode_cam_settings_c
  | TClubColors => decode_club_colors_c
  | TDemolish => decode_demolish_c
  | TDemolishExtended => decode_demolish_extended_c
  | TDemolishFx => decode_demolish_fx_c
  | TEnum => decode_enum_c
  | TExplosion => decode_explosion_attr_c
  | TExtendedExplosion => decode_extended_explosion_c
  | TFlaggedByte => decode_flagged_byte_c
  | TFloat => decode_float_c
  | TGameMode => decode_game_mode_c
  | TInt => decode_int_c
  | TInt64 => decode_int64_c
  | TLoadout => decode_loadout_attr_c
  | TTeamLoadout => decode_team_loadout_c
  | TLocation => decode_location_c
  | TMusicStinger => decode_music_stinger_c
  | TPickup => decode_pickup_c
  | TPickupNew => decode_pickup_new_c
  | TPlayerHistoryKey => decode_player_history_key_c
  | TQWordString => decode_qword_string_c
  | TWelded => decode_welded_c
  | TTitle => decode_title_c
  | TTeamPaint => decode_team_paint_c
  | TNotImplemented => decode_not_implemented_c
  | TString => decode_string_c
  | TUniqueId => decode_unique_id_attr_c
  | TReservation => decode_reservation_c
  | TPartyLeader => decode_party_leader_c
  | TPrivateMatchSettings => decode_private_match_settings_c
  | TLoadoutOnline => decode_loadout_online_c
  | TLoadoutsOnline => decode_loadouts_online_c
  | TStatEvent => decode_stat_event_c
  | TRotationTag => decode_rotation_c
  | TRepStatTitle => decode_rep_stat_title_c
  | TPickupInfo => decode_pickup_info_c
  | TImpulse => decode_impulse_c
  | TReplicatedBoost => decode_replicated_boost_c
  | TLogoData => decode_logo_data_c
  | TBoolean | TByte | TActiveActor | TRigidBody => panics PanicUnreachable
  end.

(** attributes.rs:542-557 *)
Definition decode_attribute_c (tag : attribute_tag) : ard_c attribute :=
  match tag with
  | TRigidBody => decode_rigid_body_c
  | TByte => decode_byte_c
  | TBoolean => decode_boolean_c
  | TActiveActor => decode_active_actor_c
  | _ => decode_uncommon_c tag
  end.

End AttributesC.

(** ** FrameDecoder.v *)

(** A function returning [Result<A, FrameError>]. e.g.
    network/frame_decoder.rs:176-185. *)
Definition fcomp_c (A : Type) : Type := comp (counted fstate) frame_error A.

(** Run a function that only touches the reader. e.g.
    network/frame_decoder.rs:210-216. *)
Definition on_reader_c {E A} (m : rd_c E A) : comp (counted fstate) E A := fun s =>
  let '(o, (r, n)) := m (fs_r (fst s), snd s) in (o, (set_r r (fst s), n)).

(** [.ok_or(FrameError::NotEnoughDataFor(what))]. network/frame_decoder.rs:149, 155,
    188, 208. *)
Definition f_not_enough_c {A} (what : string) (m : rd_c unit A) : fcomp_c A :=
  on_reader_c (ok_or (FNotEnoughDataFor what) m).

(** [actors.insert(k, v)], [actors.delete(k)], [actors.get(k)].
    network/frame_decoder.rs:240, 306, 245-247. *)
Definition actors_insert_c (k : Z) (v : Z * cache_info) : fcomp_c unit := op 1 (actors_insert k v).

(** network/frame_decoder.rs:306 *)
Definition actors_delete_c (k : Z) : fcomp_c unit := op 1 (actors_delete k).

(** network/frame_decoder.rs:245-247 *)
Definition actors_get_c (k : Z) : fcomp_c (option (Z * cache_info)) := op 1 (actors_get k).

(** [new_actors.push], [deleted_actors.push], [updated_actors.push].
    network/frame_decoder.rs:241, 305, 296. *)
Definition push_new_c (a : new_actor) : fcomp_c unit := op 1 (push_new a).

(** network/frame_decoder.rs:305 *)
Definition push_deleted_c (a : Z) : fcomp_c unit := op 1 (push_deleted a).

(** network/frame_decoder.rs:296 *)
Definition push_updated_c (a : updated_attribute) : fcomp_c unit := op 1 (push_updated a).

Section FrameDecoderC.
Context (B : bitter) (ho : hash_order) (F : frame_decoder).

(** frame_decoder.rs:137-173 *)
Definition parse_new_actor_c (actor_id : Z) : fcomp_c new_actor :=
  let* name_id :=
    (if (do_parse_name F) then f_not_enough_c "New Actor" (fmap Some (read_i32_c B)) else ret None) in
  let* _ := f_not_enough_c "New Actor" (read_bit_c B) in
  let* object_id := f_not_enough_c "New Actor" (read_i32_c B) in
  let* spawn := need (FObjectIdOutOfRange object_id) (getZ (as_usize object_id) (fd_spawns F)) in
  let* traj := f_not_enough_c "New Actor" (trajectory_from_spawn_c B spawn (v_net (fd_version F))) in
  ret (mkNew actor_id name_id object_id traj).

(** frame_decoder.rs:247-301: the loop over the updated attributes of an actor *)
Fixpoint attributes_loop_c (fuel : nat) (actor_id object_id : Z) (ci : cache_info) : fcomp_c unit :=
  match fuel with
  | O => panics PanicFuel
  | S fuel' =>
      let* more := f_not_enough_c "Is prop present" (read_bit_c B) in
      if more : bool then
        let* _ := on_reader_c (refill_c B) in
        let* la := on_reader_c lookahead_bits_c in
        if la <? ci_prop_id_bits ci + 1 then fail (FNotEnoughDataFor "Prop id")
        else
          let* stream_id_raw :=
            on_reader_c (peek_bits_max_computed_c (Z.to_nat (ci_prop_id_bits ci)) (ci_max_prop_id ci)) in
          let stream_id := as_i32 stream_id_raw in
          let* attr := need (FMissingAttribute actor_id object_id stream_id)
                            (seg_get stream_id (ci_attributes ci)) in
          let* attribute :=
            map_err (fun _ e => attr_error actor_id object_id stream_id e)
              (on_reader_c (decode_attribute_c B (attr_decoder F) (oa_attribute attr))) in
          let* _ := push_updated_c (mkUpdated actor_id stream_id (oa_object_id attr) attribute) in
          attributes_loop_c fuel' actor_id object_id ci
      else ret tt
  end.

(** frame_decoder.rs:203-307: the loop over the actors of a frame *)
Fixpoint actors_loop_c (afuel fuel : nat) : fcomp_c unit :=
  match fuel with
  | O => panics PanicFuel
  | S fuel' =>
      let* more := f_not_enough_c "Actor data" (read_bit_c B) in
      if more : bool then
        let* _ := on_reader_c (refill_c B) in
        let* la := on_reader_c lookahead_bits_c in
        if la <? fd_channel_bits F + 1 + 1 then fail (FNotEnoughDataFor "Actor Id")
        else
          let* actor_id_raw :=
            on_reader_c (peek_bits_max_computed_c (Z.to_nat (fd_channel_bits F)) (fd_max_channels F)) in
          let actor_id := as_i32 actor_id_raw in
          let* alive := on_reader_c (peek_and_consume_c 1) in
          let* _ :=
            (if alive =? 1 then
               let* is_new := f_not_enough_c "Is new actor" (read_bit_c B) in
               if is_new : bool then
                 let* actor := parse_new_actor_c actor_id in
                 let* ci := need (FMissingCache actor_id (n_object_id actor))
                                 ((cache_of F) (n_object_id actor)) in
                 let* _ := actors_insert_c (n_actor_id actor) (n_object_id actor, ci) in
                 push_new_c actor
               else
                 let* found := actors_get_c actor_id in
                 let* oc := need (FMissingActor actor_id) found in
                 attributes_loop_c afuel actor_id (fst oc) (snd oc)
             else
               let* _ := push_deleted_c actor_id in
               actors_delete_c actor_id) in
          actors_loop_c afuel fuel'
      else ret tt
  end.

(** frame_decoder.rs:309-343: take the three vectors out of the state *)
Definition finish_frame_c (time delta : f32) : fcomp_c frame := op 1 (finish_frame time delta).

(** frame_decoder.rs:176-344; [None] is [DecodedFrame::EndFrame] (130-134) *)
Definition decode_frame_c (fuel : nat) : fcomp_c (option frame) :=
  let* time := f_not_enough_c "Time" (read_f32_c B) in
  if out_of_range time then fail (FTimeOutOfRange time)
  else
    let* delta := f_not_enough_c "Delta" (read_f32_c B) in
    if out_of_range delta then fail (FDeltaOutOfRange delta)
    else if f32_eq time f32_zero && f32_eq delta f32_zero then ret None
    else
      let* _ := actors_loop_c fuel fuel in
      fmap Some (finish_frame_c time delta).

(** frame_decoder.rs:361-405: the loop; [n] is the number of frames that may
    still be pushed ([frames_len - frames.len()]) and [acc] the frames pushed so
    far, last first. *)
Fixpoint frames_loop_c (fuel n : nat) (acc : list frame) (s : counted fstate)
  : outcome network_error (list frame) * Z :=
  match n with
  | O => (Ok (rev acc), snd s)
  | S n' =>
      if is_empty (fs_r (fst s)) then (Ok (rev acc), snd s)
      else
        match decode_frame_c fuel s with
        | (Ok None, s') => (Ok (rev acc), snd s')
        | (Ok (Some f), s') => frames_loop_c fuel n' (f :: acc) s'
        | (Err e, s') => (Err (NFrameError e ((frame_context_of ho F) (rev acc) (fst s'))), snd s')
        | (Panic p, s') => (Panic p, snd s')
        end
  end.

(** frame_decoder.rs:346-414.  The final [read_u32] of the trailer (408-411) has
    no effect on the result and is omitted. *)
Definition decode_frames_c : outcome network_error (list frame) * Z :=
  frames_loop_c (loop_fuel F) (Z.to_nat (fd_frames_len F)) []
    (mkFState (reader_new (fd_network_data F) (repeat x00 1024)) (seg_new 200) [] [] [], 0).

End FrameDecoderC.

