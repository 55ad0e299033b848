(** * Specification of the bit-level wire format

    A format is a relation between the bits at hand, the value they start with
    and the bits that follow it.  Nothing here refers to the bit reader of the
    model (lookahead, refills, scratch buffer, fast and slow paths): formats are
    written in terms of encodings. *)

From Coq Require Import ZArith List Bool Floats.SpecFloat.
From Verif Require Import Base F32 NetTypes Attributes SpecText.
Open Scope Z_scope.

Definition bits : Type := list bool.
Definition wire (A : Type) : Type := bits -> A -> bits -> Prop.

(** ** Combinators *)

Definition w_ret {A} (a : A) : wire A := fun i v o => v = a /\ o = i.
Definition w_bind {A C} (P : wire A) (Q : A -> wire C) : wire C :=
  fun i v o => exists a m, P i a m /\ Q a m v o.
Definition w_map {A C} (f : A -> C) (P : wire A) : wire C :=
  fun i v o => exists a, P i a o /\ v = f a.
(** a value standing in the relation [R] to what is read *)
Definition w_such {A C} (R : A -> C -> Prop) (P : wire A) : wire C :=
  fun i v o => exists a, P i a o /\ R a v.
Definition w_none {A} : wire A := fun _ _ _ => False.

Declare Scope wire_scope.
Delimit Scope wire_scope with wire.
Notation "x <- P ; Q" := (w_bind P (fun x => Q))
  (at level 61, P at next level, right associativity) : wire_scope.
Local Open Scope wire_scope.

(** [n] values one after the other *)
Fixpoint w_times {A} (n : nat) (P : wire A) : wire (list A) :=
  match n with
  | O => w_ret []
  | S n' => x <- P; xs <- w_times n' P; w_ret (x :: xs)
  end.

(** ** Primitive formats *)

(** the [n] low bits of [x], least significant first (two's complement for
    negative [x]) *)
Definition enc_bits (n : nat) (x : Z) : bits :=
  map (fun i => Z.testbit x (Z.of_nat i)) (seq 0 n).

Definition w_bit : wire bool := fun i b o => i = b :: o.
Definition w_uint (n : nat) : wire Z := fun i x o =>
  0 <= x < 2 ^ Z.of_nat n /\ i = enc_bits n x ++ o.
Definition w_int (n : nat) : wire Z := fun i x o =>
  - 2 ^ (Z.of_nat n - 1) <= x < 2 ^ (Z.of_nat n - 1) /\ i = enc_bits n x ++ o.
(** IEEE binary32, by its bit pattern *)
Definition w_f32 : wire f32 := w_uint 32.

Definition enc_bytes (l : list byte) : bits :=
  concat (map (fun b => enc_bits 8 (Z.of_N (Byte.to_N b))) l).
Definition w_bytes (n : nat) : wire (list byte) := fun i l o =>
  length l = n /\ i = enc_bytes l ++ o.

(** a flag, and a value if it is set *)
Definition w_opt {A} (P : wire A) : wire (option A) :=
  b <- w_bit; if b : bool then w_map Some P else w_ret None.
(** a value present under a condition known from elsewhere *)
Definition w_when {A} (c : bool) (P : wire A) : wire (option A) :=
  if c then w_map Some P else w_ret None.

(** Unreal's bounded integer: [x < max] takes [k = log2 max] bits, and one more
    - the bit of weight [2^k] - only if the first [k] leave it undetermined. *)
Definition enc_bounded (max x : Z) : bits :=
  let k := Z.log2 max in
  let low := x mod 2 ^ k in
  enc_bits (Z.to_nat k) low ++ (if low + 2 ^ k <? max then [2 ^ k <=? x] else []).
Definition w_bounded (max : Z) : wire Z := fun i x o =>
  0 <= x < max /\ i = enc_bounded max x ++ o.

(** ** Vectors and rotations *)

(** exclusive bound of the size field of a vector *)
Definition vec_bound (net : Z) : Z := if net <? 7 then 20 else 22.

(** one component of size [s]: biased by [2^(s+1)], in [s+2] bits *)
Definition w_component (s : Z) : wire Z :=
  w_map (fun d => d - 2 ^ (s + 1)) (w_uint (Z.to_nat (s + 2))).
Definition w_vec3i (net : Z) : wire vector3i :=
  s <- w_bounded (vec_bound net);
  x <- w_component s; y <- w_component s; z <- w_component s;
  w_ret (mkV3i x y z).

(** hundredths: the quotient by 100 in binary32 *)
Definition hundredths (x : Z) : f32 :=
  bits_of_sf (SFdiv 24 128 (binary_normalize 24 128 x 0 false)
                           (binary_normalize 24 128 100 0 false)).
Definition w_vec3f (net : Z) : wire vector3f :=
  w_map (fun v => mkV3f (hundredths (v3i_x v)) (hundredths (v3i_y v)) (hundredths (v3i_z v)))
        (w_vec3i net).

(** A velocity at the very end of the data: nothing is read if fewer than five
    bits are left, only the size field if the components do not fit. *)
Definition w_velocity (net : Z) : wire (option vector3f) := fun i v o =>
  match v with
  | Some f => w_vec3f net i f o
  | None =>
      (length i < 5)%nat /\ o = i \/
      (5 <= length i)%nat /\
      exists s, w_bounded (vec_bound net) i s o /\ Z.of_nat (length o) < 3 * (s + 2)
  end.

(** three optional bytes *)
Definition w_rotation : wire rotation :=
  y <- w_opt (w_int 8); p <- w_opt (w_int 8); r <- w_opt (w_int 8);
  w_ret (mkRot y p r).

(** binary32 arithmetic used by the quaternion formats *)
Definition sf (x : Z) : spec_float := binary_normalize 24 128 x 0 false.
Definition sdiv := SFdiv 24 128.
Definition smul := SFmul 24 128.
Definition ssub := SFsub 24 128.
Definition ssqrt := SFsqrt 24 128.
(** 1/sqrt 2 rounded to binary32: 11863283 * 2^-24 *)
Definition inv_sqrt2 : spec_float := S754_finite false 11863283 (-24).

(** old format: sixteen bits each, (d - 32768) * (1 / 32767), w = 0 *)
Definition old_part (d : Z) : spec_float :=
  smul (sf (d - 32768)) (sdiv (sf 1) (sf 32767)).
Definition w_quat_old : wire quaternion :=
  x <- w_uint 16; y <- w_uint 16; z <- w_uint 16;
  w_ret (mkQuat (bits_of_sf (old_part x)) (bits_of_sf (old_part y)) (bits_of_sf (old_part z)) 0).

(** new format: index of the largest component, the three others in 18 bits
    scaled from [0, 2^18) to [-1/sqrt 2, 1/sqrt 2]; the largest is
    sqrt (1 - a^2 - b^2 - c^2), each step fused *)
Definition new_part (d : Z) : spec_float :=
  smul (smul (ssub (sdiv (sf d) (sf 262143)) (sdiv (sf 1) (sf 2))) (sf 2)) inv_sqrt2.
Definition largest_part (a b c : spec_float) : spec_float :=
  ssqrt (sf_fma c (SFopp c) (sf_fma b (SFopp b) (sf_fma a (SFopp a) (sf 1)))).
Definition w_quat_new : wire quaternion :=
  k <- w_uint 2; a <- w_uint 18; b <- w_uint 18; c <- w_uint 18;
  let a := new_part a in let b := new_part b in let c := new_part c in
  let e := bits_of_sf (largest_part a b c) in
  let a := bits_of_sf a in let b := bits_of_sf b in let c := bits_of_sf c in
  w_ret (match k with
         | 0 => mkQuat e a b c
         | 1 => mkQuat a e b c
         | 2 => mkQuat a b e c
         | _ => mkQuat a b c e
         end).

Definition w_trajectory (sp : spawn_trajectory) (net : Z) : wire trajectory :=
  match sp with
  | SpNone => w_ret (mkTraj None None)
  | SpLocation => l <- w_vec3i net; w_ret (mkTraj (Some l) None)
  | SpLocationAndRotation =>
      l <- w_vec3i net; r <- w_rotation; w_ret (mkTraj (Some l) (Some r))
  end.

(** ** Text *)

(** Signed 32-bit size: zero for no text at all, positive for that many
    Windows-1252 bytes, negative for that many UTF-16 units, the last byte or
    unit being the terminator (which is dropped, whatever it is); at most 1024
    bytes. *)
Definition w_text : wire str :=
  n <- w_int 32;
  if n =? 0 then w_ret []
  else if 0 <? n then
    (if n <=? 1024 then
       w_such (fun l s => windows1252 (removelast l) s) (w_bytes (Z.to_nat n))
     else w_none)
  else
    (if - n <=? 512 then
       w_such (fun l s => utf16 (removelast (removelast l)) s) (w_bytes (Z.to_nat (2 * - n)))
     else w_none).

(** [version >= (major, minor, net)], lexicographically *)
Definition at_least (v : version) (a b c : Z) : bool :=
  (a <? v_major v) || ((a =? v_major v) && ((b <? v_minor v) || ((b =? v_minor v) && (c <=? v_net v)))).

(** ** Products *)

Definition w_product_value (P : product_value_decoder) (obj : Z) : wire product_value :=
  let v := pd_version P in
  if obj =? pd_color_ind P then
    if at_least v 868 23 8 then w_map PVNewColor (w_uint 32)
    else c <- w_opt (w_uint 31);
         w_ret (match c with Some x => PVOldColor x | None => PVNoColor end)
  else if obj =? pd_painted_ind P then
    if at_least v 868 18 0 then w_map PVNewPaint (w_uint 31)
    else w_map PVOldPaint (w_bounded 14)
  else if obj =? pd_title_ind P then w_map PVTitle w_text
  else if obj =? pd_special_edition_ind P then w_map PVSpecialEdition (w_uint 31)
  else if obj =? pd_team_edition_ind P then
    if at_least v 868 18 0 then w_map PVNewTeamEdition (w_uint 31)
    else w_map PVOldTeamEdition (w_bounded 14)
  else w_ret PVAbsent.

Definition w_product (P : product_value_decoder) : wire product :=
  u <- w_bit; o <- w_int 32; v <- w_product_value P o; w_ret (mkProduct u o v).
(** a byte counting the entries, each entry a byte counting its products *)
Definition w_online (P : product_value_decoder) : wire (list (list product)) :=
  n <- w_uint 8;
  w_times (Z.to_nat n) (m <- w_uint 8; w_times (Z.to_nat m) (w_product P)).

(** ** Unique ids *)

(** the part of a sixteen byte field before its first zero byte *)
Fixpoint before_nul (l : list byte) : list byte :=
  match l with
  | [] => []
  | x00 :: _ => []
  | b :: t => b :: before_nul t
  end.

Definition w_remote (net sys : Z) : wire remote_id :=
  match sys with
  | 0 => w_map RSplitScreen (w_uint 24)
  | 1 => w_map RSteam (w_uint 64)
  | 2 =>
      name <- w_such (fun l s => windows1252 (before_nul l) s) (w_bytes 16);
      unknown <- w_bytes (if net <? 1 then 8 else 16);
      id <- w_uint 64;
      w_ret (RPlayStation id name unknown)
  | 4 => w_map RXbox (w_uint 64)
  | 5 => w_map RQQ (w_uint 64)
  | 6 => id <- w_uint 64; unknown <- w_bytes 24; w_ret (RSwitch id unknown)
  | 7 => id <- w_uint 64; unknown <- w_bytes (if net <? 10 then 24 else 0);
         w_ret (RPsyNet id unknown)
  | 11 => w_map REpic w_text
  | _ => w_none
  end.
Definition w_unique_tail (net sys : Z) : wire unique_id :=
  r <- w_remote net sys; l <- w_uint 8; w_ret (mkUniqueId sys r l).
Definition w_unique (net : Z) : wire unique_id :=
  sys <- w_uint 8; w_unique_tail net sys.

(** ** Loadouts *)

Definition w_u32 : wire Z := w_uint 32.
Definition w_loadout : wire loadout :=
  v <- w_uint 8;
  body <- w_u32; decal <- w_u32; wheels <- w_u32; rocket <- w_u32; antenna <- w_u32;
  topper <- w_u32; u1 <- w_u32;
  u2 <- w_when (11 <=? v) w_u32;
  engine <- w_when (16 <=? v) w_u32;
  trail <- w_when (16 <=? v) w_u32;
  goal <- w_when (16 <=? v) w_u32;
  banner <- w_when (17 <=? v) w_u32;
  product <- w_when (19 <=? v) w_u32;
  _a <- w_when (22 <=? v) w_u32;
  _b <- w_when (22 <=? v) w_u32;
  _c <- w_when (22 <=? v) w_u32;
  w_ret (mkLoadout v body decal wheels rocket antenna topper u1 u2 engine trail goal banner product).

(** ** Reservations: the name of a split screen player *)

(** Bytes (Latin-1 characters) up to a zero byte; or, without a zero byte, up to
    the character with which the UTF-8 form reaches 255 bytes. *)
Definition w_local_name : wire str := fun i s o =>
  exists cs : list Z,
    utf8 cs s /\ Forall (fun c => 0 < c < 256) cs /\
    (forall p c q t, cs = p ++ c :: q -> utf8 p t -> lenZ t < 255) /\
    (lenZ s < 255 /\ i = concat (map (enc_bits 8) cs) ++ enc_bits 8 0 ++ o \/
     255 <= lenZ s /\ i = concat (map (enc_bits 8) cs) ++ o).

Definition w_reservation_name (u : unique_id) : wire (option str) :=
  if ui_system_id u =? 0 then
    match ui_remote_id u with
    | RSplitScreen 0 => w_ret None
    | _ => w_map Some w_local_name
    end
  else w_map Some w_text.

(** ** Attributes *)

Definition w_active : wire active_actor :=
  a <- w_bit; x <- w_int 32; w_ret (mkActive a x).
Definition w_explosion (net : Z) : wire explosion :=
  f <- w_bit; a <- w_int 32; l <- w_vec3f net; w_ret (mkExplosion f a l).

Definition w_attribute (D : attribute_decoder) (tag : attribute_tag) : wire attribute :=
  let ver := ad_version D in
  let net := v_net ver in
  let vec := w_vec3f net in
  match tag with
  | TBoolean => w_map ABoolean w_bit
  | TByte => w_map AByte (w_uint 8)
  | TAppliedDamage =>
      id <- w_uint 8; pos <- vec; ix <- w_int 32; tot <- w_int 32;
      w_ret (AAppliedDamage (mkApplied id pos ix tot))
  | TDamageState =>
      tile <- w_uint 8; damaged <- w_bit; off <- w_int 32; ball <- vec;
      hit <- w_bit; u <- w_bit;
      w_ret (ADamageState (mkDamage tile damaged off ball hit u))
  | TCamSettings =>
      fov <- w_f32; height <- w_f32; angle <- w_f32; dist <- w_f32; stiff <- w_f32;
      swivel <- w_f32; trans <- w_when (at_least ver 868 20 0) w_f32;
      w_ret (ACamSettings (mkCam fov height angle dist stiff swivel trans))
  | TClubColors =>
      bf <- w_bit; bc <- w_uint 8; of <- w_bit; oc <- w_uint 8;
      w_ret (AClubColors (mkClub bf bc of oc))
  | TDemolish =>
      af <- w_bit; a <- w_int 32; vf <- w_bit; v <- w_int 32; av <- vec; vv <- vec;
      w_ret (ADemolish (mkDemolish af a vf v av vv))
  | TDemolishFx =>
      cf <- w_bit; c <- w_int 32; af <- w_bit; a <- w_int 32; vf <- w_bit; v <- w_int 32;
      av <- vec; vv <- vec;
      w_ret (ADemolishFx (mkDemolishFx cf c af a vf v av vv))
  | TDemolishExtended =>
      pri <- w_active; demo <- w_active; self <- w_bit; goal <- w_active; att <- w_active;
      vic <- w_active; av <- vec; vv <- vec;
      w_ret (ADemolishExtended (mkDemolishExt pri demo self goal att vic av vv))
  | TEnum => w_map AEnum (w_uint 11)
  | TExplosion => w_map AExplosion (w_explosion net)
  | TExtendedExplosion =>
      e <- w_explosion net; u <- w_bit; s <- w_int 32;
      w_ret (AExtendedExplosion (mkExtExplosion e u s))
  | TFlaggedByte => f <- w_bit; x <- w_uint 8; w_ret (AFlaggedByte f x)
  | TActiveActor => w_map AActiveActor w_active
  | TFloat => w_map AFloat w_f32
  | TGameMode =>
      if at_least ver 868 12 0 then w_map (AGameMode 8) (w_uint 8)
      else w_map (AGameMode 2) (w_uint 2)
  | TInt => w_map AInt (w_int 32)
  | TInt64 => w_map AInt64 (w_int 64)
  | TLoadout => w_map ALoadout w_loadout
  | TTeamLoadout =>
      b <- w_loadout; o <- w_loadout; w_ret (ATeamLoadout (mkTeamLoadout b o))
  | TLocation => w_map ALocation vec
  | TMusicStinger =>
      f <- w_bit; cue <- w_u32; tr <- w_uint 8; w_ret (AMusicStinger (mkStinger f cue tr))
  | TPickup => i <- w_opt (w_int 32); p <- w_bit; w_ret (APickup (mkPickup i p))
  | TPickupNew => i <- w_opt (w_int 32); p <- w_uint 8; w_ret (APickupNew (mkPickupNew i p))
  | TPlayerHistoryKey => w_map APlayerHistoryKey (w_uint 14)
  | TQWordString =>
      if ad_is_rl_223 D then w_map AString w_text else w_map AQWord (w_uint 64)
  | TWelded =>
      a <- w_bit; x <- w_int 32; off <- vec; mass <- w_f32; rot <- w_rotation;
      w_ret (AWelded (mkWelded a x off mass rot))
  | TRigidBody =>
      sleeping <- w_bit; loc <- vec;
      rot <- (if 7 <=? net then w_quat_new else w_quat_old);
      if sleeping : bool then w_ret (ARigidBody (mkRigid sleeping loc rot None None))
      else lin <- w_velocity net; ang <- w_velocity net;
           w_ret (ARigidBody (mkRigid sleeping loc rot lin ang))
  | TTitle =>
      u1 <- w_bit; u2 <- w_bit; u3 <- w_u32; u4 <- w_u32; u5 <- w_u32; u6 <- w_u32;
      u7 <- w_u32; u8 <- w_bit;
      w_ret (ATitle u1 u2 u3 u4 u5 u6 u7 u8)
  | TTeamPaint =>
      t <- w_uint 8; pc <- w_uint 8; ac <- w_uint 8; pf <- w_u32; af <- w_u32;
      w_ret (ATeamPaint (mkTeamPaint t pc ac pf af))
  | TNotImplemented => w_none
  | TString => w_map AString w_text
  | TUniqueId => w_map AUniqueId (w_unique net)
  | TReservation =>
      n <- w_uint 3; u <- w_unique net; name <- w_reservation_name u; u1 <- w_bit; u2 <- w_bit;
      u3 <- w_when (at_least ver 868 12 0) (w_uint 6);
      w_ret (AReservation (mkReservation n u name u1 u2 u3))
  | TPartyLeader =>
      sys <- w_uint 8;
      if sys =? 0 then w_ret (APartyLeader None)
      else w_map (fun u => APartyLeader (Some u)) (w_unique_tail net sys)
  | TPrivateMatchSettings =>
      m <- w_text; j <- w_u32; mp <- w_u32; g <- w_text; p <- w_text; f <- w_bit;
      w_ret (APrivateMatch (mkPrivateMatch m j mp g p f))
  | TLoadoutOnline => w_map ALoadoutOnline (w_online (ad_product D))
  | TLoadoutsOnline =>
      b <- w_online (ad_product D); o <- w_online (ad_product D); u1 <- w_bit; u2 <- w_bit;
      w_ret (ALoadoutsOnline (mkLoadoutsOnline b o u1 u2))
  | TStatEvent => u <- w_bit; o <- w_int 32; w_ret (AStatEvent (mkStat u o))
  | TRotationTag => w_map ARotation w_rotation
  | TRepStatTitle =>
      u <- w_bit; n <- w_text; u2 <- w_bit; ix <- w_u32; v <- w_u32;
      w_ret (ARepStatTitle (mkRepStat u n u2 ix v))
  | TPickupInfo =>
      a <- w_active; b <- w_active; c <- w_active; p <- w_bit;
      w_ret (APickupInfo (mkPickupInfo a b c p))
  | TImpulse => c <- w_int 32; s <- w_f32; w_ret (AImpulse (mkImpulse c s))
  | TReplicatedBoost =>
      g <- w_uint 8; b <- w_uint 8; u1 <- w_uint 8; u2 <- w_uint 8;
      w_ret (AReplicatedBoost (mkBoost g b u1 u2))
  | TLogoData => l <- w_u32; s <- w_bit; w_ret (ALogoData (mkLogo l s))
  end.
