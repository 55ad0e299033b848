(** * Specification of the replay file format (bytes)

    A format relates the bytes at hand, the value they start with and the bytes
    that follow.  Only the data types are shared with the model. *)

From Coq Require Import ZArith List Bool.
From Verif Require Import Base F32 Header Body SpecText.
Open Scope Z_scope.

Definition bytes : Type := list byte.
Definition form (A : Type) : Type := bytes -> A -> bytes -> Prop.

Definition f_ret {A} (a : A) : form A := fun i v o => v = a /\ o = i.
Definition f_bind {A C} (P : form A) (Q : A -> form C) : form C :=
  fun i v o => exists a m, P i a m /\ Q a m v o.
Definition f_none {A} : form A := fun _ _ _ => False.
(** a value standing in the relation [R] to what is read *)
Definition f_such {A C} (R : A -> C -> Prop) (P : form A) : form C :=
  fun i v o => exists a, P i a o /\ R a v.

Declare Scope form_scope.
Delimit Scope form_scope with form.
Notation "x <- P ; Q" := (f_bind P (fun x => Q))
  (at level 61, P at next level, right associativity) : form_scope.
Local Open Scope form_scope.

(** [n] values one after the other *)
Fixpoint f_times {A} (n : nat) (P : form A) : form (list A) :=
  match n with
  | O => f_ret []
  | S n' => x <- P; xs <- f_times n' P; f_ret (x :: xs)
  end.

(** ** Numbers *)

Definition f_bytes (n : nat) : form bytes := fun i l o => length l = n /\ i = l ++ o.

(** [l] is the little-endian form of [x] modulo [256 ^ length l] *)
Fixpoint little_endian (x : Z) (l : bytes) : Prop :=
  match l with
  | [] => True
  | b :: t => is b (x mod 256) /\ little_endian (x / 256) t
  end.
Definition f_uint (n : nat) : form Z :=
  f_such (fun l x => 0 <= x < 256 ^ Z.of_nat n /\ little_endian x l) (f_bytes n).
Definition f_i32 : form Z :=
  f_such (fun l x => - 2 ^ 31 <= x < 2 ^ 31 /\ little_endian x l) (f_bytes 4).
Definition f_u32 : form Z := f_uint 4.
(** IEEE binary32, by its bit pattern *)
Definition f_f32 : form f32 := f_uint 4.

(** ** Texts and lists *)

(** A key: byte count, UTF-8 bytes, the last one being the terminator (dropped,
    whatever it is). *)
Definition f_str : form str :=
  n <- f_i32;
  if n <? 0 then f_none
  else f_such (fun l s => s = removelast l /\ valid_utf8 s) (f_bytes (Z.to_nat n)).

(** A text: a count of Windows-1252 bytes, or the negated count of UTF-16
    units, at most 10000; the last byte or unit is the terminator. *)
Definition f_text : form str :=
  n <- f_i32;
  if (n <? -10000) || (10000 <? n) then f_none
  else if n <? 0
  then f_such (fun l s => utf16 (removelast (removelast l)) s) (f_bytes (Z.to_nat (2 * - n)))
  else f_such (fun l s => windows1252 (removelast l) s) (f_bytes (Z.to_nat n)).

(** A list: at most 25000 elements after their count. *)
Definition f_counted {A} (P : form A) (n : Z) : form (list A) :=
  if (n <? 0) || (25000 <? n) then f_none else f_times (Z.to_nat n) P.
Definition f_list {A} (P : form A) : form (list A) :=
  n <- f_i32; f_counted P n.

(** ** The header *)

(** Properties: entries up to the key "None".  An entry is a key, the name of
    its kind, eight ignored bytes, and a value.  The oldest replays ([quirks])
    spend four bytes on a bool and store an enum as one text.  In other replays
    an enum whose type is "None" is one ignored byte and leaves no property. *)
Inductive f_props (quirks : bool) : bytes -> props -> bytes -> Prop :=
| fp_end i o :
    f_str i (lit "None") o -> f_props quirks i [] o
| fp_entry i key m1 kind m2 ignored m3 v m4 rest o :
    f_str i key m1 -> key <> lit "None" ->
    f_str m1 kind m2 -> f_bytes 8 m2 ignored m3 ->
    f_value quirks kind m3 v m4 ->
    f_props quirks m4 rest o ->
    f_props quirks i ((key, v) :: rest) o
| fp_dropped i key m1 m2 ignored m3 m4 b m5 rest o :
    quirks = false ->
    f_str i key m1 -> key <> lit "None" ->
    f_str m1 (lit "ByteProperty") m2 -> f_bytes 8 m2 ignored m3 ->
    f_str m3 (lit "None") m4 -> f_bytes 1 m4 b m5 ->
    f_props quirks m5 rest o ->
    f_props quirks i rest o
with f_value (quirks : bool) : str -> bytes -> header_prop -> bytes -> Prop :=
| fv_bool i b l o :
    f_bytes (if quirks then 4 else 1) i (b :: l) o ->
    f_value quirks (lit "BoolProperty") i (HBool (byteZ b =? 1)) o
| fv_byte i kind m value o :
    quirks = false -> f_str i kind m -> kind <> lit "None" -> f_str m value o ->
    f_value quirks (lit "ByteProperty") i (HByte kind (Some value)) o
| fv_byte_quirk i kind o :
    quirks = true -> f_text i kind o ->
    f_value quirks (lit "ByteProperty") i (HByte kind None) o
| fv_array i n m rows o :
    f_i32 i n m -> 0 <= n <= 25000 -> f_rows quirks (Z.to_nat n) m rows o ->
    f_value quirks (lit "ArrayProperty") i (HArray rows) o
| fv_float i x o : f_f32 i x o -> f_value quirks (lit "FloatProperty") i (HFloat x) o
| fv_int i x o : f_i32 i x o -> f_value quirks (lit "IntProperty") i (HInt x) o
| fv_qword i x o : f_uint 8 i x o -> f_value quirks (lit "QWordProperty") i (HQWord x) o
| fv_name i s o : f_text i s o -> f_value quirks (lit "NameProperty") i (HName s) o
| fv_str i s o : f_text i s o -> f_value quirks (lit "StrProperty") i (HStr s) o
| fv_struct i name m fields o :
    f_str i name m -> f_props quirks m fields o ->
    f_value quirks (lit "StructProperty") i (HStruct name fields) o
with f_rows (quirks : bool) : nat -> bytes -> list props -> bytes -> Prop :=
| fr_nil i : f_rows quirks 0 i [] i
| fr_cons n i r m rows o :
    f_props quirks i r m -> f_rows quirks n m rows o -> f_rows quirks (S n) i (r :: rows) o.

Definition f_header : form header :=
  major <- f_i32;
  minor <- f_i32;
  net <- (if (865 <? major) && (17 <? minor) then f_such (fun n v => v = Some n) f_i32 else f_ret None);
  game <- f_text;
  ps <- f_props ((major =? 0) && (minor =? 0));
  f_ret (mkHeader major minor net game ps).

(** ** The body *)

Definition f_keyframe : form key_frame :=
  t <- f_f32; f <- f_i32; p <- f_i32; f_ret (mkKeyFrame t f p).
Definition f_debug : form debug_info :=
  f <- f_i32; u <- f_text; t <- f_text; f_ret (mkDebug f u t).
Definition f_tickmark : form tick_mark :=
  d <- f_text; f <- f_i32; f_ret (mkTick d f).
Definition f_class_index : form class_index :=
  c <- f_str; i <- f_i32; f_ret (mkClassIndex c i).
Definition f_cache_prop : form cache_prop :=
  o <- f_i32; s <- f_i32; f_ret (mkCacheProp o s).
Definition f_net_cache : form class_net_cache :=
  o <- f_i32; p <- f_i32; c <- f_i32; ps <- f_list f_cache_prop; f_ret (mkNetCache o p c ps).

(** The network data: a byte count and that many bytes. *)
Definition f_network : form bytes :=
  n <- f_i32; if n <? 0 then f_none else f_bytes (Z.to_nat n).

Definition f_body : form body :=
  levels <- f_list f_text;
  keyframes <- f_list f_keyframe;
  network <- f_network;
  debug <- f_list f_debug;
  ticks <- f_list f_tickmark;
  packages <- f_list f_text;
  objects <- f_list f_text;
  names <- f_list f_text;
  classes <- f_list f_class_index;
  caches <- f_list f_net_cache;
  f_ret (mkBody levels keyframes debug ticks packages objects names classes caches network).

(** ** The file: two sections, each preceded by its declared size and checksum *)

(** [f_section P]: size, checksum, the bytes the size declares (which start where
    the section starts, but need not end where it ends), and the contents. *)
Record section (A : Type) := mkSection {
  sec_size : Z; sec_crc : Z; sec_bytes : bytes; sec_value : A }.
Arguments mkSection {A}.
Arguments sec_size {A}.
Arguments sec_crc {A}.
Arguments sec_bytes {A}.
Arguments sec_value {A}.

(** [declared i size crc covered m]: the bytes [i] start with a size and a
    checksum, followed by [m], whose first [size] bytes are [covered]. *)
Definition declared (i : bytes) (size crc : Z) (covered m : bytes) : Prop :=
  exists m1, f_i32 i size m1 /\ f_u32 m1 crc m /\
    0 <= size /\ Z.of_nat (length covered) = size /\ exists after, m = covered ++ after.

Definition f_section {A} (P : form A) : form (section A) := fun i v o =>
  exists size crc covered m x,
    declared i size crc covered m /\ P m x o /\ v = mkSection size crc covered x.

Definition f_file : form (section header * section body) :=
  h <- f_section f_header; b <- f_section f_body; f_ret (h, b).
