(** * Specification: what is wrong with a file that is not a replay

    Beside each format of SpecFile stands the set of ways in which bytes can fail
    to have it: what is reported, and the bytes left at the place where reading
    stopped.  All positions in a report follow from that place. *)

From Coq Require Import ZArith List Bool.
From Verif Require Import Base F32 Errors Header Body Parser SpecText SpecFile SpecReplay SpecCrc.
Open Scope Z_scope.

(** ** UTF-8: the first error *)

(** the beginning of a character without its end *)
Definition unfinished (p : bytes) : Prop := p <> [] /\ exists c q, q <> [] /\ utf8_one c (p ++ q).

(** All characters before the error are in [good].  The length of the error is
    that of the longest unfinished character standing there, but at least one; an
    unfinished character at the end of the bytes has no length. *)
Definition utf8_broken (s : bytes) (e : Z * option Z) : Prop :=
  exists good bad, s = good ++ bad /\ valid_utf8 good /\ bad <> [] /\
    (forall c a t, utf8_one c a -> bad <> a ++ t) /\
    fst e = Z.of_nat (length good) /\
    match snd e with
    | None => unfinished bad
    | Some n => ~ unfinished bad /\
        exists p q, bad = p ++ q /\ Z.of_nat (length p) = n /\ (unfinished p \/ length p = 1%nat) /\
          forall p' q', bad = p' ++ q' -> unfinished p' -> (length p' <= length p)%nat
    end.

(** ** Faults *)

Inductive cause :=
| Cut (want : Z)
| LongList (n : Z)
| LongText (n : Z)
| BadUtf8 (e : Z * option Z)
| UnknownKind (kind : str).
(** the names of the parts being read, the outermost first, and the cause *)
Definition fault : Type := list string * cause.

(** [report total t o]: the error for the fault [t] in a file of [total] bytes of
    which [o] are left *)
Definition report_cause (c : cause) (o : bytes) : parse_error :=
  match c with
  | Cut want => EInsufficientData want (Z.of_nat (length o))
  | LongList n => EListTooLarge (if n <? 0 then n + 2 ^ 64 else n)
  | LongText n => ETextTooLarge n
  | BadUtf8 e => EUtf8Error e
  | UnknownKind kind => EUnexpectedProperty kind
  end.
Definition report (total : Z) (t : fault) (o : bytes) : parse_error :=
  fold_right (fun part e => EParseError part (total - Z.of_nat (length o)) e) (report_cause (snd t) o) (fst t).

Definition faulty : Type := bytes -> fault -> bytes -> Prop.

Definition x_none : faulty := fun _ _ _ => False.
Definition x_now (c : cause) : faulty := fun i t o => t = ([], c) /\ o = i.
(** [n] bytes are wanted: a negative number is more than any file has *)
Definition x_cut (n : Z) : faulty := fun i t o => (n < 0 \/ Z.of_nat (length i) < n) /\ x_now (Cut n) i t o.
Definition x_in (part : string) (X : faulty) : faulty := fun i t o =>
  exists parts c, X i (parts, c) o /\ t = (part :: parts, c).
(** the first part of a format is faulty, or the second, which depends on the value of the first *)
Definition x_then {A} (P : form A) (X : faulty) (Y : A -> faulty) : faulty := fun i t o =>
  X i t o \/ exists a m, P i a m /\ Y a m t o.
(** [n] values: some are as they should be, and the next one is faulty *)
Definition x_times {A} (n : nat) (P : form A) (X : faulty) : faulty := fun i t o =>
  exists k l m, (k < n)%nat /\ f_times k P i l m /\ X m t o.

(** ** Numbers, texts, lists *)

Definition x_i32 : faulty := x_cut 4.

Definition x_str : faulty :=
  x_then f_i32 x_i32 (fun n =>
    x_then (if n <? 0 then f_none else f_bytes (Z.to_nat n)) (x_cut n) (fun l i t o =>
      exists e, utf8_broken (removelast l) e /\ x_now (BadUtf8 e) i t o)).

Definition x_text : faulty :=
  x_then f_i32 x_i32 (fun n =>
    if (n <? -10000) || (10000 <? n) then x_now (LongText n)
    else x_cut (if n <? 0 then 2 * - n else n)).

Definition x_counted {A} (P : form A) (X : faulty) (n : Z) : faulty :=
  if (n <? 0) || (25000 <? n) then x_now (LongList n) else x_times (Z.to_nat n) P X.
Definition x_list {A} (P : form A) (X : faulty) : faulty :=
  x_then f_i32 x_i32 (x_counted P X).

(** ** The header *)

Definition kinds : list str :=
  map lit ["BoolProperty"; "ByteProperty"; "ArrayProperty"; "FloatProperty"; "IntProperty"; "QWordProperty";
           "NameProperty"; "StrProperty"; "StructProperty"]%string.

(** [opens i key kind m]: a key other than "None", a kind and eight bytes *)
Definition opens (i : bytes) (kind : str) (o : bytes) : Prop :=
  exists key m1 m2 ignored, f_str i key m1 /\ key <> lit "None" /\ f_str m1 kind m2 /\ f_bytes 8 m2 ignored o.

Inductive x_props (quirks : bool) : faulty :=
| xp_key i t o : x_str i t o -> x_props quirks i t o
| xp_kind i key m t o : f_str i key m -> key <> lit "None" -> x_str m t o -> x_props quirks i t o
| xp_size i key m1 kind m2 t o : f_str i key m1 -> key <> lit "None" -> f_str m1 kind m2 ->
    x_in "property size" (x_cut 4) m2 t o -> x_props quirks i t o
| xp_ignored i key m1 kind m2 size m3 t o : f_str i key m1 -> key <> lit "None" -> f_str m1 kind m2 ->
    f_bytes 4 m2 size m3 -> x_cut 4 m3 t o -> x_props quirks i t o
| xp_value i kind m t o : opens i kind m -> x_value quirks kind m t o -> x_props quirks i t o
| xp_later i kind m v m' t o : opens i kind m -> f_value quirks kind m v m' ->
    x_props quirks m' t o -> x_props quirks i t o
| xp_after_dropped i m m1 b m2 t o : quirks = false -> opens i (lit "ByteProperty") m ->
    f_str m (lit "None") m1 -> f_bytes 1 m1 b m2 -> x_props quirks m2 t o -> x_props quirks i t o
with x_value (quirks : bool) : str -> faulty :=
| xv_bool i t o : x_cut (if quirks then 4 else 1) i t o -> x_value quirks (lit "BoolProperty") i t o
| xv_enum i t o : quirks = false -> x_str i t o -> x_value quirks (lit "ByteProperty") i t o
| xv_enum_none i m t o : quirks = false -> f_str i (lit "None") m -> x_cut 1 m t o ->
    x_value quirks (lit "ByteProperty") i t o
| xv_enum_value i kind m t o : quirks = false -> f_str i kind m -> kind <> lit "None" -> x_str m t o ->
    x_value quirks (lit "ByteProperty") i t o
| xv_enum_quirk i t o : quirks = true -> x_text i t o -> x_value quirks (lit "ByteProperty") i t o
| xv_rows i t o : x_in "array property size" x_i32 i t o -> x_value quirks (lit "ArrayProperty") i t o
| xv_rows_long i n m t o : f_i32 i n m -> ~ 0 <= n <= 25000 -> x_now (LongList n) m t o ->
    x_value quirks (lit "ArrayProperty") i t o
| xv_row i n m k rows m' t o : f_i32 i n m -> n <= 25000 -> Z.of_nat k < n -> f_rows quirks k m rows m' ->
    x_props quirks m' t o -> x_value quirks (lit "ArrayProperty") i t o
| xv_float i t o : x_cut 4 i t o -> x_value quirks (lit "FloatProperty") i t o
| xv_int i t o : x_cut 4 i t o -> x_value quirks (lit "IntProperty") i t o
| xv_qword i t o : x_cut 8 i t o -> x_value quirks (lit "QWordProperty") i t o
| xv_name i t o : x_text i t o -> x_value quirks (lit "NameProperty") i t o
| xv_str i t o : x_text i t o -> x_value quirks (lit "StrProperty") i t o
| xv_struct i t o : x_str i t o -> x_value quirks (lit "StructProperty") i t o
| xv_fields i name m t o : f_str i name m -> x_props quirks m t o -> x_value quirks (lit "StructProperty") i t o
| xv_unknown kind i t o : ~ In kind kinds -> x_now (UnknownKind kind) i t o -> x_value quirks kind i t o.

Definition x_header : faulty :=
  x_then f_i32 (x_in "major version" x_i32) (fun major =>
  x_then f_i32 (x_in "minor version" x_i32) (fun minor =>
  let recent := (865 <? major) && (17 <? minor) in
  x_then (if recent then f_such (fun n v => v = Some n) f_i32 else f_ret None)
         (if recent then x_in "net version" x_i32 else x_none) (fun _ =>
  x_then f_text (x_in "game type" x_text) (fun _ =>
  x_in "header properties" (x_props ((major =? 0) && (minor =? 0))))))).

(** ** The body *)

Definition x_keyframe : faulty := x_then f_f32 (x_cut 4) (fun _ => x_then f_i32 x_i32 (fun _ => x_i32)).
Definition x_debug : faulty := x_then f_i32 x_i32 (fun _ => x_then f_text x_text (fun _ => x_text)).
Definition x_tickmark : faulty := x_then f_text x_text (fun _ => x_i32).
Definition x_class_index : faulty := x_then f_str x_str (fun _ => x_i32).
Definition x_cache_prop : faulty := x_then f_i32 x_i32 (fun _ => x_i32).
Definition x_net_cache : faulty :=
  x_then f_i32 x_i32 (fun _ => x_then f_i32 x_i32 (fun _ => x_then f_i32 x_i32 (fun _ => x_list f_cache_prop x_cache_prop))).

Definition x_network : faulty :=
  x_then f_i32 (x_in "network size" x_i32) (fun n => x_in "network data" (x_cut n)).

Definition x_body : faulty :=
  x_then (f_list f_text) (x_in "levels" (x_list f_text x_text)) (fun _ =>
  x_then (f_list f_keyframe) (x_in "keyframes" (x_list f_keyframe x_keyframe)) (fun _ =>
  x_then f_network x_network (fun _ =>
  x_then (f_list f_debug) (x_in "debug info" (x_list f_debug x_debug)) (fun _ =>
  x_then (f_list f_tickmark) (x_in "tickmarks" (x_list f_tickmark x_tickmark)) (fun _ =>
  x_then (f_list f_text) (x_in "packages" (x_list f_text x_text)) (fun _ =>
  x_then (f_list f_text) (x_in "objects" (x_list f_text x_text)) (fun _ =>
  x_then (f_list f_text) (x_in "names" (x_list f_text x_text)) (fun _ =>
  x_then (f_list f_class_index) (x_in "class index" (x_list f_class_index x_class_index)) (fun _ =>
  x_in "net cache" (x_list f_net_cache x_net_cache)))))))))).

(** ** The file *)

(** the declared size and checksum of a section, and the bytes they are about *)
Definition x_declared (size_part crc_part data_part : string) : faulty :=
  x_then f_i32 (x_in size_part x_i32) (fun size =>
  x_then f_u32 (x_in crc_part (x_cut 4)) (fun _ => x_in data_part (x_cut size))).

(** whether the policy [c] lets a section pass *)
Definition passes (c : crc_check) (crc : Z) (covered : bytes) : Prop := c = CrcAlways -> crc_matches crc covered.

(** the contents of a section are faulty, or its checksum is, or both *)
Definition x_contents (c : crc_check) (total : Z) (section : string) (X : faulty) (crc : Z) (covered m : bytes)
    (e : parse_error) : Prop :=
  (c = CrcAlways /\ ~ crc_matches crc covered /\ e = ECrcMismatch crc (Z.of_N (crc32_unreal covered))) \/
  (exists t o, X m t o /\ (c = CrcNever \/ crc_matches crc covered) /\ e = report total t o) \/
  (exists t o, X m t o /\ c = CrcOnError /\ ~ crc_matches crc covered /\ e = ECorruptReplay section (report total t o)).

Inductive file_fails (c : crc_check) (data : bytes) : parse_error -> Prop :=
| xf_header_declared t o : x_declared "header size" "header crc" "header data" data t o ->
    file_fails c data (report (Z.of_nat (length data)) t o)
| xf_header size crc covered m e : declared data size crc covered m ->
    x_contents c (Z.of_nat (length data)) "header" x_header crc covered m e ->
    file_fails c data e
| xf_body_declared size crc covered m h i t o : declared data size crc covered m -> f_header m h i ->
    passes c crc covered -> x_declared "content size" "content crc" "content data" i t o ->
    file_fails c data (report (Z.of_nat (length data)) t o)
| xf_body size crc covered m h i size' crc' covered' m' e : declared data size crc covered m -> f_header m h i ->
    passes c crc covered -> declared i size' crc' covered' m' ->
    x_contents c (Z.of_nat (length data)) "body" x_body crc' covered' m' e ->
    file_fails c data e.

(** the file consists of the sections [h] and [b], and the policy lets both pass *)
Definition file_is (c : crc_check) (data : bytes) (h : section header) (b : section body) : Prop :=
  (exists rest, f_file data (h, b) rest) /\ passes c (sec_crc h) (sec_bytes h) /\ passes c (sec_crc b) (sec_bytes b).
