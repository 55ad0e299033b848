(** * Specification: a writer of replay files

    The parser has no counterpart that writes.  This one writes the shortest file
    for a header and a body; it shares only the data types with the model. *)

From Coq Require Import ZArith List Bool.
From Verif Require Import Base F32 Header Body Parser SpecText SpecFile SpecReplay SpecCrc.
Open Scope Z_scope.

(** ** Numbers *)

Definition low_byte (x : Z) : byte := match Byte.of_N (Z.to_N (x mod 256)) with Some b => b | None => x00 end.
Fixpoint write_int (n : nat) (x : Z) : bytes :=
  match n with
  | O => []
  | S n' => low_byte x :: write_int n' (x / 256)
  end.
Definition count {A} (l : list A) : Z := Z.of_nat (length l).

(** ** Texts *)

(** the code points of a valid UTF-8 string *)
Fixpoint points (s : str) : list Z :=
  match s with
  | [] => []
  | a :: s1 =>
      let a := byteZ a in
      if a <? 0x80 then a :: points s1
      else match s1 with
      | [] => []
      | b :: s2 =>
          let b := byteZ b mod 64 in
          if a <? 0xE0 then 64 * (a - 0xC0) + b :: points s2
          else match s2 with
          | [] => []
          | c :: s3 =>
              let c := byteZ c mod 64 in
              if a <? 0xF0 then 4096 * (a - 0xE0) + 64 * b + c :: points s3
              else match s3 with
              | [] => []
              | d :: s4 => 262144 * (a - 0xF0) + 4096 * b + 64 * c + byteZ d mod 64 :: points s4
              end
          end
      end
  end.

Definition point_1252 (x : Z) : Z := match windows1252_high x with Some c => c | None => x end.
Definition byte_1252 (c : Z) : option byte :=
  option_map low_byte (find (fun x => point_1252 x =? c) (map Z.of_nat (seq 0 256))).
Fixpoint bytes_1252 (cs : list Z) : option bytes :=
  match cs with
  | [] => Some []
  | c :: cs' =>
      match byte_1252 c, bytes_1252 cs' with
      | Some b, Some l => Some (b :: l)
      | _, _ => None
      end
  end.

(** nothing, or Windows-1252 if possible, or UTF-16 *)
Definition write_text (s : str) : bytes :=
  match points s with
  | [] => write_int 4 0
  | cs =>
      match bytes_1252 cs with
      | Some l => write_int 4 (count l + 1) ++ l ++ [x00]
      | None =>
          let us := flat_map utf16_units_of cs in
          write_int 4 (- (count us + 1)) ++ flat_map (write_int 2) us ++ [x00; x00]
      end
  end.
Definition write_str (s : str) : bytes :=
  match s with
  | [] => write_int 4 0
  | _ => write_int 4 (count s + 1) ++ s ++ [x00]
  end.

Definition write_list {A} (w : A -> bytes) (l : list A) : bytes := write_int 4 (count l) ++ flat_map w l.

(** ** The header *)

Definition kind_name (v : header_prop) : string :=
  match v with
  | HArray _ => "ArrayProperty" | HBool _ => "BoolProperty" | HByte _ _ => "ByteProperty"
  | HFloat _ => "FloatProperty" | HInt _ => "IntProperty" | HName _ => "NameProperty"
  | HQWord _ => "QWordProperty" | HStr _ => "StrProperty" | HStruct _ _ => "StructProperty"
  end.

Definition write_entries (w : header_prop -> bytes) (ps : props) : bytes :=
  flat_map (fun '(k, v) => write_str k ++ write_str (lit (kind_name v)) ++ write_int 8 0 ++ w v) ps ++ write_str (lit "None").

Fixpoint write_value (quirks : bool) (v : header_prop) : bytes :=
  match v with
  | HArray rows => write_list (write_entries (write_value quirks)) rows
  | HBool b => write_int (if quirks then 4 else 1) (if b then 1 else 0)
  | HByte kind (Some value) => write_str kind ++ write_str value
  | HByte kind None => write_text kind
  | HFloat x => write_int 4 x
  | HInt x => write_int 4 x
  | HName s => write_text s
  | HQWord x => write_int 8 x
  | HStr s => write_text s
  | HStruct name fields => write_str name ++ write_entries (write_value quirks) fields
  end.

Definition oldest (h : header) : bool := (h_major h =? 0) && (h_minor h =? 0).
Definition write_header (h : header) : bytes :=
  write_int 4 (h_major h) ++ write_int 4 (h_minor h) ++
  match h_net h with Some n => write_int 4 n | None => [] end ++
  write_text (h_game_type h) ++ write_entries (write_value (oldest h)) (h_properties h).

(** ** The body *)

Definition write_keyframe (k : key_frame) : bytes :=
  write_int 4 (kf_time k) ++ write_int 4 (kf_frame k) ++ write_int 4 (kf_position k).
Definition write_debug (d : debug_info) : bytes :=
  write_int 4 (di_frame d) ++ write_text (di_user d) ++ write_text (di_text d).
Definition write_tickmark (t : tick_mark) : bytes := write_text (tm_description t) ++ write_int 4 (tm_frame t).
Definition write_class_index (c : class_index) : bytes := write_str (cx_class c) ++ write_int 4 (cx_index c).
Definition write_cache_prop (p : cache_prop) : bytes := write_int 4 (cp_object_ind p) ++ write_int 4 (cp_stream_id p).
Definition write_net_cache (c : class_net_cache) : bytes :=
  write_int 4 (nc_object_ind c) ++ write_int 4 (nc_parent_id c) ++ write_int 4 (nc_cache_id c) ++
  write_list write_cache_prop (nc_properties c).
Definition write_body (b : body) : bytes :=
  write_list write_text (b_levels b) ++ write_list write_keyframe (b_keyframes b) ++
  (write_int 4 (count (b_network_data b)) ++ b_network_data b) ++
  write_list write_debug (b_debug_info b) ++ write_list write_tickmark (b_tick_marks b) ++
  write_list write_text (b_packages b) ++ write_list write_text (b_objects b) ++ write_list write_text (b_names b) ++
  write_list write_class_index (b_class_indices b) ++ write_list write_net_cache (b_net_cache b).

(** ** The file *)

Definition section_of {A} (l : bytes) (x : A) : section A := mkSection (count l) (Z.of_N (crc32_unreal l)) l x.
Definition write_section (l : bytes) : bytes := write_int 4 (count l) ++ write_int 4 (Z.of_N (crc32_unreal l)) ++ l.
Definition write_file (h : header) (b : body) : bytes :=
  write_section (write_header h) ++ write_section (write_body b).

(** ** What can be written *)

Definition i32_ok (x : Z) : Prop := - 2 ^ 31 <= x < 2 ^ 31.
Definition u32_ok (x : Z) : Prop := 0 <= x < 2 ^ 32.
(** at most 9999 UTF-16 units *)
Definition text_ok (s : str) : Prop := exists cs, utf8 cs s /\ count (flat_map utf16_units_of cs) <= 9999.
Definition list_ok {A} (P : A -> Prop) (l : list A) : Prop := count l <= 25000 /\ Forall P l.

(** "None" ends the properties, and marks an enum to be dropped *)
Definition key_ok (k : str) : Prop := valid_utf8 k /\ k <> lit "None".

Inductive value_ok (quirks : bool) : header_prop -> Prop :=
| ok_array rows : count rows <= 25000 ->
    Forall (Forall (fun kv => key_ok (fst kv) /\ value_ok quirks (snd kv))) rows -> value_ok quirks (HArray rows)
| ok_bool b : value_ok quirks (HBool b)
| ok_byte kind value : quirks = false -> key_ok kind -> valid_utf8 value -> value_ok quirks (HByte kind (Some value))
| ok_byte_quirk kind : quirks = true -> text_ok kind -> value_ok quirks (HByte kind None)
| ok_float x : u32_ok x -> value_ok quirks (HFloat x)
| ok_int x : i32_ok x -> value_ok quirks (HInt x)
| ok_name s : text_ok s -> value_ok quirks (HName s)
| ok_qword x : 0 <= x < 2 ^ 64 -> value_ok quirks (HQWord x)
| ok_str s : text_ok s -> value_ok quirks (HStr s)
| ok_struct name fields : valid_utf8 name ->
    Forall (fun kv => key_ok (fst kv) /\ value_ok quirks (snd kv)) fields -> value_ok quirks (HStruct name fields).
Definition props_ok (quirks : bool) (ps : props) : Prop := Forall (fun kv => key_ok (fst kv) /\ value_ok quirks (snd kv)) ps.

Definition header_ok (h : header) : Prop :=
  i32_ok (h_major h) /\ i32_ok (h_minor h) /\
  match h_net h with
  | Some n => h_major h > 865 /\ h_minor h > 17 /\ i32_ok n
  | None => ~ (h_major h > 865 /\ h_minor h > 17)
  end /\
  text_ok (h_game_type h) /\ props_ok (oldest h) (h_properties h).

Definition body_ok (b : body) : Prop :=
  list_ok text_ok (b_levels b) /\
  list_ok (fun k => u32_ok (kf_time k) /\ i32_ok (kf_frame k) /\ i32_ok (kf_position k)) (b_keyframes b) /\
  list_ok (fun d => i32_ok (di_frame d) /\ text_ok (di_user d) /\ text_ok (di_text d)) (b_debug_info b) /\
  list_ok (fun t => text_ok (tm_description t) /\ i32_ok (tm_frame t)) (b_tick_marks b) /\
  list_ok text_ok (b_packages b) /\ list_ok text_ok (b_objects b) /\ list_ok text_ok (b_names b) /\
  list_ok (fun c => valid_utf8 (cx_class c) /\ i32_ok (cx_index c)) (b_class_indices b) /\
  list_ok (fun c => i32_ok (nc_object_ind c) /\ i32_ok (nc_parent_id c) /\ i32_ok (nc_cache_id c) /\
             list_ok (fun p => i32_ok (cp_object_ind p) /\ i32_ok (cp_stream_id p)) (nc_properties c)) (b_net_cache b).

(** ** Replays with the same contents *)

(** sizes and checksums aside *)
Definition same_contents (r r' : replay) : Prop :=
  r_major_version r' = r_major_version r /\ r_minor_version r' = r_minor_version r /\ r_net_version r' = r_net_version r /\
  r_game_type r' = r_game_type r /\ r_properties r' = r_properties r /\ r_network_frames r' = r_network_frames r /\
  r_levels r' = r_levels r /\ r_keyframes r' = r_keyframes r /\ r_debug_info r' = r_debug_info r /\
  r_tick_marks r' = r_tick_marks r /\ r_packages r' = r_packages r /\ r_objects r' = r_objects r /\
  r_names r' = r_names r /\ r_class_indices r' = r_class_indices r /\ r_net_cache r' = r_net_cache r.
