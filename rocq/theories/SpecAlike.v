(** * Specification: replays that look the same in JSON *)

From Coq Require Import ZArith List.
From Verif Require Import Base F32 NetTypes Header Body Parser SpecDecimal SpecFacts SpecJson.
Open Scope Z_scope.

(** header values that are written as a text: names, texts, and 64-bit numbers
    in decimal notation *)
Inductive prints : header_prop -> str -> Prop :=
| pr_name s : prints (HName s) s
| pr_str s : prints (HStr s) s
| pr_qword x s : decimal x s -> prints (HQWord x) s.

(** the same number, or neither is a number that JSON can express *)
Definition same_number (x y : f32) : Prop := x = y \/ (~ finite x /\ ~ finite y).

(** values of the header that differ at most in the type of texts and in floats
    that are not finite *)
Inductive alike : header_prop -> header_prop -> Prop :=
| al_text p q s : prints p s -> prints q s -> alike p q
| al_bool b : alike (HBool b) (HBool b)
| al_int x : alike (HInt x) (HInt x)
| al_byte kind value : alike (HByte kind value) (HByte kind value)
| al_float x y : same_number x y -> alike (HFloat x) (HFloat y)
| al_struct name f g : Forall2 (fun a b => fst a = fst b /\ alike (snd a) (snd b)) f g ->
    alike (HStruct name f) (HStruct name g)
| al_array f g : Forall2 (Forall2 (fun a b => fst a = fst b /\ alike (snd a) (snd b))) f g ->
    alike (HArray f) (HArray g).

(** key by key, in the same order, duplicates included *)
Definition alike_props (f g : props) : Prop := Forall2 (fun a b => fst a = fst b /\ alike (snd a) (snd b)) f g.

Definition alike_key_frame (k l : key_frame) : Prop :=
  same_number (kf_time k) (kf_time l) /\ kf_frame k = kf_frame l /\ kf_position k = kf_position l.

(** everything else is equal *)
Definition alike_replay (r s : replay) : Prop :=
  alike_props (r_properties r) (r_properties s) /\
  Forall2 alike_key_frame (r_keyframes r) (r_keyframes s) /\
  (r_header_size r, r_header_crc r, r_major_version r, r_minor_version r, r_net_version r, r_game_type r) =
  (r_header_size s, r_header_crc s, r_major_version s, r_minor_version s, r_net_version s, r_game_type s) /\
  (r_content_size r, r_content_crc r, r_network_frames r, r_levels r, r_debug_info r, r_tick_marks r) =
  (r_content_size s, r_content_crc s, r_network_frames s, r_levels s, r_debug_info s, r_tick_marks s) /\
  (r_packages r, r_objects r, r_names r, r_class_indices r, r_net_cache r) =
  (r_packages s, r_objects s, r_names s, r_class_indices s, r_net_cache s).

Definition finite_frames (r : replay) : Prop :=
  match r_network_frames r with Some fs => Forall finite (flat_map floats_frame fs) | None => True end.

(** the 64-bit numbers of a header value are 64-bit numbers *)
Inductive sized : header_prop -> Prop :=
| sz_qword x : is_u64 x -> sized (HQWord x)
| sz_array rows : Forall (Forall (fun kv => sized (snd kv))) rows -> sized (HArray rows)
| sz_struct name fields : Forall (fun kv => sized (snd kv)) fields -> sized (HStruct name fields)
| sz_leaf v : (forall x, v <> HQWord x) -> (forall rows, v <> HArray rows) ->
    (forall name fields, v <> HStruct name fields) -> sized v.
