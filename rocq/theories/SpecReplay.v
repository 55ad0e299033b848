(** * Specification: replays, error positions *)

From Coq Require Import ZArith List.
From Verif Require Import Base Errors Header Body NetTypes Parser SpecFile SpecCrc.
Open Scope Z_scope.

(** The replay made of the two sections of a file and the frames. *)
Definition replay_of (h : section header) (b : section body) (frames : option (list frame)) : replay :=
  let hv := sec_value h in
  let bv := sec_value b in
  {| r_header_size := sec_size h; r_header_crc := sec_crc h;
     r_major_version := h_major hv; r_minor_version := h_minor hv; r_net_version := h_net hv;
     r_game_type := h_game_type hv; r_properties := h_properties hv;
     r_content_size := sec_size b; r_content_crc := sec_crc b;
     r_network_frames := frames;
     r_levels := b_levels bv; r_keyframes := b_keyframes bv; r_debug_info := b_debug_info bv;
     r_tick_marks := b_tick_marks bv; r_packages := b_packages bv; r_objects := b_objects bv;
     r_names := b_names bv; r_class_indices := b_class_indices bv; r_net_cache := b_net_cache bv |}.

(** the same replay with other frames *)
Definition with_frames (frames : option (list frame)) (r : replay) : replay :=
  {| r_header_size := r_header_size r; r_header_crc := r_header_crc r;
     r_major_version := r_major_version r; r_minor_version := r_minor_version r;
     r_net_version := r_net_version r; r_game_type := r_game_type r; r_properties := r_properties r;
     r_content_size := r_content_size r; r_content_crc := r_content_crc r;
     r_network_frames := frames;
     r_levels := r_levels r; r_keyframes := r_keyframes r; r_debug_info := r_debug_info r;
     r_tick_marks := r_tick_marks r; r_packages := r_packages r; r_objects := r_objects r;
     r_names := r_names r; r_class_indices := r_class_indices r; r_net_cache := r_net_cache r |}.

(** Parsing with the two options given explicitly. *)
Definition parse_with B ho (c : crc_check) (n : network_parse) (data : list byte) :
  outcome parse_error replay :=
  builder_parse B ho (with_network_parse n (with_crc_check c (builder_new data))).

(** The error says consistently that the parser stopped at byte [at_] of a file
    of [len] bytes. *)
Fixpoint located (len at_ : Z) (e : parse_error) : Prop :=
  match e with
  | EParseError _ off e' => off = at_ /\ located len at_ e'
  | EInsufficientData want rest => rest = len - at_ /\ (want < 0 \/ rest < want)
  | ECorruptReplay _ e' => located len at_ e'
  | _ => True
  end.

Definition is_network_error (e : parse_error) : Prop := exists x, e = ENetworkError x.

(** ** Sizes of lists *)

(** every array inside the value has at most 25000 rows *)
Inductive small_value : header_prop -> Prop :=
| sv_array rows : Z.of_nat (length rows) <= 25000 ->
    Forall (Forall (fun kv => small_value (snd kv))) rows -> small_value (HArray rows)
| sv_struct name fields : Forall (fun kv => small_value (snd kv)) fields -> small_value (HStruct name fields)
| sv_leaf v : (forall rows, v <> HArray rows) -> (forall name fields, v <> HStruct name fields) ->
    small_value v.

Definition small {A} (l : list A) : Prop := Z.of_nat (length l) <= 25000.

Definition small_lists (r : replay) : Prop :=
  Forall (fun kv => small_value (snd kv)) (r_properties r) /\
  small (r_levels r) /\ small (r_keyframes r) /\ small (r_debug_info r) /\ small (r_tick_marks r) /\
  small (r_packages r) /\ small (r_objects r) /\ small (r_names r) /\ small (r_class_indices r) /\
  small (r_net_cache r) /\ Forall (fun c => small (nc_properties c)) (r_net_cache r).

(** ** Nesting *)

(** [nested n v]: the value has structs nested [n] deep *)
Inductive nested : nat -> props -> Prop :=
| nested_0 ps : nested 0 ps
| nested_S n key name fields ps : In (key, HStruct name fields) ps -> nested n fields -> nested (S n) ps.

(** ** Checksums *)

Definition crc_matches (crc : Z) (covered : bytes) : Prop := crc = Z.of_N (crc32_unreal covered).
