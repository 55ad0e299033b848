(** * Replay header: model of /repo/src/header.rs *)

From Coq Require Import ZArith List Bool.
From Verif Require Import Base Text F32 Errors Core.
Open Scope Z_scope.

(** models.rs:82-98 *)
Inductive header_prop : Type :=
| HArray (rows : list (list (str * header_prop)))
| HBool (b : bool)
| HByte (kind : str) (value : option str)
| HFloat (x : f32)
| HInt (x : Z)
| HName (s : str)
| HQWord (x : Z)
| HStr (s : str)
| HStruct (name : str) (fields : list (str * header_prop)).

(** [Vec<(String, HeaderProp)>], header.rs:12; models.rs:30 *)
Definition props : Type := list (str * header_prop).

(** models.rs:111-117 *)
Definition as_array (p : header_prop) : option (list props) :=
  match p with HArray a => Some a | _ => None end.
(** models.rs:128-134 *)
Definition as_bool (p : header_prop) : option bool :=
  match p with HBool b => Some b | _ => None end.
(** models.rs:145-151 *)
Definition as_float (p : header_prop) : option f32 :=
  match p with HFloat x => Some x | _ => None end.
(** models.rs:162-168 *)
Definition prop_as_u64 (p : header_prop) : option Z :=
  match p with HQWord x => Some x | _ => None end.
(** models.rs:179-185 *)
Definition prop_as_i32 (p : header_prop) : option Z :=
  match p with HInt x => Some x | _ => None end.
(** models.rs:198-204 *)
Definition as_string (p : header_prop) : option str :=
  match p with HName s | HStr s => Some s | _ => None end.
(** models.rs:218-220 *)
Definition is_byte (p : header_prop) : bool :=
  match p with HByte _ _ => true | _ => false end.

(** header.rs:7-13 *)
Record header := mkHeader {
  h_major : Z; h_minor : Z; h_net : option Z; h_game_type : str; h_properties : props }.

(** [.iter().find(|&(key, _)| key == name)], the value of the first match.
    header.rs:17-19, 24-26, 31-33, 38-40. *)
Definition find_prop (name : string) (ps : props) : option header_prop :=
  str_assoc (lit name) ps.

(** [Option::and_then], header.rs:20, 27, 34, 41 *)
Definition opt_bind {A B} (o : option A) (f : A -> option B) : option B :=
  match o with Some a => f a | None => None end.

(** header.rs:16-21 *)
Definition num_frames (h : header) : option Z :=
  opt_bind (find_prop "NumFrames" (h_properties h)) prop_as_i32.
(** header.rs:23-28 *)
Definition max_channels (h : header) : option Z :=
  opt_bind (find_prop "MaxChannels" (h_properties h)) prop_as_i32.
(** header.rs:30-35 *)
Definition match_type (h : header) : option str :=
  opt_bind (find_prop "MatchType" (h_properties h)) as_string.
(** header.rs:37-42 *)
Definition build_version (h : header) : option str :=
  opt_bind (find_prop "BuildVersion" (h_properties h)) as_string.

(** header.rs:76-79 *)
Inductive parser_mode : Set := Standard | Quirks.

(** header.rs:156-158: [data[0] == 1]; the caller passes one or four bytes *)
Definition bool_prop (data : list byte) : parser header_prop :=
  match data with
  | b :: _ => ret (HBool (byteZ b =? 1))
  | [] => panics PanicIndex
  end.

(** header.rs:81-154 and 160-164.  The [loop] is recursion on [fuel]; nested
    dictionaries are parsed with the remaining fuel.  [continue] (header.rs:110)
    is the [None] result of the inner match.  Results are consed on the way
    back instead of pushed, which is not observable because an error discards
    them. *)
Fixpoint parse_rdict (fuel : nat) (mode : parser_mode) {struct fuel} : parser props :=
  match fuel with
  | O => panics PanicFuel
  | S fuel' =>
      let* key := parse_str in
      if str_eqb key (lit "None") then ret []
      else
        let* kind := parse_str in
        let* _ := take_u32 "property size" in
        let* _ := take_data 4 in
        let* v :=
          (if str_eqb kind (lit "BoolProperty") then
             match mode with
             | Standard => let* d := take_data 1 in fmap Some (bool_prop d)
             | Quirks => let* d := take_data 4 in fmap Some (bool_prop d)
             end
           else if str_eqb kind (lit "ByteProperty") then
             match mode with
             | Standard =>
                 let* k := parse_str in
                 if str_eqb k (lit "None") then
                   let* _ := take_data 1 in ret None
                 else
                   let* value := parse_str in ret (Some (HByte k (Some value)))
             | Quirks => fmap (fun k => Some (HByte k None)) parse_text
             end
           else if str_eqb kind (lit "ArrayProperty") then
             let* size := take_i32 "array property size" in
             let* rows := repeat_of (as_usize size) (parse_rdict fuel' mode) in
             ret (Some (HArray rows))
           else if str_eqb kind (lit "FloatProperty") then
             fmap (fun l => Some (HFloat (le_Z l))) (take 4)
           else if str_eqb kind (lit "IntProperty") then
             fmap (fun l => Some (HInt (as_i32 (le_Z l)))) (take 4)
           else if str_eqb kind (lit "QWordProperty") then
             fmap (fun l => Some (HQWord (le_Z l))) (take 8)
           else if str_eqb kind (lit "NameProperty") then
             fmap (fun t => Some (HName t)) parse_text
           else if str_eqb kind (lit "StrProperty") then
             fmap (fun t => Some (HStr t)) parse_text
           else if str_eqb kind (lit "StructProperty") then
             let* name := parse_str in
             let* fields := parse_rdict fuel' mode in
             ret (Some (HStruct name fields))
           else fail (EUnexpectedProperty kind)) in
        let* rest := parse_rdict fuel' mode in
        ret (match v with Some p => (key, p) :: rest | None => rest end)
  end.

(** header.rs:54-57 *)
Definition mode_of (major minor : Z) (net : option Z) : parser_mode :=
  match net with
  | None => if (major =? 0) && (minor =? 0) then Quirks else Standard
  | Some _ => Standard
  end.

(** header.rs:45-73; the fuel is the number of unread bytes plus one, which
    always suffices (every iteration reads at least four bytes) *)
Definition parse_header : parser header :=
  let* major := take_i32 "major version" in
  let* minor := take_i32 "minor version" in
  let* net :=
    (if (865 <? major) && (17 <? minor)
     then fmap Some (take_i32 "net version") else ret None) in
  let* game_type := in_section "game type" parse_text in
  let* properties :=
    in_section "header properties"
      (fun s => parse_rdict (S (length (c_data s))) (mode_of major minor net) s) in
  ret (mkHeader major minor net game_type properties).
