(** * JSON values and the serde building blocks

    [json] is the data model serde_json writes and reads.  Numbers are kept as
    integers or [f32] bit patterns; JsonText.v writes the text.  serde_json writes NaN and infinities as [null]. *)

From Coq Require Import ZArith List Bool.
From Verif Require Import Base Text F32.
Open Scope Z_scope.

(** The value behind every [Serialize]/[Deserialize] derive, e.g.
    network/attributes.rs:64. *)
Inductive json : Type :=
| JNull
| JBool (b : bool)
| JInt (x : Z)
| JF32 (x : f32)
| JStr (s : str)
| JArr (l : list json)
| JObj (l : list (str * json)).

(** ** Serialize *)

(** field types of the derives, e.g. network/attributes.rs:124 *)
Definition ser_bool (b : bool) : json := JBool b.
(** e.g. network/attributes.rs:142 *)
Definition ser_u8 (x : Z) : json := JInt x.
(** e.g. network/attributes.rs:75 *)
Definition ser_u16 (x : Z) : json := JInt x.
(** e.g. models.rs:21 *)
Definition ser_u32 (x : Z) : json := JInt x.
(** e.g. network/models.rs:180 *)
Definition ser_i8 (x : Z) : json := JInt x.
(** e.g. models.rs:20 *)
Definition ser_i32 (x : Z) : json := JInt x.
(** [serialize_f32] of serde_json. For fields such as network/models.rs:7. *)
Definition ser_f32 (x : f32) : json := if f32_is_finite x then JF32 x else JNull.
(** e.g. models.rs:25 *)
Definition ser_str (s : str) : json := JStr s.
(** e.g. models.rs:24 *)
Definition ser_opt {A} (f : A -> json) (o : option A) : json :=
  match o with Some a => f a | None => JNull end.
(** e.g. models.rs:34 *)
Definition ser_vec {A} (f : A -> json) (l : list A) : json := JArr (map f l).

(** [Vec<u8>]: a sequence of numbers. network/attributes.rs:312, 322, 333. *)
Definition ser_bytes (l : list byte) : json := JArr (map (fun b => JInt (byteZ b)) l).

(** for [Display], serde_utils.rs:17 *)
Definition digit (x : Z) : byte := byte_of_Z (48 + x).

(** decimal digits of [x >= 0], most significant first. For serde_utils.rs:17. *)
Fixpoint dec_digits (fuel : nat) (x : Z) (acc : str) : str :=
  match fuel with
  | O => acc
  | S f =>
      let acc' := digit (x mod 10) :: acc in
      if x / 10 =? 0 then acc' else dec_digits f (x / 10) acc'
  end.

(** [Display] of a 64-bit integer (at most twenty digits). Called by [collect_str],
    serde_utils.rs:17. *)
Definition display_Z (x : Z) : str :=
  if x <? 0 then "-"%byte :: dec_digits 20 (- x) [] else dec_digits 20 x [].

(** serde_utils.rs:12-18 applied to [i64] and [u64] *)
Definition ser_i64s (x : Z) : json := JStr (display_Z x).
(** serde_utils.rs:12-18 *)
Definition ser_u64s (x : Z) : json := JStr (display_Z x).

(** ** Deserialize; [None] is an error (its message is not modelled) *)

(** counterpart of [ser_bool], network/attributes.rs:124 *)
Definition de_bool (j : json) : option bool := match j with JBool b => Some b | _ => None end.
(** integers are range checked, e.g. network/attributes.rs:142 *)
Definition de_range (lo hi : Z) (j : json) : option Z :=
  match j with JInt x => if (lo <=? x) && (x <=? hi) then Some x else None | _ => None end.
(** network/attributes.rs:142 *)
Definition de_u8 := de_range 0 (2 ^ 8 - 1).
(** network/attributes.rs:75 *)
Definition de_u16 := de_range 0 (2 ^ 16 - 1).
(** network/attributes.rs:103 *)
Definition de_u32 := de_range 0 (2 ^ 32 - 1).
(** network/models.rs:180 *)
Definition de_i8 := de_range (- 2 ^ 7) (2 ^ 7 - 1).
(** network/models.rs:26 *)
Definition de_i32 := de_range (- 2 ^ 31) (2 ^ 31 - 1).
(** an integer is accepted for an [f32] as well. network/models.rs:7. *)
Definition de_f32 (j : json) : option f32 :=
  match j with
  | JF32 x => Some x
  | JInt x => Some (bits_of_sf (sf_of_Z x))
  | _ => None
  end.
(** network/attributes.rs:106 *)
Definition de_str (j : json) : option str := match j with JStr s => Some s | _ => None end.
(** network/attributes.rs:136 *)
Definition de_opt {A} (f : json -> option A) (j : json) : option (option A) :=
  match j with
  | JNull => Some None
  | _ => option_map Some (f j)
  end.
(** elements of a sequence, network/attributes.rs:111 *)
Fixpoint de_list {A} (f : json -> option A) (l : list json) : option (list A) :=
  match l with
  | [] => Some []
  | x :: t =>
      match f x, de_list f t with
      | Some a, Some r => Some (a :: r)
      | _, _ => None
      end
  end.
(** network/attributes.rs:111 *)
Definition de_vec {A} (f : json -> option A) (j : json) : option (list A) :=
  match j with JArr l => de_list f l | _ => None end.
(** [[ActiveActor; 3]], network/attributes.rs:423 *)
Definition de_arr3 {A} (f : json -> option A) (j : json) : option (A * A * A) :=
  match j with
  | JArr [a; b; c] =>
      match f a, f b, f c with
      | Some x, Some y, Some z => Some (x, y, z)
      | _, _, _ => None
      end
  | _ => None
  end.

(** network/attributes.rs:312, 322, 333 *)
Definition de_bytes (j : json) : option (list byte) :=
  de_vec (fun x => option_map byte_of_Z (de_u8 x)) j.

(** for [str::parse], serde_utils.rs:43 *)
Definition digit_value (b : byte) : option Z :=
  let x := byteZ b - 48 in if (0 <=? x) && (x <=? 9) then Some x else None.

(** for [str::parse], serde_utils.rs:43 *)
Fixpoint parse_digits (l : str) (acc : Z) : option Z :=
  match l with
  | [] => Some acc
  | b :: t =>
      match digit_value b with
      | Some d => parse_digits t (acc * 10 + d)
      | None => None
      end
  end.

(** [FromStr] of the integer types: an optional sign ([-] for signed types
    only), at least one digit, value in range. Called at serde_utils.rs:43. *)
Definition parse_int (signed : bool) (lo hi : Z) (s : str) : option Z :=
  let check (o : option Z) :=
    match o with
    | Some x => if (lo <=? x) && (x <=? hi) then Some x else None
    | None => None
    end in
  match s with
  | [] => None
  | b :: t =>
      if byteZ b =? 43 then match t with [] => None | _ => check (parse_digits t 0) end
      else if (byteZ b =? 45) && signed then
        match t with
        | [] => None
        | _ => check (option_map Z.opp (parse_digits t 0))
        end
      else check (parse_digits s 0)
  end.

(** serde_utils.rs:23-48 applied to [i64] and [u64] *)
Definition de_i64s (j : json) : option Z :=
  match j with JStr s => parse_int true (- 2 ^ 63) (2 ^ 63 - 1) s | _ => None end.
(** serde_utils.rs:23-48 *)
Definition de_u64s (j : json) : option Z :=
  match j with JStr s => parse_int false 0 (2 ^ 64 - 1) s | _ => None end.

(** Derived struct visitors: a map whose unknown keys are ignored, duplicates of
    a known key are an error, a missing key is an error except for [Option]
    fields; or a sequence of all fields. e.g. network/attributes.rs:128. *)
Fixpoint all_values (name : str) (fs : list (str * json)) : list json :=
  match fs with
  | [] => []
  | (k, v) :: t => if str_eqb k name then v :: all_values name t else all_values name t
  end.
(** a derived struct visitor reads a map, or a sequence with the fields in order,
    e.g. network/attributes.rs:128-137 *)
Definition de_fields {A} (names : list str) (j : json) (k : list (str * json) -> option A) : option A :=
  match j with
  | JObj fs => k fs
  | JArr l => if Nat.eqb (length l) (length names) then k (combine names l) else None
  | _ => None
  end.
(** a required field, e.g. network/attributes.rs:130 *)
Definition need_field {A C} (name : str) (f : json -> option A) (fs : list (str * json))
    (k : A -> option C) : option C :=
  match all_values name fs with
  | [j] => match f j with Some a => k a | None => None end
  | _ => None
  end.
(** an [Option] field, e.g. network/attributes.rs:136 *)
Definition need_opt_field {A C} (name : str) (f : json -> option A) (fs : list (str * json))
    (k : option A -> option C) : option C :=
  match all_values name fs with
  | [] => k None
  | [j] => match de_opt f j with Some a => k a | None => None end
  | _ => None
  end.
