(** * Segmented array: model of /repo/src/network/frame_decoder.rs:13-115 *)

From Coq Require Import ZArith List.
From Verif Require Import Base.

(** frame_decoder.rs:13-17 and the wrapper 72-76 *)
Record seg_array (V : Type) := mkSeg { sg_array : list (option V); sg_map : amap V }.
Arguments mkSeg {V} sg_array sg_map.
Arguments sg_array {V} s.
Arguments sg_map {V} s.

(** frame_decoder.rs:20-27, 97-102 *)
Definition seg_new {V} (size : nat) : seg_array V := mkSeg (repeat None size) [].

(** frame_decoder.rs:29-38; the key has already been converted with
    [Into<usize>] (network/models.rs:270, 294, 317: [x.0 as usize]) *)
Definition raw_insert {V} (key : Z) (v : V) (s : seg_array V) : seg_array V :=
  match setZ key (Some v) (sg_array s) with
  | Some a => mkSeg a (sg_map s)
  | None => mkSeg (sg_array s) (map_insert key v (sg_map s))
  end.

(** frame_decoder.rs:40-45 *)
Definition raw_get {V} (key : Z) (s : seg_array V) : option V :=
  match getZ key (sg_array s) with
  | Some x => x
  | None => map_get key (sg_map s)
  end.

(** frame_decoder.rs:47-54: deletion is skipped in the array part *)
Definition raw_delete {V} (key : Z) (s : seg_array V) : seg_array V :=
  match getZ key (sg_array s) with
  | Some _ => s
  | None => mkSeg (sg_array s) (map_remove key (sg_map s))
  end.

(** frame_decoder.rs:104-114 for keys that wrap an [i32] *)
Definition seg_insert {V} (k : Z) (v : V) (s : seg_array V) := raw_insert (as_usize k) v s.
(** network/frame_decoder.rs:108-110 *)
Definition seg_get {V} (k : Z) (s : seg_array V) := raw_get (as_usize k) s.
(** network/frame_decoder.rs:112-114 *)
Definition seg_delete {V} (k : Z) (s : seg_array V) := raw_delete (as_usize k) s.
