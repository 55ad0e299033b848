(** * What [#[derive(Hash)]] gives a hasher of a unique id

    The bytes that the calls of [Hasher::write] receive one after the other. They depend on
    what the crate is compiled for. *)

From Coq Require Import ZArith List.
From Verif Require Import Base Text NetTypes.
Import ListNotations.
Open Scope Z_scope.

(** what the crate is compiled for: whether the least significant byte of a number comes first, and the number of
    bytes of a [usize]; used for network/attributes.rs:298-361 *)
Record target := mkTarget { t_little : bool; t_word : nat }.

(** the [n] lowest bytes of a number, the lowest one first: [to_le_bytes] of [core] *)
Fixpoint low_bytes (n : nat) (x : Z) : list byte :=
  match n with O => [] | S n' => byte_of_Z x :: low_bytes n' (x / 256) end.
(** [write_u8], [write_u32], [write_u64], [write_isize], [write_usize] of [core]: [to_ne_bytes] of
    a number of [n] bytes, e.g. for network/attributes.rs:300, 311 *)
Definition fed (T : target) (n : nat) (x : Z) : list byte :=
  if t_little T then low_bytes n x else rev (low_bytes n x).
(** [impl Hash for str] of [core]: the bytes and 0xff. network/attributes.rs:332, 360 *)
Definition fed_str (s : str) : list byte := s ++ [xff].
(** [impl Hash for [u8]] of [core]: the length and the bytes. network/attributes.rs:312, 322, 333 *)
Definition fed_vec (T : target) (l : list byte) : list byte := fed T (t_word T) (lenZ l) ++ l.

(** network/attributes.rs:305-361: the discriminant, an [isize], and the fields *)
Definition fed_remote_id (T : target) (r : remote_id) : list byte :=
  match r with
  | RPlayStation x name u => fed T (t_word T) 0 ++ fed T 8 x ++ fed_str name ++ fed_vec T u
  | RPsyNet x u => fed T (t_word T) 1 ++ fed T 8 x ++ fed_vec T u
  | RSplitScreen x => fed T (t_word T) 2 ++ fed T 4 x
  | RSteam x => fed T (t_word T) 3 ++ fed T 8 x
  | RSwitch x u => fed T (t_word T) 4 ++ fed T 8 x ++ fed_vec T u
  | RXbox x => fed T (t_word T) 5 ++ fed T 8 x
  | RQQ x => fed T (t_word T) 6 ++ fed T 8 x
  | REpic s => fed T (t_word T) 7 ++ fed_str s
  end.
(** network/attributes.rs:298-303 *)
Definition fed_unique_id (T : target) (u : unique_id) : list byte :=
  fed T 1 (ui_system_id u) ++ fed_remote_id T (ui_remote_id u) ++ fed T 1 (ui_local_id u).
