(** * Base: outcomes, state-passing computations, machine integers

    Shared vocabulary of the model.  Nothing in this file is specific to one
    Rust function; each definition says which Rust notion it stands for. *)

From Coq Require Import ZArith Bool.
From Coq Require Export Strings.String.
From Coq Require Export Init.Byte Strings.Byte.
From Coq Require Export Lists.List.
Export ListNotations.
Open Scope Z_scope.
Open Scope list_scope.

(** Reasons for which a Rust program aborts (or, for [PanicFuel], for which a
    fuelled loop of the model stops; /repo has no such construct, theorem C01
    shows it is never produced). Sites: core_parser.rs:37, 50, 64 (overflow);
    header.rs:157 (index); network/attributes.rs:609 and network/models.rs:172
    (unreachable); bits.rs:19-23 (lookahead); bits.rs:36, 51 and network/models.rs:76
    (assertions). *)
Inductive panic : Set :=
| PanicOverflow      (* arithmetic overflow in a debug build *)
| PanicIndex         (* slice / vector index out of range *)
| PanicUnreachable   (* unreachable!() *)
| PanicLookahead     (* bitter: peek / consume beyond the lookahead *)
| PanicAssert        (* debug_assert! *)
| PanicFuel.         (* model artefact: loop did not finish *)

(** Result of running Rust code: [Ok]/[Err] of [std::result::Result], or a panic. e.g.
    parser.rs:319, core_parser.rs:42. *)
Inductive outcome (E A : Type) : Type :=
| Ok (a : A)
| Err (e : E)
| Panic (p : panic).
Arguments Ok {E A} a.
Arguments Err {E A} e.
Arguments Panic {E A} p.

(** A Rust function taking [&mut S] and returning [Result<A, E>].  The final
    state is returned with errors as well: boxcars reads it when it builds
    error messages (core_parser.rs:72, header.rs:61, parser.rs:465). *)
Definition comp (S E A : Type) : Type := S -> outcome E A * S.

(** [Ok(a)], e.g. core_parser.rs:52. *)
Definition ret {S E A} (a : A) : comp S E A := fun s => (Ok a, s).
(** [Err(e)], e.g. core_parser.rs:123. *)
Definition fail {S E A} (e : E) : comp S E A := fun s => (Err e, s).
(** a panic, e.g. network/attributes.rs:609. *)
Definition panics {S E A} (p : panic) : comp S E A := fun s => (Panic p, s).

(** Sequencing with [?]: stop at the first error. e.g. header.rs:46-47. *)
Definition bind {S E A B} (m : comp S E A) (k : A -> comp S E B) : comp S E B :=
  fun s =>
    match m s with
    | (Ok a, s') => k a s'
    | (Err e, s') => (Err e, s')
    | (Panic p, s') => (Panic p, s')
    end.

(** [Result::map]. e.g. core_parser.rs:71. *)
Definition fmap {S E A B} (f : A -> B) (m : comp S E A) : comp S E B :=
  bind m (fun a => ret (f a)).

(** [Result::map_err]; the closure may look at the state after the failure. e.g.
    core_parser.rs:72. *)
Definition map_err {S E F A} (f : S -> E -> F) (m : comp S E A) : comp S F A :=
  fun s =>
    match m s with
    | (Ok a, s') => (Ok a, s')
    | (Err e, s') => (Err (f s' e), s')
    | (Panic p, s') => (Panic p, s')
    end.

(** [Option::ok_or]: an [Option]-returning function is a computation with error
    type [unit]. e.g. network/frame_decoder.rs:186-188. *)
Definition ok_or {S E A} (e : E) (m : comp S unit A) : comp S E A :=
  map_err (fun _ _ => e) m.

(** [Result::ok]. network/attributes.rs:513. *)
Definition to_option {S E A} (m : comp S E A) : comp S unit A :=
  map_err (fun _ _ => tt) m.

(** Run a fallible computation and continue with [Some]/[None] instead of
    propagating the failure (the state is the one after the failure).
    network/attributes.rs:1270-1271. *)
Definition attempt {S E A} (m : comp S unit A) : comp S E (option A) :=
  fun s =>
    match m s with
    | (Ok a, s') => (Ok (Some a), s')
    | (Err _, s') => (Ok None, s')
    | (Panic p, s') => (Panic p, s')
    end.

Declare Scope comp_scope.
Delimit Scope comp_scope with comp.
(** [let x = m?;], e.g. header.rs:46. *)
Notation "'let*' x ':=' m 'in' k" := (bind m (fun x => k))
  (at level 61, x name, m at next level, right associativity) : comp_scope.
(** [let x = m?;], e.g. header.rs:46. *)
Notation "'let*' ' p ':=' m 'in' k" := (bind m (fun x => match x with p => k end))
  (at level 61, p pattern, m at next level, right associativity) : comp_scope.
(** [m?;], e.g. network/attributes.rs:1595. *)
Notation "m ';;' k" := (bind m (fun _ => k))
  (at level 62, right associativity) : comp_scope.
Open Scope comp_scope.

(** ** Machine integers (all are [Z]; casts are explicit) *)

(** value of a [u8], e.g. crc.rs:76. *)
Definition byteZ (b : byte) : Z := Z.of_N (Byte.to_N b).

(** Little-endian value of a byte string: [uN::from_le_bytes]. core_parser.rs:71, 77;
    header.rs:127, 131, 135. *)
Fixpoint le_Z (l : list byte) : Z :=
  match l with
  | [] => 0
  | b :: t => byteZ b + 256 * le_Z t
  end.

(** [x as i32], [x as i8], [x as i64] for a value given modulo 2^n. core_parser.rs:50;
    network/models.rs:49, 190. *)
Definition to_signed (bits : Z) (x : Z) : Z :=
  let y := x mod 2 ^ bits in
  if y <? 2 ^ (bits - 1) then y else y - 2 ^ bits.
(** network/models.rs:190. *)
Definition as_i8 := to_signed 8.
(** core_parser.rs:50; network/models.rs:49. *)
Definition as_i32 := to_signed 32.
(** [BitReader::read_i64], network/attributes.rs:1070. *)
Definition as_i64 := to_signed 64.
(** [x as u32], [x as u64], [x as usize] (64-bit platform).
    network/attributes.rs:1052. *)
Definition as_u8 (x : Z) : Z := x mod 2 ^ 8.
(** network/attributes.rs:627, 861. *)
Definition as_u16 (x : Z) : Z := x mod 2 ^ 16.
(** network/attributes.rs:497; network/mod.rs:159. *)
Definition as_u32 (x : Z) : Z := x mod 2 ^ 32.
(** network/mod.rs:140. *)
Definition as_u64 (x : Z) : Z := x mod 2 ^ 64.
(** core_parser.rs:102, 112; network/models.rs:270. *)
Definition as_usize (x : Z) : Z := x mod 2 ^ 64.

(** [slice::len] as an integer. core_parser.rs:25; network/mod.rs:167. *)
Definition lenZ {A} (l : list A) : Z := Z.of_nat (length l).

(** [i32] overflow test used for [self.col += n] (core_parser.rs:37,50,64). *)
Definition fits_i32 (x : Z) : bool := (- 2 ^ 31 <=? x) && (x <? 2 ^ 31).

(** [slice::split_at_checked] / [slice::get(..n)]: the first [n] elements and
    the rest, or [None] when there are fewer. core_parser.rs:23, 32, 45, 59. *)
Fixpoint split_at {A} (n : Z) (l : list A) {struct l} : option (list A * list A) :=
  if n <=? 0 then Some ([], l) else
  match l with
  | [] => None
  | x :: t =>
      match split_at (n - 1) t with
      | Some (h, r) => Some (x :: h, r)
      | None => None
      end
  end.

(** [slice::get(i)] for a [usize] index. network/frame_decoder.rs:41;
    network/mod.rs:90. *)
Fixpoint getZ {A} (i : Z) (l : list A) {struct l} : option A :=
  match l with
  | [] => None
  | x :: t => if i =? 0 then Some x else getZ (i - 1) t
  end.

(** [v[i] = x] for an index that is in range; [None] is the out-of-range panic.
    network/frame_decoder.rs:30-32; network/mod.rs:59, 153. *)
Fixpoint setZ {A} (i : Z) (x : A) (l : list A) {struct l} : option (list A) :=
  match l with
  | [] => None
  | y :: t =>
      if i =? 0 then Some (x :: t)
      else match setZ (i - 1) x t with
           | Some t' => Some (y :: t')
           | None => None
           end
  end.

(** ** Strings: Rust [str]/[String] is its UTF-8 bytes *)

(** [String] and [&str], e.g. models.rs:25. *)
Definition str : Type := list byte.
(** A string literal of the Rust source. e.g. header.rs:90. *)
Definition lit (s : string) : str := list_byte_of_string s.

(** [==] on strings, header.rs:90, 108. *)
Fixpoint str_eqb (a b : str) : bool :=
  match a, b with
  | [], [] => true
  | x :: a', y :: b' => Byte.eqb x y && str_eqb a' b'
  | _, _ => false
  end.

(** [Ord for str]: lexicographic on bytes; [str_geb a b] is [a >= b].
    network/mod.rs:164. *)
Fixpoint str_geb (a b : str) : bool :=
  match a, b with
  | _, [] => true
  | [], _ :: _ => false
  | x :: a', y :: b' =>
      if byteZ x =? byteZ y then str_geb a' b' else byteZ y <? byteZ x
  end.

(** [str::strip_prefix]. network/models.rs:392, 394. *)
Fixpoint strip_prefix (p s : str) : option str :=
  match p, s with
  | [], _ => Some s
  | x :: p', y :: s' => if Byte.eqb x y then strip_prefix p' s' else None
  | _ :: _, [] => None
  end.

(** [str::starts_with]. network/models.rs:399-409. *)
Definition starts_with (p s : str) : bool :=
  match strip_prefix p s with Some _ => true | None => false end.

(** [str::split_once(c)], second component only. network/models.rs:393. *)
Fixpoint after_first (c : byte) (s : str) : option str :=
  match s with
  | [] => None
  | x :: t => if Byte.eqb x c then Some t else after_first c t
  end.

(** ** Finite maps: [FnvHashMap<K, V>] as association lists with unique keys *)

(** [FnvHashMap] with integer-like keys, network/mod.rs:80, 109;
    network/frame_decoder.rs:16. *)
Definition amap (V : Type) := list (Z * V).

(** [HashMap::get], network/frame_decoder.rs:43; network/mod.rs:206. *)
Fixpoint map_get {V} (k : Z) (m : amap V) : option V :=
  match m with
  | [] => None
  | (k', v) :: t => if k =? k' then Some v else map_get k t
  end.

(** [HashMap::remove]. network/frame_decoder.rs:51. *)
Fixpoint map_remove {V} (k : Z) (m : amap V) : amap V :=
  match m with
  | [] => []
  | (k', v) :: t => if k =? k' then map_remove k t else (k', v) :: map_remove k t
  end.

(** [HashMap::insert]: replaces an existing entry.  The list is kept sorted by
    key so that two maps with the same bindings are the same list; the order in
    which Rust iterates over a hash map is modelled separately
    ([hash_order], ObjectIndex.v). network/frame_decoder.rs:35; network/mod.rs:221. *)
Fixpoint map_insert {V} (k : Z) (v : V) (m : amap V) : amap V :=
  match m with
  | [] => [(k, v)]
  | (k', v') :: t =>
      if k <? k' then (k, v) :: (k', v') :: t
      else if k =? k' then (k, v) :: t
      else (k', v') :: map_insert k v t
  end.

(** [HashMap::extend] / [collect]: entries are inserted from left to right, so a
    later entry replaces an earlier one with the same key. network/mod.rs:220. *)
Definition map_extend {V} (m : amap V) (l : list (Z * V)) : amap V :=
  fold_left (fun acc kv => map_insert (fst kv) (snd kv) acc) l m.

(** [get] of a map with string keys, network/object_index.rs:28, 48;
    network/mod.rs:93. *)
Fixpoint str_assoc {V} (k : str) (m : list (str * V)) : option V :=
  match m with
  | [] => None
  | (k', v) :: t => if str_eqb k k' then Some v else str_assoc k t
  end.
