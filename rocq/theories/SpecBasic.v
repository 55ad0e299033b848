(** * Specifications: builder calls, header lookups, stores, level objects,
    class hierarchy

    Written without the model's helper functions (only data types and the static
    tables are shared). *)

From Coq Require Import ZArith List Bool.
From Verif Require Import Base Header Parser Data.
Open Scope Z_scope.

(** ** Calls on a parser builder *)

Inductive call : Set :=
| CAlwaysCrc | CNeverCrc | COnErrorCrc | CWithCrc (c : crc_check)
| CMustNet | CNeverNet | CIgnoreNet | CWithNet (n : network_parse).

(** what a call asks for *)
Definition crc_wish (c : call) : option crc_check :=
  match c with
  | CAlwaysCrc => Some CrcAlways
  | CNeverCrc => Some CrcNever
  | COnErrorCrc => Some CrcOnError
  | CWithCrc k => Some k
  | _ => None
  end.
Definition net_wish (c : call) : option network_parse :=
  match c with
  | CMustNet => Some NetAlways
  | CNeverNet => Some NetNever
  | CIgnoreNet => Some NetIgnoreOnError
  | CWithNet k => Some k
  | _ => None
  end.

(** [last_wish w calls d r]: [r] is the wish of the last call that has one, or [d] *)
Definition last_wish {A} (w : call -> option A) (calls : list call) (d r : A) : Prop :=
  (exists before c after, calls = before ++ c :: after /\ w c = Some r /\
     Forall (fun c' => w c' = None) after) \/
  (Forall (fun c => w c = None) calls /\ r = d).

(** ** First entry of a property list *)

Definition first_entry (name : str) (ps : props) (p : header_prop) : Prop :=
  exists before after, ps = before ++ (name, p) :: after /\ ~ In name (map fst before).

(** ** Maps with deletion that is ignored below [n] *)

Inductive map_op (V : Type) : Type :=
| MInsert (k : Z) (v : V)
| MDelete (k : Z).
Arguments MInsert {V} k v.
Arguments MDelete {V} k.

Definition op_key {V} (o : map_op V) : Z := match o with MInsert k _ | MDelete k => k end.

(** the value of key [k] after a history (oldest operation first) *)
Definition upd {V} (f : Z -> option V) (k : Z) (x : option V) : Z -> option V :=
  fun j => if j =? k then x else f j.
Definition map_step {V} (n : Z) (f : Z -> option V) (o : map_op V) : Z -> option V :=
  match o with
  | MInsert k v => upd f k (Some v)
  | MDelete k => if (0 <=? k) && (k <? n) then f else upd f k None
  end.
Definition map_after {V} (n : Z) (ops : list (map_op V)) : Z -> option V :=
  fold_left (map_step n) ops (fun _ => None).

Definition is_i32 (x : Z) : Prop := - 2 ^ 31 <= x < 2 ^ 31.

(** ** Level objects *)

Definition level : str := lit "TheWorld:PersistentLevel.".
Definition level_classes : list str :=
  map lit ["CrowdActor_TA"; "CrowdManager_TA"; "VehiclePickup_Boost_TA";
           "InMapScoreboard_TA"; "BreakOutActor_Platform_TA"; "PlayerStart_Platform_TA"]%string.

(** [name] is a level object whose name inside the level is [inner]: a level path
    by itself, or one behind a stadium name without dots *)
Definition level_object (name inner : str) : Prop :=
  name = level ++ inner \/
  (~ exists rest, name = level ++ rest) /\
  (exists stadium, ~ In "."%byte stadium /\ name = stadium ++ "."%byte :: level ++ inner).

(** [name] is an instance of the level class [c] *)
Definition level_instance (name c : str) : Prop :=
  exists number, level_object name (c ++ number).

(** ** Class hierarchy *)

(** the class an object name stands for *)
Definition class_of (name c : str) : Prop :=
  (exists l, In l level_classes /\ level_instance name l /\ c = level ++ l) \/
  (~ (exists l, In l level_classes /\ level_instance name l)) /\ c = name.

(** [p] is the parent of the class of [name] *)
Definition parent (name p : str) : Prop := exists c, class_of name c /\ In (c, p) PARENT_CLASSES.

(** proper ancestors *)
Inductive ancestor : str -> str -> Prop :=
| anc_parent x p : parent x p -> ancestor x p
| anc_trans x p q : parent x p -> ancestor p q -> ancestor x q.

(** the names met on the way up from [name]: itself, then its ancestors, except
    the first without a parent *)
Inductive lineage : str -> list str -> Prop :=
| lin_top x : (forall p, ~ parent x p) -> lineage x []
| lin_up x p l : parent x p -> lineage p l -> lineage x (x :: l).

(** position of the first occurrence of [name] *)
Definition first_index (objects : list str) (name : str) (i : Z) : Prop :=
  exists before after, objects = before ++ name :: after /\ ~ In name before /\
    i = Z.of_nat (length before).

(** the ids, in order, of those names that are in the object list *)
Inductive ids_of (objects : list str) : list str -> list Z -> Prop :=
| ids_nil : ids_of objects [] []
| ids_in n l i ids : first_index objects n i -> ids_of objects l ids ->
    ids_of objects (n :: l) (i :: ids)
| ids_out n l ids : ~ In n objects -> ids_of objects l ids -> ids_of objects (n :: l) ids.
