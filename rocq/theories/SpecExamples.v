(** * Specification: errors that more data may cure, and what the example
    programs print *)

From Coq Require Import ZArith List Permutation.
From Verif Require Import Base F32 NetTypes Errors Header ObjectIndex BitReader Parser SpecBasic SpecDecimal SpecDisplay
  SpecReplay Examples.
Open Scope Z_scope.

(** The file ended too early. *)
Inductive short : parse_error -> Prop :=
| short_data want have : short (EInsufficientData want have)
| short_section name at_ e : short e -> short (EParseError name at_ e)
| short_corrupt name e : short e -> short (ECorruptReplay name e).

(** ** Lists *)

(** [m] holds what the elements of [l] stand for, in order; elements that
    stand for nothing are left out *)
Inductive picks {A C} (R : A -> C -> Prop) : list A -> list C -> Prop :=
| picks_nil : picks R [] []
| picks_take x y l m : R x y -> picks R l m -> picks R (x :: l) (y :: m)
| picks_skip x l m : (forall y, ~ R x y) -> picks R l m -> picks R (x :: l) m.

(** the last element of [l] that stands for something stands for [v] *)
Definition last_with {A C} (R : A -> C -> Prop) (l : list A) (v : C) : Prop :=
  exists b x a, l = b ++ x :: a /\ R x v /\ forall y w, In y a -> ~ R y w.

(** the value of the first property called [key] *)
Definition first_value (ps : props) (key : str) (v : header_prop) : Prop :=
  exists b a, ps = b ++ (key, v) :: a /\ ~ In key (map fst b).

(** [k] occurs [n] times *)
Definition occurs {A} (k : A) (n : nat) (l : list A) : Prop :=
  exists rest, Permutation l (repeat k n ++ rest) /\ ~ In k rest.

(** ** names.rs *)

(** a property called "Name" whose value is a text *)
Definition name_entry (kv : str * header_prop) (n : str) : Prop :=
  fst kv = lit "Name" /\ (snd kv = HStr n \/ snd kv = HName n).

(** an update of the object with the index [id] to the text [n] *)
Definition says (id : Z) (u : updated_attribute) (n : str) : Prop :=
  u_object_id u = id /\ u_attribute u = AString n.

Definition updates (fs : list frame) : list updated_attribute := flat_map f_updated_actors fs.

Inductive header_part (r : replay) : list str -> Prop :=
| hp_none : (forall v, ~ In (lit "PlayerStats", v) (r_properties r)) ->
    header_part r [lit "No player names found in the header"]
| hp_some rows l : first_value (r_properties r) (lit "PlayerStats") (HArray rows) ->
    picks name_entry (concat rows) l ->
    header_part r (lit "Names in the header data:" :: l).

Inductive network_part (r : replay) : list str -> ending -> Prop :=
| np_none : r_network_frames r = None ->
    network_part r [lit "No player names found in the header as network data couldn't be decoded"] Success
| np_missing fs : r_network_frames r = Some fs ->
    ~ In (lit "Engine.PlayerReplicationInfo:PlayerName") (r_objects r) ->
    network_part r [lit "Names in the network data:"]
      (Failed (FMessage (lit "Expected Engine.PlayerReplicationInfo:PlayerName to be present in replay")))
| np_some fs id l : r_network_frames r = Some fs ->
    first_index (r_objects r) (lit "Engine.PlayerReplicationInfo:PlayerName") id ->
    list_of (fun n => exists u, In u (updates fs) /\ says id u n) l ->
    network_part r (lit "Names in the network data:" :: l) Success.

(** lines and ending of names.rs, given the result of parsing *)
Inductive names_run : outcome parse_error replay -> list str -> ending -> Prop :=
| nr_error e : names_run (Err e) [] (Failed (FParse e))
| nr_other r v : first_value (r_properties r) (lit "PlayerStats") v -> (forall rows, v <> HArray rows) ->
    names_run (Ok r) [lit "Names in the header data:"]
      (Failed (FMessage (lit "expected player stats to be an array")))
| nr_found r h n e : header_part r h -> network_part r n e -> names_run (Ok r) (h ++ n) e.

(** ** ping.rs *)

(** how the program ends, given the result of parsing *)
Inductive ping_ends : outcome parse_error replay -> ending -> Prop :=
| pe_error e : ping_ends (Err e) (Failed (FParse e))
| pe_name r : ~ In (lit "Engine.PlayerReplicationInfo:PlayerName") (r_objects r) ->
    ping_ends (Ok r) (Failed (FMessage
      (lit "Expected Engine.PlayerReplicationInfo:PlayerName to be present in replay")))
| pe_ping r : In (lit "Engine.PlayerReplicationInfo:PlayerName") (r_objects r) ->
    ~ In (lit "Engine.PlayerReplicationInfo:Ping") (r_objects r) ->
    ping_ends (Ok r) (Failed (FMessage (lit "Expected Engine.PlayerReplicationInfo:Ping to be present in replay")))
| pe_ok r : In (lit "Engine.PlayerReplicationInfo:PlayerName") (r_objects r) ->
    In (lit "Engine.PlayerReplicationInfo:Ping") (r_objects r) ->
    ping_ends (Ok r) Success.

(** an update of the object with the index [id] to the byte [x] *)
Definition pings (id : Z) (u : updated_attribute) (x : Z) : Prop :=
  u_object_id u = id /\ u_attribute u = AByte x.

(** all names and pings are those of one actor, whose name is [n] *)
Definition one_player (name_id ping_id actor : Z) (n : str) (u : updated_attribute) : Prop :=
  (u_object_id u = name_id \/ u_object_id u = ping_id -> u_actor_id u = actor) /\
  (forall m, says name_id u m -> m = n).

(** ** demo.rs *)

(** the update says that [a] demolished [v] *)
Inductive demolishes (objects : list str) : updated_attribute -> Z -> Z -> Prop :=
| dem_old u d : first_index objects (lit "TAGame.Car_TA:ReplicatedDemolish") (u_object_id u) ->
    u_attribute u = ADemolish d -> demolishes objects u (dm_attacker d) (dm_victim d)
| dem_fx u d : first_index objects (lit "TAGame.Car_TA:ReplicatedDemolishGoalExplosion") (u_object_id u) \/
      first_index objects (lit "TAGame.Car_TA:ReplicatedDemolish_CustomFX") (u_object_id u) ->
    u_attribute u = ADemolishFx d -> demolishes objects u (df_attacker d) (df_victim d)
| dem_extended u d : first_index objects (lit "TAGame.Car_TA:ReplicatedDemolishExtended") (u_object_id u) ->
    u_attribute u = ADemolishExtended d ->
    demolishes objects u (aa_actor (de_attacker_pri d)) (aa_actor (de_victim d)).

(** the updates with the times of their frames *)
Definition timed (fs : list frame) : list (f32 * updated_attribute) :=
  flat_map (fun f => map (pair (f_time f)) (f_updated_actors f)) fs.

Definition demolition (objects : list str) (x : f32 * updated_attribute) (y : f32 * Z * Z) : Prop :=
  exists a v, demolishes objects (snd x) a v /\ y = (fst x, a, v).

(** the update gives the actor the name [n] *)
Definition gives_name (objects : list str) (actor : Z) (u : updated_attribute) (n : str) : Prop :=
  u_actor_id u = actor /\ u_attribute u = AString n /\
  first_index objects (lit "Engine.PlayerReplicationInfo:PlayerName") (u_object_id u).
(** the update says that the car [actor] belongs to the player [p] *)
Definition gives_player (objects : list str) (actor : Z) (u : updated_attribute) (p : Z) : Prop :=
  u_actor_id u = actor /\ (exists active, u_attribute u = AActiveActor (mkActive active p)) /\ p <> -1 /\
  first_index objects (lit "Engine.Pawn:PlayerReplicationInfo") (u_object_id u).

(** how an actor is called *)
Inductive called (objects : list str) (us : list updated_attribute) : Z -> str -> Prop :=
| ca_environment : called objects us (-1) (lit "<environment>")
| ca_player a n : a <> -1 -> last_with (gives_name objects a) us n -> called objects us a n
| ca_car a p n : a <> -1 -> (forall m, ~ last_with (gives_name objects a) us m) ->
    last_with (gives_player objects a) us p -> last_with (gives_name objects p) us n ->
    called objects us a n
| ca_unknown a d : a <> -1 -> (forall m, ~ last_with (gives_name objects a) us m) ->
    (forall p n, last_with (gives_player objects a) us p -> ~ last_with (gives_name objects p) us n) ->
    decimal a d -> called objects us a (lit "<unknown " ++ d ++ lit ">").

(** the line for a demolition; [show2] writes a number with two decimals *)
Definition demo_says (show2 : f32 -> str) (objects : list str) (us : list updated_attribute)
  (y : f32 * Z * Z) (line : str) : Prop :=
  let '(t, a, v) := y in
  exists na nv, called objects us a na /\ called objects us v nv /\
    line = lit "t=" ++ show2 t ++ lit "s  " ++ na ++ lit "  demolished  " ++ nv.

(** lines and ending of demo.rs, given the result of parsing *)
Inductive demo_run (show2 : f32 -> str) : outcome parse_error replay -> list str -> ending -> Prop :=
| dr_error e : demo_run show2 (Err e) [] (Failed (FParse e))
| dr_found r fs ys d lines : r_network_frames r = Some fs ->
    picks (demolition (r_objects r)) (timed fs) ys ->
    decimal (lenZ ys) d -> Forall2 (demo_says show2 (r_objects r) (updates fs)) ys lines ->
    demo_run show2 (Ok r) ((lit "Total demolitions: " ++ d) :: lines) Success.

(** ** property_counter.rs *)

(** the properties inside a property called [key], each with the keys that
    lead to it and its kind *)
Fixpoint items (key : str) (p : header_prop) : list (list str * string) :=
  let inner kv := map (fun x => (key :: fst x, snd x)) (items (fst kv) (snd kv)) in
  match p with
  | HArray rows => flat_map (flat_map inner) rows ++ [([key], "array"%string)]
  | HStruct _ fields => flat_map inner fields ++ [([key], "struct"%string)]
  | HBool _ => [([key], "bool"%string)]
  | HByte _ _ => [([key], "byte"%string)]
  | HFloat _ => [([key], "float"%string)]
  | HInt _ => [([key], "int"%string)]
  | HName _ => [([key], "name"%string)]
  | HQWord _ => [([key], "qword"%string)]
  | HStr _ => [([key], "str"%string)]
  end.
Definition all_items (ps : props) : list (list str * string) := flat_map (fun kv => items (fst kv) (snd kv)) ps.

(** keys joined by colons; empty keys at the front are left out *)
Fixpoint colons (l : list str) : str :=
  match l with
  | [] => []
  | [x] => x
  | x :: t => x ++ lit ":" ++ colons t
  end.
Fixpoint without_empty (l : list str) : list str :=
  match l with [] :: t => without_empty t | _ => l end.
Definition label (x : list str * string) : str := colons (without_empty (fst x)) ++ lit ":" ++ lit (snd x).
Definition labels (ps : props) : list str := map label (all_items ps).

(** the table of the counts of [l], by label *)
Definition tallied (l lines : list str) : Prop :=
  exists ks, list_of (fun k => In k l) ks /\
    Forall2 (fun k line => exists n d, occurs k n l /\ decimal (Z.of_nat n) d /\ line = k ++ lit ": " ++ d) ks lines.

(** the argument can be read and parsed *)
Definition parses (B : bitter) (ho : hash_order) (a : argument) (r : replay) : Prop :=
  arg_error a = None /\ parse_with B ho CrcNever NetNever (arg_data a) = Ok r.
Definition all_labels (rs : list replay) : list str := flat_map (fun r => labels (r_properties r)) rs.

(** the lines for arguments that were counted, and the last lines *)
Definition parsed_lines (names : list str) : list str := map (app (lit "Parsed: ")) names.
Inductive counted (n : Z) (l : list str) : list str -> Prop :=
| counted_all d lines : decimal n d -> tallied l lines ->
    counted n l ((lit "Parsed " ++ d ++ lit " files") :: lines).

(** the line for an argument while a file that cannot be parsed, with the
    error text [msg], stays in the buffer *)
Definition blocked_line (msg : str) (a : argument) : str :=
  match arg_error a with
  | Some e => lit "unable to read file " ++ arg_name a ++ lit ": " ++ e
  | None => lit "unable to parse file " ++ arg_name a ++ lit ": " ++ msg
  end.
