(** * Example programs: model of /repo/examples/{names,ping,demo,property_counter}.rs

    A program is a function from its input to the lines it writes to standard
    output and the way it ends.  What is written to standard error
    (ping.rs:89) and failures of the terminal or of standard input are left
    out. *)

From Coq Require Import ZArith List Bool Permutation.
From Verif Require Import Base F32 NetTypes Errors Header ObjectIndex BitReader Parser Display.
Open Scope Z_scope.

(** [Box<dyn Error>] as the programs build it: an error of the parser
    (names.rs:65, ping.rs:33, demo.rs:45) or a message (names.rs:54, 76;
    ping.rs:22, 114, 133). *)
Inductive failure :=
| FParse (e : parse_error)
| FMessage (s : str).

(** How [main] ends: [Ok(())] (names.rs:98, ping.rs:159, demo.rs:136,
    property_counter.rs:83), an error, or a panic ([unwrap], ping.rs:92, demo.rs:66; an
    index, ping.rs:105, 124; or a panic of the parser). *)
Inductive ending :=
| Success
| Failed (f : failure)
| Crashed.

(** [HashMap<String, V>] (ping.rs:140, property_counter.rs:47) as its entries;
    no key occurs twice.  The order of iteration (ping.rs:155,
    property_counter.rs:77) is given by [text_order]. *)
Definition tmap (V : Type) : Type := list (str * V).
(** ping.rs:155, property_counter.rs:77 *)
Definition text_order : Type := forall V : Type, tmap V -> list (str * V).
(** Iteration visits every entry exactly once: ping.rs:155,
    property_counter.rs:77 *)
Definition text_order_ok (o : text_order) : Prop := forall V (m : tmap V), Permutation (o V m) m.

(** [entry(k).and_modify(f).or_insert(d)], ping.rs:147-152 and
    property_counter.rs:42 *)
Fixpoint entry_or {V} (k : str) (f : V -> V) (d : V) (m : tmap V) : tmap V :=
  match m with
  | [] => [(k, d)]
  | (k', v) :: t => if str_eqb k k' then (k', f v) :: t else (k', v) :: entry_or k f d t
  end.

(** [iter().position(|val| val == name)] and the cast to [ObjectId].
    names.rs:49-53, ping.rs:17-21, demo.rs:31-35 *)
Fixpoint position_from (i : Z) (name : str) (l : list str) : option Z :=
  match l with
  | [] => None
  | x :: t => if str_eqb x name then Some i else position_from (i + 1) name t
  end.
(** names.rs:49-53, ping.rs:17-21, demo.rs:30-36 *)
Definition find_object_id (r : replay) (name : str) : option Z :=
  option_map as_i32 (position_from 0 name (r_objects r)).

(** "Engine.PlayerReplicationInfo:PlayerName", names.rs:52, ping.rs:86, demo.rs:47 *)
Definition player_name : str := lit "Engine.PlayerReplicationInfo:PlayerName".

Section Programs.
Context (B : bitter) (ho : hash_order) (so : text_order).

(** ** names.rs *)

(** names.rs:13-19 *)
Definition names_in_header (stats : list props) : list str :=
  filter_map (fun kv => as_string (snd kv))
    (filter (fun kv => str_eqb (fst kv) (lit "Name")) (concat stats)).

(** names.rs:28-35 *)
Definition string_of (u : updated_attribute) : option str :=
  match u_attribute u with AString s => Some s | _ => None end.

(** names.rs:23-42 *)
Definition names_in_network (frames : list frame) (id : Z) : list str :=
  dedup (sort (filter_map string_of
    (filter (fun u => u_object_id u =? id) (flat_map f_updated_actors frames)))).

(** names.rs:87-98 *)
Definition names_network (r : replay) : list str * ending :=
  match r_network_frames r with
  | Some frames =>
      match find_object_id r player_name with
      | Some id => (lit "Names in the network data:" :: names_in_network frames id, Success)
      | None =>
          ([lit "Names in the network data:"],
           Failed (FMessage (lit "Expected Engine.PlayerReplicationInfo:PlayerName to be present in replay")))
      end
  | None => ([lit "No player names found in the header as network data couldn't be decoded"], Success)
  end.

(** names.rs:67-98 *)
Definition names_found (r : replay) : list str * ending :=
  match find_prop "PlayerStats" (r_properties r) with
  | Some (HArray rows) =>
      let (l, e) := names_network r in
      (lit "Names in the header data:" :: names_in_header rows ++ l, e)
  | Some _ =>
      ([lit "Names in the header data:"], Failed (FMessage (lit "expected player stats to be an array")))
  | None =>
      let (l, e) := names_network r in (lit "No player names found in the header" :: l, e)
  end.

(** names.rs:58-99 *)
Definition names_main (data : list byte) : list str * ending :=
  match builder_parse B ho (ignore_network_data_on_error (on_error_check_crc (builder_new data))) with
  | Ok r => names_found r
  | Err e => ([], Failed (FParse e))
  | Panic _ => ([], Crashed)
  end.

(** ** ping.rs *)

(** ping.rs:9-14 *)
Record player_pings := mkPlayer { pp_actor : Z; pp_name : option str; pp_pings : list Z }.

(** [iter().rev().rposition(p)] of a vector, ping.rs:101-103 and 118-121.
    [rposition] takes the elements of the reversed vector from its end, which
    is the first element of the vector, and numbers them from the length of
    the vector minus one downwards: the result is an index into the reversed
    vector. *)
Fixpoint rev_rposition {A} (p : A -> bool) (l : list A) : option Z :=
  match l with
  | [] => None
  | x :: t => if p x then Some (lenZ t) else rev_rposition p t
  end.

(** ping.rs:101-103 *)
Definition may_be (actor : Z) (name : str) (x : player_pings) : bool :=
  (pp_actor x =? actor) && match pp_name x with Some n => str_eqb n name | None => true end.

(** [v[i]] modified in place; [None] is a panic. ping.rs:105, 124 *)
Definition modify_at {A} (i : Z) (f : A -> A) (l : list A) : option (list A) :=
  match getZ i l with Some x => setZ i (f x) l | None => None end.

(** What one update does to [actor_pings]: ping.rs:96-135.  [inl] is the error
    that ends the program. *)
Definition ping_step (name_id ping_id : Z) (l : list player_pings) (u : updated_attribute) :
  ending + list player_pings :=
  let put o := match o with Some l' => inr l' | None => inl Crashed end in
  if u_object_id u =? name_id then
    match u_attribute u with
    | AString name =>
        match rev_rposition (may_be (u_actor_id u) name) l with
        | Some i => put (modify_at i (fun x => mkPlayer (pp_actor x) (Some name) (pp_pings x)) l)
        | None => inr (l ++ [mkPlayer (u_actor_id u) (Some name) []])
        end
    | _ => inl (Failed (FMessage (lit "expected player name to be a string")))
    end
  else if u_object_id u =? ping_id then
    match u_attribute u with
    | AByte ping =>
        match rev_rposition (fun x => pp_actor x =? u_actor_id u) l with
        | Some i => put (modify_at i (fun x => mkPlayer (pp_actor x) (pp_name x) (pp_pings x ++ [ping])) l)
        | None => inr (l ++ [mkPlayer (u_actor_id u) None [ping]])
        end
    | _ => inl (Failed (FMessage (lit "expected ping to be a byte")))
    end
  else inr l.

(** ping.rs:94-137 *)
Fixpoint ping_loop (name_id ping_id : Z) (us : list updated_attribute) (l : list player_pings) :
  ending + list player_pings :=
  match us with
  | [] => inr l
  | u :: t =>
      match ping_step name_id ping_id l u with
      | inl e => inl e
      | inr l' => ping_loop name_id ping_id t l'
      end
  end.

(** ping.rs:140-153 *)
Definition group_pings (l : list player_pings) : tmap (list Z) :=
  fold_left (fun m x =>
      entry_or (match pp_name x with Some n => n | None => lit "<unknown>" end)
        (fun e => e ++ pp_pings x) [] m) l [].

(** ["{}: {:?}"], ping.rs:156 *)
Definition ping_line (kv : str * list Z) : str :=
  say [fst kv; lit ": ["; join (map show (snd kv)); lit "]"].

(** ping.rs:22 *)
Definition object_missing (name : str) : ending :=
  Failed (FMessage (say [lit "Expected "; name; lit " to be present in replay"])).

(** "Engine.PlayerReplicationInfo:Ping", ping.rs:87 *)
Definition ping_name : str := lit "Engine.PlayerReplicationInfo:Ping".

(** ping.rs:86-159 *)
Definition pings_of (r : replay) : list str * ending :=
  match find_object_id r player_name with
  | None => ([], object_missing player_name)
  | Some name_id =>
      match find_object_id r ping_name with
      | None => ([], object_missing ping_name)
      | Some ping_id =>
          match r_network_frames r with
          | None => ([], Crashed)
          | Some frames =>
              match ping_loop name_id ping_id (flat_map f_updated_actors frames) [] with
              | inl e => ([], e)
              | inr l => (map ping_line (so _ (group_pings l)), Success)
              end
          end
      end
  end.

(** ping.rs:26-160 *)
Definition ping_main (data : list byte) : list str * ending :=
  match builder_parse B ho (must_parse_network_data (on_error_check_crc (builder_new data))) with
  | Ok r => pings_of r
  | Err e => ([], Failed (FParse e))
  | Panic _ => ([], Crashed)
  end.

(** ** demo.rs *)

(** demo.rs:24-28 *)
Record demo_event := mkEvent { ev_time : f32; ev_attacker : Z; ev_victim : Z }.

(** The three collections of demo.rs:61-64.  A [HashMap] whose keys are actor
    ids is an [amap]; none of them is iterated over. *)
Record demo_state := mkDemo {
  ds_car_to_pri : amap Z; ds_pri_to_name : amap str; ds_events : list demo_event }.

(** [Some(attr.object_id) == id], demo.rs:69-97 *)
Definition is_id (u : updated_attribute) (id : option Z) : bool :=
  match id with Some i => u_object_id u =? i | None => false end.

(** demo.rs:48-58 *)
Definition car_pri_name : str := lit "Engine.Pawn:PlayerReplicationInfo".
(** demo.rs:54 *)
Definition demolish_name : str := lit "TAGame.Car_TA:ReplicatedDemolish".
(** demo.rs:55 *)
Definition demolish_fx_name : str := lit "TAGame.Car_TA:ReplicatedDemolishGoalExplosion".
(** demo.rs:57 *)
Definition demolish_custom_fx_name : str := lit "TAGame.Car_TA:ReplicatedDemolish_CustomFX".
(** demo.rs:58 *)
Definition demolish_extended_name : str := lit "TAGame.Car_TA:ReplicatedDemolishExtended".

(** demo.rs:81-85, 91-95, 99-103 *)
Definition push_event (s : demo_state) (time : f32) (attacker victim : Z) : demo_state :=
  mkDemo (ds_car_to_pri s) (ds_pri_to_name s) (ds_events s ++ [mkEvent time attacker victim]).

(** demo.rs:69-105 *)
Definition demo_step (r : replay) (time : f32) (s : demo_state) (u : updated_attribute) : demo_state :=
  if is_id u (find_object_id r car_pri_name) then
    match u_attribute u with
    | AActiveActor a =>
        if aa_actor a =? -1 then s
        else mkDemo (map_insert (u_actor_id u) (aa_actor a) (ds_car_to_pri s)) (ds_pri_to_name s) (ds_events s)
    | _ => s
    end
  else if is_id u (find_object_id r player_name) then
    match u_attribute u with
    | AString name => mkDemo (ds_car_to_pri s) (map_insert (u_actor_id u) name (ds_pri_to_name s)) (ds_events s)
    | _ => s
    end
  else if is_id u (find_object_id r demolish_name) then
    match u_attribute u with
    | ADemolish d => push_event s time (dm_attacker d) (dm_victim d)
    | _ => s
    end
  else if is_id u (find_object_id r demolish_fx_name) || is_id u (find_object_id r demolish_custom_fx_name) then
    match u_attribute u with
    | ADemolishFx d => push_event s time (df_attacker d) (df_victim d)
    | _ => s
    end
  else if is_id u (find_object_id r demolish_extended_name) then
    match u_attribute u with
    | ADemolishExtended d => push_event s time (aa_actor (de_attacker_pri d)) (aa_actor (de_victim d))
    | _ => s
    end
  else s.

(** demo.rs:67-107 *)
Definition demo_loop (r : replay) (frames : list frame) : demo_state :=
  fold_left (fun s f => fold_left (demo_step r (f_time f)) (f_updated_actors f) s) frames (mkDemo [] [] []).

(** demo.rs:114-127 *)
Definition resolve_name (s : demo_state) (actor : Z) : str :=
  if actor =? -1 then lit "<environment>" else
  match map_get actor (ds_pri_to_name s) with
  | Some name => name
  | None =>
      match match map_get actor (ds_car_to_pri s) with
            | Some pri => map_get pri (ds_pri_to_name s)
            | None => None
            end with
      | Some name => name
      | None => say [lit "<unknown "; show actor; lit ">"]
      end
  end.

(** [{:.2}] of an [f32], demo.rs:133 *)
Context (show2 : f32 -> str).

(** demo.rs:131-133 *)
Definition demo_line (s : demo_state) (e : demo_event) : str :=
  say [lit "t="; show2 (ev_time e); lit "s  "; resolve_name s (ev_attacker e); lit "  demolished  ";
       resolve_name s (ev_victim e)].

(** demo.rs:66-136 *)
Definition demos_of (r : replay) : list str * ending :=
  match r_network_frames r with
  | None => ([], Crashed)
  | Some frames =>
      let s := demo_loop r frames in
      (say [lit "Total demolitions: "; show (lenZ (ds_events s))] :: map (demo_line s) (ds_events s), Success)
  end.

(** demo.rs:38-137 *)
Definition demo_main (data : list byte) : list str * ending :=
  match builder_parse B ho (must_parse_network_data (on_error_check_crc (builder_new data))) with
  | Ok r => demos_of r
  | Err e => ([], Failed (FParse e))
  | Panic _ => ([], Crashed)
  end.

(** ** property_counter.rs *)

(** [*counter.entry(k).or_default() += 1], property_counter.rs:42.  The counts
    are unbounded; in Rust they are [usize]. *)
Definition bump (k : str) (m : tmap Z) : tmap Z := entry_or k (fun n => n + 1) 1 m.

(** property_counter.rs:16-20 *)
Definition new_prefix (prefix key : str) : str :=
  match prefix with [] => key | _ => say [prefix; lit ":"; key] end.

(** one turn of the loop, property_counter.rs:15-43, and the nested calls *)
Fixpoint count_prop (prefix key : str) (p : header_prop) (m : tmap Z) {struct p} : tmap Z :=
  let np := new_prefix prefix key in
  match p with
  | HArray rows =>
      bump (say [np; lit ":array"])
        (fold_left (fun m row => fold_left (fun m kv => count_prop np (fst kv) (snd kv) m) row m) rows m)
  | HStruct _ fields =>
      bump (say [np; lit ":struct"])
        (fold_left (fun m kv => count_prop np (fst kv) (snd kv) m) fields m)
  | HBool _ => bump (say [np; lit ":bool"]) m
  | HByte _ _ => bump (say [np; lit ":byte"]) m
  | HFloat _ => bump (say [np; lit ":float"]) m
  | HInt _ => bump (say [np; lit ":int"]) m
  | HName _ => bump (say [np; lit ":name"]) m
  | HQWord _ => bump (say [np; lit ":qword"]) m
  | HStr _ => bump (say [np; lit ":str"]) m
  end.

(** property_counter.rs:10-44 *)
Definition count_properties (ps : props) (m : tmap Z) (prefix : str) : tmap Z :=
  fold_left (fun m kv => count_prop prefix (fst kv) (snd kv) m) ps m.

(** One argument of the program: its name, what reading it adds to the buffer,
    and the text of the error if it cannot be opened or read to its end.
    property_counter.rs:50-53 *)
Record argument := mkArg { arg_name : str; arg_data : list byte; arg_error : option str }.

(** [Display for f32]; [Debug for Attribute]: Display.v *)
Context (show_f32 : f32 -> str) (debug_attribute : attribute -> str).

(** the variables of property_counter.rs:47-49.  [files] is unbounded; in Rust
    it is an [i32]. *)
Record counter_state := mkCounter { ct_counter : tmap Z; ct_buffer : list byte; ct_files : Z }.

(** property_counter.rs:51-73; [None] is a panic *)
Definition counter_step (s : counter_state) (a : argument) : option (list str * counter_state) :=
  let buffer := ct_buffer s ++ arg_data a in
  match arg_error a with
  | Some e =>
      Some ([say [lit "unable to read file "; arg_name a; lit ": "; e]],
            mkCounter (ct_counter s) buffer (ct_files s))
  | None =>
      match builder_parse B ho (never_parse_network_data (never_check_crc (builder_new buffer))) with
      | Err e =>
          Some ([say [lit "unable to parse file "; arg_name a; lit ": "; display_parse_error show_f32 debug_attribute e]],
                mkCounter (ct_counter s) buffer (ct_files s))
      | Ok r =>
          Some ([say [lit "Parsed: "; arg_name a]],
                mkCounter (count_properties (r_properties r) (ct_counter s) []) [] (ct_files s + 1))
      | Panic _ => None
      end
  end.

(** property_counter.rs:50-74 *)
Fixpoint counter_loop (s : counter_state) (l : list argument) : option (list str * counter_state) :=
  match l with
  | [] => Some ([], s)
  | a :: t =>
      match counter_step s a with
      | None => None
      | Some (out, s') =>
          match counter_loop s' t with
          | None => None
          | Some (out', s'') => Some (out ++ out', s'')
          end
      end
  end.

(** [Vec::sort] on pairs, property_counter.rs:78: insertion into a sorted list *)
Fixpoint pair_insert (x : str * Z) (l : list (str * Z)) : list (str * Z) :=
  match l with
  | [] => [x]
  | y :: t =>
      if str_geb (fst y) (fst x) && (negb (str_eqb (fst y) (fst x)) || (snd x <=? snd y))
      then x :: l else y :: pair_insert x t
  end.
(** property_counter.rs:78 *)
Fixpoint pair_sort (l : list (str * Z)) : list (str * Z) :=
  match l with [] => [] | x :: t => pair_insert x (pair_sort t) end.

(** property_counter.rs:80 *)
Definition count_line (kv : str * Z) : str := say [fst kv; lit ": "; show (snd kv)].

(** property_counter.rs:46-84; a panic discards the output here *)
Definition counter_main (args : list argument) : list str * ending :=
  match counter_loop (mkCounter [] [] 0) args with
  | None => ([], Crashed)
  | Some (out, s) =>
      (out ++ say [lit "Parsed "; show (ct_files s); lit " files"]
           :: map count_line (pair_sort (so _ (ct_counter s))), Success)
  end.

End Programs.
