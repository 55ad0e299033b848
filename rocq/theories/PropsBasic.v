(** * Property theorems: builder, lookups, store, names, hierarchy
    (C06, C11, C12, C36, C43) *)

From Coq Require Import ZArith List Bool Lia.
From Verif Require Import Base SegArray Header BitReader NetModels Data ObjectIndex Parser
  SpecBasic BasicProofs HierarchyProofs.
Open Scope Z_scope.

(** ** C06 *)

(** Any sequence of builder calls behaves like one that asks for the last
    requested crc policy and the last requested network policy. *)
Theorem C06_last_option_wins : forall B ho data calls c n,
  last_wish crc_wish calls CrcOnError c -> last_wish net_wish calls NetIgnoreOnError n ->
  builder_parse B ho (apply_calls data calls) =
  builder_parse B ho (with_network_parse n (with_crc_check c (builder_new data))).
Proof. exact builder_last. Qed.
Print Assumptions C06_last_option_wins.

(** With no call at all: check the crc on errors, ignore network errors. *)
Theorem C06_defaults : forall B ho data,
  builder_parse B ho (builder_new data) =
  builder_parse B ho (ignore_network_data_on_error (on_error_check_crc (builder_new data))).
Proof.
  intros B ho data. exact (builder_last B ho data [] CrcOnError NetIgnoreOnError
    (or_intror (conj (Forall_nil _) eq_refl)) (or_intror (conj (Forall_nil _) eq_refl))).
Qed.
Print Assumptions C06_defaults.

Example C06_ex :
  let calls := [CNeverCrc; CWithNet NetNever; CAlwaysCrc; CMustNet; CIgnoreNet] in
  last_wish crc_wish calls CrcOnError CrcAlways /\
  last_wish net_wish calls NetIgnoreOnError NetIgnoreOnError.
Proof.
  split; left.
  - exists [CNeverCrc; CWithNet NetNever], CAlwaysCrc, [CMustNet; CIgnoreNet]. repeat constructor.
  - exists [CNeverCrc; CWithNet NetNever; CAlwaysCrc; CMustNet], CIgnoreNet, []. repeat constructor.
Qed.

(** ** C11 *)

(** Every name has exactly one lineage, of at most twelve names. *)
Theorem C11_lineage_finite : forall name, exists l,
  lineage name l /\ (length l <= 12)%nat /\ NoDup l /\ forall l', lineage name l' -> l' = l.
Proof.
  intros name. destruct (lineage_total name) as (l & H & L).
  exact (ex_intro _ l (conj H (conj L (conj (lineage_nodup _ _ H)
    (fun l' H' => lineage_fun _ _ _ H' H))))).
Qed.
Print Assumptions C11_lineage_finite.

Theorem C11_acyclic : forall name, ~ ancestor name name.
Proof. exact ancestor_irrefl. Qed.
Print Assumptions C11_acyclic.

(** The walk of the parser terminates and yields the ids of the names of the
    lineage that are in the object list, nearest first. *)
Theorem C11_walk : forall objects name ids, lenZ objects <= 2 ^ 31 ->
  hierarchy (object_index_new objects) name = Some ids <->
  exists l, lineage name l /\ ids_of objects l ids.
Proof. exact hierarchy_iff. Qed.
Print Assumptions C11_walk.
Theorem C11_walk_terminates : forall objects name, lenZ objects <= 2 ^ 31 ->
  exists ids, hierarchy (object_index_new objects) name = Some ids.
Proof.
  intros objects name L. destruct (hierarchy_spec objects name L) as (l & ids & _ & _ & H).
  exact (ex_intro _ ids H).
Qed.
Print Assumptions C11_walk_terminates.

Example C11_ex : hierarchy (object_index_new (map lit ["x"; "Engine.Actor"; "Archetypes.Car.Car_Default";
    "TAGame.Vehicle_TA"]%string)) (lit "Archetypes.Car.Car_Default") = Some [2; 3; 1].
Proof. vm_compute. reflexivity. Qed.

(** ** C12 *)

Theorem C12_normalize : forall name c, normalize_object name = c <-> class_of name c.
Proof. exact normalize_class. Qed.
Print Assumptions C12_normalize.
Theorem C12_idempotent : forall name,
  normalize_object (normalize_object name) = normalize_object name.
Proof. exact normalize_idem. Qed.
Print Assumptions C12_idempotent.

Example C12_ex :
  level_instance (lit "trainstation_spooky_p.TheWorld:PersistentLevel.InMapScoreboard_TA_3")
                 (lit "InMapScoreboard_TA") /\
  normalize_object (lit "trainstation_spooky_p.TheWorld:PersistentLevel.InMapScoreboard_TA_3") =
  lit "TheWorld:PersistentLevel.InMapScoreboard_TA".
Proof.
  split; [|vm_compute; reflexivity].
  exists (lit "_3"). apply stripped_spec. vm_compute. reflexivity.
Qed.

(** ** C36 *)

(** For every history of insertions and deletions a lookup gives what one map
    gives, where deletion below the array size does nothing. *)
Theorem C36_segmented_array : forall V (n : nat) (ops : list (map_op V)) k,
  Z.of_nat n <= 2 ^ 62 -> Forall (fun o => is_i32 (op_key o)) ops -> is_i32 k ->
  seg_get k (fold_left run_op ops (seg_new n)) = map_after (Z.of_nat n) ops k.
Proof. exact @seg_ops. Qed.
Print Assumptions C36_segmented_array.

Example C36_ex :
  let ops := [MInsert 3 "a"; MInsert (-1) "b"; MInsert 300 "c"; MDelete 3; MDelete 300; MInsert 301 "d"]%string in
  Forall (fun o => is_i32 (op_key o)) ops /\
  map (fun k => seg_get k (fold_left run_op ops (seg_new 200))) [3; -1; 300; 301; 4] =
  [Some "a"; Some "b"; None; Some "d"; None]%string.
Proof.
  split; [|vm_compute; reflexivity]. unfold is_i32. repeat constructor; simpl; lia.
Qed.

(** ** C43 *)

Theorem C43_first_key : forall h p,
  (first_entry (lit "NumFrames") (h_properties h) p ->
     num_frames h = match p with HInt x => Some x | _ => None end) /\
  (first_entry (lit "MaxChannels") (h_properties h) p ->
     max_channels h = match p with HInt x => Some x | _ => None end) /\
  (first_entry (lit "MatchType") (h_properties h) p ->
     match_type h = match p with HName s | HStr s => Some s | _ => None end) /\
  (first_entry (lit "BuildVersion") (h_properties h) p ->
     build_version h = match p with HName s | HStr s => Some s | _ => None end).
Proof. exact lookup_first. Qed.
Print Assumptions C43_first_key.

Theorem C43_no_key : forall h,
  (~ In (lit "NumFrames") (map fst (h_properties h)) -> num_frames h = None) /\
  (~ In (lit "MaxChannels") (map fst (h_properties h)) -> max_channels h = None) /\
  (~ In (lit "MatchType") (map fst (h_properties h)) -> match_type h = None) /\
  (~ In (lit "BuildVersion") (map fst (h_properties h)) -> build_version h = None).
Proof. exact lookup_none. Qed.
Print Assumptions C43_no_key.

Example C43_ex : first_entry (lit "NumFrames")
  [(lit "Id", HStr (lit "x")); (lit "NumFrames", HStr (lit "12")); (lit "NumFrames", HInt 12)]
  (HStr (lit "12")).
Proof. exists [(lit "Id", HStr (lit "x"))], [(lit "NumFrames", HInt 12)]. split; auto.
  simpl. intros [H|[]]. discriminate H. Qed.
