(** * Properties: the number of operations spent on the tables (C101) *)

From Coq Require Import ZArith List Bool String.
From Verif Require Import Base NetTypes SegArray Errors Header Body BitReader ObjectIndex Network Parser SpecFile SpecReplay SpecTable
  CacheProofs FileFacts GrowthProofs CostFile CostTables CostTablesProofs BitLemmas Samples.
Open Scope Z_scope.

(** ** C101 *)

(** Counting changes nothing else. *)
Theorem C101_same : forall ho b, fst (tables_c ho b) =
  match compute_spawns (object_index_new (b_objects b)) (b_objects b) with
  | Ok s =>
      match compute_caches ho (object_index_new (b_objects b)) (b_objects b) (b_net_cache b) with
      | Ok v => Ok (s, v)
      | Err e => Err e
      | Panic p => Panic p
      end
  | Err e => Err e
  | Panic p => Panic p
  end.
Proof. exact tables_same. Qed.
Print Assumptions C101_same.

(** The tables take at most about seven operations for each pair of an object and a
    listed property, *)
Theorem C101_pairs : forall ho b, hash_order_ok ho -> lenZ (b_objects b) <= 2 ^ 31 -> net_cache_ok (b_net_cache b) ->
  snd (tables_c ho b) <= lenZ (b_objects b) * (43 + 7 * properties_listed (b_net_cache b)) +
    lenZ (b_net_cache b) + properties_listed (b_net_cache b) + 11.
Proof. exact tables_cost. Qed.
Print Assumptions C101_pairs.

(** and at least one for each of their entries. *)
Theorem C101_least : forall ho b v, hash_order_ok ho -> lenZ (b_objects b) <= 2 ^ 31 ->
  compute_caches ho (object_index_new (b_objects b)) (b_objects b) (b_net_cache b) = Ok v ->
  tables_size v <= snd (tables_c ho b).
Proof. exact tables_least. Qed.
Print Assumptions C101_least.

(** In terms of the file: proportional to its length, with a factor that is the limit on
    the number of objects, or to the square of its length. *)
Theorem C101_file : forall ho data h b rest, hash_order_ok ho -> f_file data (h, b) rest ->
  snd (tables_c ho (sec_value b)) <= 21876 * lenZ data + 11 /\
  128 * snd (tables_c ho (sec_value b)) <= 7 * (lenZ data * lenZ data) + 1376 * lenZ data + 1408.
Proof. exact tables_cost_file. Qed.
Print Assumptions C101_file.

(** With what is counted in C100: *)
Theorem C101_all : forall B ho c n data h b rest, bitter_ok B -> hash_order_ok ho -> f_file data (h, b) rest ->
  snd (parse_counted B ho c n data) + snd (tables_c ho (sec_value b)) <= 21914 * lenZ data + 1111.
Proof. exact all_cost. Qed.
Print Assumptions C101_all.

(** Files exist that are accepted and take the product of the number of objects and the
    number of properties, so the square is needed. *)
Theorem C101_square : forall n m, 0 <= n < 25000 -> 0 <= m <= 25000 -> exists data h b rest,
  f_file data (h, b) rest /\ lenZ data = 48 * n + 8 * m + 118 /\
  forall B ho, hash_order_ok ho ->
    (exists r, parse_with B ho CrcOnError NetIgnoreOnError data = Ok r) /\ n * m <= snd (tables_c ho (sec_value b)).
Proof. exact tables_cost_grows. Qed.
Print Assumptions C101_square.

(** three instances of a class that lists two properties, and as many as thirty *)
Example C101_ex :
  snd (tables_c key_order (crowd_body 3 2)) = 95 /\ snd (tables_c key_order (crowd_body 3 30)) = 683 /\
  snd (tables_c key_order (crowd_body 30 30)) = 5003 /\ lenZ (crowd_file 30 30) = 1798 /\
  lenZ (b_objects (crowd_body 30 30)) = 31 /\ properties_listed (b_net_cache (crowd_body 30 30)) = 30.
Proof. repeat split; vm_compute; reflexivity. Qed.
Example C101_ex_hyps : net_cache_ok (crowd_cache 2) /\
  exists v, compute_caches key_order (object_index_new (crowd_names 3)) (crowd_names 3) (crowd_cache 2) = Ok v /\
    tables_size v = 8.
Proof.
  split; [repeat constructor; vm_compute; intuition discriminate|].
  eexists. split; [vm_compute; reflexivity|reflexivity].
Qed.
