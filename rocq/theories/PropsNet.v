(** * Property theorems: whole files and network data (C01, C02, C04, C13, C14, C27 - C35, C37, C46) *)

From Coq Require Import ZArith List Bool Lia.
From Verif Require Import Base F32 NetTypes SegArray Errors Core Header Body BitReader Attributes Data ObjectIndex
  FrameDecoder Network Parser Wire SpecBasic SpecNet SpecFrames BitLemmas ReaderLogic CacheProofs NetworkProofs SpecCrc SpecFile
  SpecReplay SpecFacts ParseProofs FrameFacts TableFacts Samples.
Open Scope Z_scope.

(** ** C01 *)

Theorem C01_no_panic : forall B ho c n data, bitter_ok B -> hash_order_ok ho -> lenZ data < 2 ^ 31 ->
  (exists r, parse_with B ho c n data = Ok r) \/ (exists e, parse_with B ho c n data = Err e).
Proof. exact (fun B ho c n data HB Hho => parse_total B HB ho Hho c n data). Qed.
Print Assumptions C01_no_panic.

(** the hypotheses can be met, and both outcomes occur *)
Example C01_ex : bitter_ok std_bitter /\ hash_order_ok key_order /\ lenZ sample < 2 ^ 31 /\
  (exists r, parse_with std_bitter key_order CrcAlways NetAlways sample = Ok r) /\
  (exists e, parse_with std_bitter key_order CrcAlways NetAlways gone_sample = Err e).
Proof.
  split; [exact std_bitter_ok|]. split; [intros V m; apply Permutation.Permutation_refl|]. split; [reflexivity|].
  split; eexists; vm_compute; reflexivity.
Qed.

(** ** C02 *)

Theorem C02_deterministic : forall B1 B2 ho1 ho2 c n data, bitter_ok B1 -> bitter_ok B2 ->
  hash_order_ok ho1 -> hash_order_ok ho2 -> lenZ data < 2 ^ 31 ->
  parse_with B1 ho1 c n data = parse_with B2 ho2 c n data.
Proof. exact (fun B1 B2 ho1 ho2 c n data H1 H2 Ho1 Ho2 => parse_same B1 B2 H1 H2 ho1 ho2 Ho1 Ho2 c n data). Qed.
Print Assumptions C02_deterministic.

(** another iteration order *)
Definition reverse_order : hash_order := fun V m => rev m.
Example C02_ex : hash_order_ok reverse_order /\
  parse_with std_bitter reverse_order CrcAlways NetAlways sample =
  parse_with std_bitter key_order CrcAlways NetAlways sample /\
  exists r fs, parse_with std_bitter reverse_order CrcAlways NetAlways sample = Ok r /\ r_network_frames r = Some fs /\
    length fs = 2%nat.
Proof.
  split; [intros V m; apply Permutation.Permutation_sym, Permutation.Permutation_rev|].
  split; [vm_compute; reflexivity|]. eexists _, _. split; [vm_compute; reflexivity|]. split; reflexivity.
Qed.

(** ** C04 *)

Theorem C04_policies : forall B ho data c, bitter_ok B -> hash_order_ok ho -> lenZ data < 2 ^ 31 ->
  (exists e, ~ is_network_error e /\ forall n, parse_with B ho c n data = Err e) \/
  (exists r, r_network_frames r = None /\ parse_with B ho c NetNever data = Ok r /\
     ((exists fs, forall n, n <> NetNever -> parse_with B ho c n data = Ok (with_frames (Some fs) r)) \/
      (exists e, parse_with B ho c NetIgnoreOnError data = Ok r /\
                 parse_with B ho c NetAlways data = Err (ENetworkError e)))).
Proof. exact (fun B ho data c HB Hho => net_policies B HB ho Hho data c). Qed.
Print Assumptions C04_policies.

(** all three cases occur *)
Example C04_ex :
  (exists e, forall n, parse_with std_bitter key_order CrcNever n (firstn 100 sample) = Err e) /\
  (exists r fs, parse_with std_bitter key_order CrcNever NetNever sample = Ok r /\
     parse_with std_bitter key_order CrcNever NetAlways sample = Ok (with_frames (Some fs) r)) /\
  (exists r e, parse_with std_bitter key_order CrcNever NetIgnoreOnError gone_sample = Ok r /\
     parse_with std_bitter key_order CrcNever NetAlways gone_sample = Err (ENetworkError e)).
Proof.
  split; [eexists; intros []; vm_compute; reflexivity|].
  split; eexists _, _; (split; vm_compute; reflexivity).
Qed.

(** ** C13 *)

Theorem C13_spawn_table : forall objects, lenZ objects <= 2 ^ 31 ->
  exists v, compute_spawns (object_index_new objects) objects = Ok v /\
    forall id cls t, spawnable objects id cls -> (getZ id v = Some (Some t) <-> spawns_as objects cls t).
Proof. exact spawn_table. Qed.
Print Assumptions C13_spawn_table.

Theorem C13_order_irrelevant : forall objects objects' v v' id id' cls, lenZ objects <= 2 ^ 31 -> lenZ objects' <= 2 ^ 31 ->
  (forall x, In x objects <-> In x objects') ->
  compute_spawns (object_index_new objects) objects = Ok v ->
  compute_spawns (object_index_new objects') objects' = Ok v' ->
  spawnable objects id cls -> spawnable objects' id' cls -> getZ id v = getZ id' v'.
Proof. exact spawn_order. Qed.
Print Assumptions C13_order_irrelevant.

Definition ball_names : list str := map lit ["TAGame.RBActor_TA"; "Archetypes.Ball.Ball_Default"; "Engine.Actor"]%string.
Example C13_ex :
  compute_spawns (object_index_new ball_names) ball_names =
    Ok [Some SpLocationAndRotation; Some SpLocationAndRotation; Some SpLocation] /\
  compute_spawns (object_index_new (rev ball_names)) (rev ball_names) =
    Ok [Some SpLocation; Some SpLocationAndRotation; Some SpLocationAndRotation].
Proof. split; vm_compute; reflexivity. Qed.

(** ** C46 *)

(** the same class with and without its ancestor in the object list *)
Theorem C46_name_decides_trajectory_refuted : exists objects objects' v v' id id' cls,
  nth_error objects id = Some cls /\ nth_error objects' id' = Some cls /\
  compute_spawns (object_index_new objects) objects = Ok v /\
  compute_spawns (object_index_new objects') objects' = Ok v' /\
  nth_error v id = Some (Some SpLocationAndRotation) /\ nth_error v' id' = Some (Some SpNone).
Proof.
  exists ball_names, (map lit ["Archetypes.Ball.Ball_Default"]%string). eexists _, _.
  exists 1%nat, 0%nat, (lit "Archetypes.Ball.Ball_Default").
  split; [reflexivity|]. split; [reflexivity|]. split; [vm_compute; reflexivity|]. split; [vm_compute; reflexivity|].
  split; reflexivity.
Qed.
Print Assumptions C46_name_decides_trajectory_refuted.

(** ** C14 *)

Theorem C14_attribute_table : forall ho objects caches, hash_order_ok ho -> lenZ objects <= 2 ^ 31 -> net_cache_ok caches ->
  props_in_range objects caches ->
  exists v, compute_caches ho (object_index_new objects) objects caches = Ok v /\
    forall id cls, spawnable objects id cls -> exists ci, getZ id v = Some (Some ci) /\
      forall s a, is_i32 s -> (seg_get s (ci_attributes ci) = Some a <->
        exists p name, resolves objects caches cls s p /\ object_at objects (cp_object_ind p) name /\
          kind_of name (oa_attribute a) /\ oa_object_id a = cp_object_ind p).
Proof. exact attribute_table. Qed.
Print Assumptions C14_attribute_table.

Theorem C14_only_spawnable : forall ho objects caches v id ci, hash_order_ok ho -> lenZ objects <= 2 ^ 31 ->
  net_cache_ok caches -> compute_caches ho (object_index_new objects) objects caches = Ok v ->
  getZ id v = Some (Some ci) -> exists cls, spawnable objects id cls.
Proof. exact attribute_table_only. Qed.
Print Assumptions C14_only_spawnable.

Theorem C14_bad_property : forall ho objects caches b p a, hash_order_ok ho -> lenZ objects <= 2 ^ 31 -> net_cache_ok caches ->
  flat_map nc_properties caches = b ++ p :: a ->
  (forall q, In q b -> exists name, object_at objects (cp_object_ind q) name) ->
  (forall name, ~ object_at objects (cp_object_ind p) name) ->
  compute_caches ho (object_index_new objects) objects caches = Err (NStreamTooLargeIndex (cp_stream_id p) (cp_object_ind p)).
Proof. exact attribute_table_bad. Qed.
Print Assumptions C14_bad_property.

(** a subclass overrides the stream id 7 of its parent, and inherits 9 *)
Definition car_names : list str :=
  map lit ["Engine.Actor"; "TAGame.RBActor_TA"; "Engine.Actor:bHidden"; "TAGame.RBActor_TA:ReplicatedRBState";
           "Engine.Actor:DrawScale"]%string.
Definition car_caches : list class_net_cache :=
  [mkNetCache 0 0 0 [mkCacheProp 2 7; mkCacheProp 4 9]; mkNetCache 1 0 0 [mkCacheProp 2 7; mkCacheProp 3 7]].
Example C14_ex : exists v c0 c1,
  compute_caches key_order (object_index_new car_names) car_names car_caches = Ok v /\
  nth_error v 0 = Some (Some c0) /\ nth_error v 1 = Some (Some c1) /\
  seg_get 7 (ci_attributes c0) = Some (mkObjAttr TBoolean 2) /\
  seg_get 7 (ci_attributes c1) = Some (mkObjAttr TRigidBody 3) /\
  seg_get 9 (ci_attributes c1) = Some (mkObjAttr TFloat 4) /\
  seg_get 8 (ci_attributes c1) = None /\
  compute_caches key_order (object_index_new car_names) car_names [mkNetCache 0 0 0 [mkCacheProp 5 7]] =
    Err (NStreamTooLargeIndex 7 5).
Proof.
  eexists _, _, _. split; [vm_compute; reflexivity|]. split; [reflexivity|]. split; [reflexivity|].
  repeat (split; [vm_compute; reflexivity|]). vm_compute. reflexivity.
Qed.

(** ** C27 *)

Section Accepted.
Context (B : bitter) (HB : bitter_ok B) (ho : hash_order) (Hho : hash_order_ok ho).
Context (c : crc_check) (n : network_parse) (data : bytes) (r : replay) (fs : list frame).
Context (L : lenZ data < 2 ^ 31) (E : parse_with B ho c n data = Ok r) (Ef : r_network_frames r = Some fs).

Theorem C27_no_count : (forall x, ~ replay_int r "NumFrames" x) -> fs = [].
Proof. exact (no_frame_count B HB ho Hho c n data r fs L E Ef). Qed.

Theorem C27_limits : forall h b rest, f_file data (h, b) rest ->
  match fs with
  | [] => True
  | _ => exists k, replay_int r "NumFrames" k /\ lenZ fs <= k /\
           65 * lenZ fs <= 8 * lenZ (b_network_data (sec_value b))
  end.
Proof. exact (frame_count B HB ho Hho c n data r fs L E Ef). Qed.

(** ** C28 *)

Theorem C28_sane_times : forall f, In f fs -> sane (f_time f) /\ sane (f_delta f) /\
  ~ (f32_scaled (f_time f) = Some 0 /\ f32_scaled (f_delta f) = Some 0).
Proof. exact (times_sane B HB ho Hho c n data r fs L E Ef). Qed.

(** ** C30 *)

Theorem C30_updates_announced : forall a f b u, fs = a ++ f :: b -> In u (f_updated_actors f) ->
  exists nw cls p name tag, announces a f (u_actor_id u) nw /\
    object_at (r_objects r) (n_object_id nw) cls /\
    resolves (r_objects r) (r_net_cache r) cls (u_stream_id u) p /\ cp_object_ind p = u_object_id u /\
    object_at (r_objects r) (u_object_id u) name /\ kind_of name tag /\ has_kind tag (u_attribute u).
Proof. exact (updates_announced B HB ho Hho c n data r fs L E Ef). Qed.

(** ** C31 *)

Theorem C31_objects_valid : forall f, In f fs ->
  (forall nw, In nw (f_new_actors f) -> exists name, object_at (r_objects r) (n_object_id nw) name) /\
  (forall u, In u (f_updated_actors f) -> exists name, object_at (r_objects r) (u_object_id u) name).
Proof. exact (objects_valid B HB ho Hho c n data r fs L E Ef). Qed.

(** ** C33 *)

Theorem C33_forgotten_from_200 : forall a f b g d id, fs = a ++ f :: b ++ g :: d -> 200 <= id ->
  In id (f_deleted_actors f) ->
  (forall x nw, In x (f :: b ++ [g]) -> In nw (f_new_actors x) -> n_actor_id nw <> id) ->
  forall u, In u (f_updated_actors g) -> u_actor_id u <> id.
Proof. exact (forgotten B HB ho Hho c n data r fs L E Ef). Qed.

(** ** C34 *)

Theorem C34_ids_in_range : forall m,
  replay_int r "MaxChannels" m \/ (forall x, ~ replay_int r "MaxChannels" x) /\ m = 1023 ->
  1 <= m -> forall f id, In f fs -> In id (frame_ids f) -> 0 <= id < m.
Proof. exact (ids_in_range B HB ho Hho c n data r fs L E Ef). Qed.

(** ** C35 *)

Theorem C35_new_actors : forall f nw, In f fs -> In nw (f_new_actors f) ->
  (let v := mkVersion (r_major_version r) (r_minor_version r) (match r_net_version r with Some x => x | None => 0 end) in
   n_name_id nw <> None <->
     at_least v 868 20 0 = true \/ at_least v 868 14 0 = true /\ ~ replay_text r "MatchType" (lit "Lan")) /\
  exists cls sp, object_at (r_objects r) (n_object_id nw) cls /\ spawns_as (r_objects r) cls sp /\
    (t_location (n_traj nw) <> None <-> sp <> SpNone) /\
    (t_rotation (n_traj nw) <> None <-> sp = SpLocationAndRotation).
Proof. exact (new_facts B HB ho Hho c n data r fs L E Ef). Qed.

End Accepted.
Print Assumptions C27_no_count.
Print Assumptions C27_limits.
Print Assumptions C28_sane_times.
Print Assumptions C30_updates_announced.
Print Assumptions C31_objects_valid.
Print Assumptions C33_forgotten_from_200.
Print Assumptions C34_ids_in_range.
Print Assumptions C35_new_actors.

Theorem C27_too_many : forall B ho c data r h b rest n, hash_order_ok ho -> lenZ data < 2 ^ 31 ->
  f_file data (h, b) rest -> parse_with B ho c NetNever data = Ok r ->
  props_in_range (r_objects r) (r_net_cache r) -> replay_int r "NumFrames" n ->
  ~ (0 <= n <= lenZ (b_network_data (sec_value b))) ->
  parse_with B ho c NetAlways data = Err (ENetworkError (NTooManyFrames n)).
Proof. exact (fun B ho c data r h b rest n Hho => too_many B ho Hho c data r h b rest n). Qed.
Print Assumptions C27_too_many.

(** An accepted file meets the hypotheses of the section.  Its first frame
    announces actor 3 (with a name, a location and a rotation) and updates it,
    the second deletes it. *)
Example C27_to_C35_ex : exists r f g nw u,
  parse_with std_bitter key_order CrcAlways NetAlways sample = Ok r /\ r_network_frames r = Some [f; g] /\
  lenZ sample < 2 ^ 31 /\ replay_int r "NumFrames" 2 /\
  f_new_actors f = [nw] /\ f_updated_actors f = [u] /\ f_deleted_actors g = [3] /\
  n_actor_id nw = 3 /\ n_object_id nw = 4 /\ n_name_id nw <> None /\ t_rotation (n_traj nw) <> None /\
  u = mkUpdated 3 3 6 (ABoolean true) /\ length (r_objects r) = 7%nat /\
  f32_scaled (f_time f) = Some (2 ^ 149) /\ f32_scaled (f_delta f) = Some (2 ^ 147).
Proof.
  eexists _, _, _, _, _. split; [vm_compute; reflexivity|]. split; [reflexivity|]. split; [reflexivity|].
  split.
  { exists []. eexists. split; [vm_compute; reflexivity|]. intros []. }
  repeat (split; [first [reflexivity|discriminate]|]). reflexivity.
Qed.

(** three frames do not fit into two bytes *)
Example C27_ex : exists r, parse_with std_bitter key_order CrcAlways NetNever few_sample = Ok r /\
  replay_int r "NumFrames" 3 /\
  parse_with std_bitter key_order CrcAlways NetAlways few_sample = Err (ENetworkError (NTooManyFrames 3)).
Proof.
  eexists. split; [vm_compute; reflexivity|]. split; [|vm_compute; reflexivity].
  exists []. eexists. split; [vm_compute; reflexivity|]. intros [].
Qed.

(** ** C29 *)

Theorem C29_finite_times_refuted : exists data r fs f,
  parse_with std_bitter key_order CrcAlways NetAlways data = Ok r /\ r_network_frames r = Some fs /\ In f fs /\
  f32_scaled (f_time f) = None /\ f32_scaled (f_delta f) = None.
Proof.
  exists odd_sample. eexists _, _, _. split; [vm_compute; reflexivity|]. split; [reflexivity|].
  split; [left; reflexivity|]. split; reflexivity.
Qed.
Print Assumptions C29_finite_times_refuted.

(** ** C32 *)

Theorem C32_names_valid_refuted : exists data r fs f nw id,
  parse_with std_bitter key_order CrcAlways NetAlways data = Ok r /\ r_network_frames r = Some fs /\ In f fs /\
  In nw (f_new_actors f) /\ n_name_id nw = Some id /\ 0 <= id /\ nth_error (r_names r) (Z.to_nat id) = None.
Proof.
  exists odd_sample. eexists _, _, _, _, _. split; [vm_compute; reflexivity|]. split; [reflexivity|].
  split; [left; reflexivity|]. split; [left; reflexivity|]. split; [reflexivity|]. split; [lia|reflexivity].
Qed.
Print Assumptions C32_names_valid_refuted.

(** ** C33 *)

Theorem C33_forgotten_below_200_refuted : exists data r a f g d id u,
  parse_with std_bitter key_order CrcAlways NetAlways data = Ok r /\
  r_network_frames r = Some (a ++ f :: g :: d) /\ In id (f_deleted_actors f) /\
  (forall x nw, In x [f; g] -> In nw (f_new_actors x) -> n_actor_id nw <> id) /\
  In u (f_updated_actors g) /\ u_actor_id u = id.
Proof.
  exists odd_sample. eexists _, [_], _, _, [], 3, _. split; [vm_compute; reflexivity|]. split; [reflexivity|].
  split; [left; reflexivity|]. split; [|split; [left; reflexivity|reflexivity]].
  intros x nw [<-|[<-|[]]] [].
Qed.
Print Assumptions C33_forgotten_below_200_refuted.

(** the same file with actor id 300 is rejected *)
Example C33_ex : exists e,
  parse_with std_bitter key_order CrcAlways NetAlways gone_sample = Err (ENetworkError (NFrameError (FMissingActor 300) e)).
Proof. eexists. vm_compute. reflexivity. Qed.

(** ** C37 *)

Theorem C37_frame_grammar : forall B ho data h b rest fs, bitter_ok B -> hash_order_ok ho -> lenZ data < 2 ^ 31 ->
  f_file data (h, b) rest ->
  (parse_with B ho CrcNever NetAlways data = Ok (replay_of h b (Some fs)) <->
   exists xs, frames_of (sec_value h) (sec_value b) xs /\ fs = map to_frame xs).
Proof. exact (fun B ho data h b rest fs HB Hho => parse_frames B HB ho Hho data h b rest fs). Qed.
Print Assumptions C37_frame_grammar.

Theorem C37_unique : forall h b xs ys, net_ready h b -> frames_of h b xs -> frames_of h b ys ->
  map to_frame xs = map to_frame ys.
Proof. exact frames_unique. Qed.
Print Assumptions C37_unique.

(** the two frames of the sample, as the grammar has them *)
Example C37_ex : exists h b rest xs, f_file sample (h, b) rest /\ frames_of (sec_value h) (sec_value b) xs /\
  length xs = 2%nat.
Proof.
  destruct (parse_with std_bitter key_order CrcAlways NetAlways sample) as [r|e|p] eqn:E;
    [|vm_compute in E; discriminate..].
  assert (Ef : exists fs, r_network_frames r = Some fs /\ length fs = 2%nat).
  { vm_compute in E. injection E as <-. eexists. split; reflexivity. }
  destruct Ef as (fs & Ef & Lf).
  assert (L : lenZ sample < 2 ^ 31) by reflexivity.
  destruct (parse_frames_inv std_bitter std_bitter_ok key_order (fun V m => Permutation.Permutation_refl m)
              _ _ _ _ _ L E Ef) as (h & b & rest & xs & F & _ & X & M).
  exists h, b, rest, xs. split; [exact F|]. split; [exact X|]. subst fs. now rewrite map_length in Lf.
Qed.
