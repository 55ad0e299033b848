(** * Specification: which network error is reported, and with which context

    A frame that cannot be decoded consists of records that can be decoded,
    possibly some attribute updates of a further record, and a place where
    reading fails.  [frame_fails] lists the places and the error each one leads
    to.  Nothing here refers to the tables of the decoder. *)

From Coq Require Import ZArith List Bool.
From Verif Require Import Base F32 NetTypes Errors Header Body Attributes Data Wire SpecBasic SpecNet SpecFrames SpecAttrErrors.
Open Scope Z_scope.

(** values, each preceded by a set bit *)
Inductive many_before {A} (P : wire A) : bits -> list A -> bits -> Prop :=
| mb_nil i : many_before P i [] i
| mb_cons i x m xs j : P i x m -> many_before P m xs j -> many_before P (true :: i) (x :: xs) j.

(** there are too few bits for an integer below [bound] and [extra] more bits *)
Definition too_few (i : bits) (bound : Z) (extra : Z) : Prop :=
  Z.of_nat (length i) < Z.log2 (Z.max 1 bound) + extra.

(** the trajectory that follows an object: that of its name if this is the first
    object of the name, none otherwise *)
Definition spawn_of (objects : list str) (obj : Z) (name : str) (sp : spawn_trajectory) : Prop :=
  first_index objects name obj /\ spawns_as objects name sp \/
  ~ first_index objects name obj /\ sp = SpNone.

Section Failures.
Context (e : net_env).

(** Before an id is read there must be enough bits for the widest one, and for
    the bit or two that follow it. *)
Definition ample_actor (i : bits) : Prop := ~ too_few i (e_max_channels e) 2.
Definition ample_stream (cls : str) (i : bits) : Prop :=
  forall bound, stream_bound (e_objects e) (e_caches e) cls bound -> 0 <= bound /\ ~ too_few i bound 1.

(** an announcement, after the two bits that say so *)
Inductive new_fails (id : Z) (i : bits) : frame_error -> Prop :=
| nf_start :
    (forall name i1 b i2 obj i3,
       ~ (w_when (e_names e) (w_int 32) i name i1 /\ w_bit i1 b i2 /\ w_int 32 i2 obj i3)) ->
    new_fails id i (FNotEnoughDataFor "New Actor")
| nf_object name i1 b i2 obj i3 :
    w_when (e_names e) (w_int 32) i name i1 -> w_bit i1 b i2 -> w_int 32 i2 obj i3 ->
    (forall n, ~ object_at (e_objects e) obj n) ->
    new_fails id i (FObjectIdOutOfRange obj)
| nf_trajectory name i1 b i2 obj i3 cls sp :
    w_when (e_names e) (w_int 32) i name i1 -> w_bit i1 b i2 -> w_int 32 i2 obj i3 ->
    object_at (e_objects e) obj cls -> spawn_of (e_objects e) obj cls sp ->
    (forall t o, ~ w_trajectory sp (e_net e) i3 t o) ->
    new_fails id i (FNotEnoughDataFor "New Actor")
| nf_cache name i1 b i2 obj i3 cls sp t o :
    w_when (e_names e) (w_int 32) i name i1 -> w_bit i1 b i2 -> w_int 32 i2 obj i3 ->
    object_at (e_objects e) obj cls -> spawn_of (e_objects e) obj cls sp ->
    w_trajectory sp (e_net e) i3 t o -> ~ spawnable (e_objects e) obj cls ->
    new_fails id i (FMissingCache id obj).

(** an attribute of the actor [id], an instance of the object [obj] of class
    [cls], after the bit that announces it *)
Inductive update_fails (id obj : Z) (cls : str) (i : bits) : frame_error -> Prop :=
| uf_stream bound :
    stream_bound (e_objects e) (e_caches e) cls bound ->
    bound < 0 \/ too_few i bound 1 ->
    update_fails id obj cls i (FNotEnoughDataFor "Prop id")
| uf_unknown bound s j : ample_stream cls i ->
    stream_bound (e_objects e) (e_caches e) cls bound -> w_bounded (Z.max 1 bound) i s j ->
    (forall p, ~ resolves (e_objects e) (e_caches e) cls s p) ->
    update_fails id obj cls i (FMissingAttribute id obj s)
| uf_unimplemented bound s j p pname : ample_stream cls i ->
    stream_bound (e_objects e) (e_caches e) cls bound -> w_bounded bound i s j ->
    resolves (e_objects e) (e_caches e) cls s p -> object_at (e_objects e) (cp_object_ind p) pname ->
    kind_of pname TNotImplemented ->
    update_fails id obj cls i (FMissingAttribute id obj s)
| uf_value bound s j p pname tag x : ample_stream cls i ->
    stream_bound (e_objects e) (e_caches e) cls bound -> w_bounded bound i s j ->
    resolves (e_objects e) (e_caches e) cls s p -> object_at (e_objects e) (cp_object_ind p) pname ->
    kind_of pname tag -> tag <> TNotImplemented ->
    (forall v o, ~ w_attribute (e_attr e) tag j v o) ->
    m_attribute (e_attr e) tag j x ->
    update_fails id obj cls i (FAttributeError id obj s x).

(** an update that can be decoded *)
Definition good_update (id : Z) (cls : str) : wire updated_attribute := fun i u o =>
  ample_stream cls i /\ w_update e id cls i u o.

(** a record after the history [h] and after the bit that announces it; [us] are
    the updates that could be decoded *)
Inductive record_fails (h : list (map_op Z)) (i : bits) : list updated_attribute -> frame_error -> Prop :=
| rf_id : too_few i (e_max_channels e) 2 ->
    record_fails h i [] (FNotEnoughDataFor "Actor Id")
| rf_is_new id : ample_actor i -> w_actor_id e i id [true] ->
    record_fails h i [] (FNotEnoughDataFor "Is new actor")
| rf_new id i1 x : ample_actor i -> w_actor_id e i id (true :: true :: i1) -> new_fails id i1 x ->
    record_fails h i [] x
| rf_actor id i1 : ample_actor i -> w_actor_id e i id (true :: false :: i1) -> (forall obj, ~ actor_object h id obj) ->
    record_fails h i [] (FMissingActor id)
| rf_more id i1 obj cls us : ample_actor i -> w_actor_id e i id (true :: false :: i1) -> actor_object h id obj ->
    spawnable (e_objects e) obj cls -> many_before (good_update id cls) i1 us [] ->
    record_fails h i us (FNotEnoughDataFor "Is prop present")
| rf_update id i1 obj cls us j x : ample_actor i -> w_actor_id e i id (true :: false :: i1) -> actor_object h id obj ->
    spawnable (e_objects e) obj cls -> many_before (good_update id cls) i1 us (true :: j) ->
    update_fails id obj cls j x ->
    record_fails h i us x.

(** records, each preceded by a set bit *)
Inductive records_before : list (map_op Z) -> bits -> list record -> bits -> Prop :=
| rb_nil h i : records_before h i [] i
| rb_cons h i r m rs j : ample_actor i -> w_record e h i r m -> records_before (h ++ record_ops r) m rs j ->
    records_before h (true :: i) (r :: rs) j.

(** a frame; [rs] and [us] are the records and further updates that could be
    decoded *)
Inductive frame_fails (h : list (map_op Z)) (i : bits) :
    list record -> list updated_attribute -> frame_error -> Prop :=
| ff_time : (forall t o, ~ w_f32 i t o) ->
    frame_fails h i [] [] (FNotEnoughDataFor "Time")
| ff_time_range t i1 : w_f32 i t i1 -> ~ time_ok t ->
    frame_fails h i [] [] (FTimeOutOfRange t)
| ff_delta t i1 : w_f32 i t i1 -> time_ok t -> (forall d o, ~ w_f32 i1 d o) ->
    frame_fails h i [] [] (FNotEnoughDataFor "Delta")
| ff_delta_range t i1 d i2 : w_f32 i t i1 -> time_ok t -> w_f32 i1 d i2 -> ~ time_ok d ->
    frame_fails h i [] [] (FDeltaOutOfRange d)
| ff_more t i1 d i2 rs : w_f32 i t i1 -> time_ok t -> w_f32 i1 d i2 -> time_ok d ->
    ~ (time_zero t /\ time_zero d) -> records_before h i2 rs [] ->
    frame_fails h i rs [] (FNotEnoughDataFor "Actor data")
| ff_record t i1 d i2 rs us j x : w_f32 i t i1 -> time_ok t -> w_f32 i1 d i2 -> time_ok d ->
    ~ (time_zero t /\ time_zero d) -> records_before h i2 rs (true :: j) ->
    record_fails (h ++ flat_map record_ops rs) j us x ->
    frame_fails h i rs us x.

(** frames that can be decoded, and the history they lead to *)
Inductive frames_before : list (map_op Z) -> bits -> list (f32 * f32 * list record) -> list (map_op Z) -> bits -> Prop :=
| fb_nil h i : frames_before h i [] h i
| fb_cons h i t d rs m xs h' j : w_frame e h i (t, d, rs) m ->
    frames_before (h ++ flat_map record_ops rs) m xs h' j ->
    frames_before h i ((t, d, rs) :: xs) h' j.

(** at most [n] frames are wanted from [i]; decoding stops with the error [x] in
    the situation [ctx] *)
Definition frames_fail (n : nat) (i : bits) (x : frame_error) (ctx : frame_context) : Prop :=
  exists xs h j rs us,
    frames_before [] i xs h j /\ (length xs < n)%nat /\ j <> [] /\
    frame_fails h j rs us x /\
    fc_objects ctx = e_objects e /\
    fc_frames ctx = map to_frame xs /\
    fc_new_actors ctx = flat_map new_of rs /\
    fc_updated_actors ctx = flat_map updated_of rs ++ us /\
    NoDup (map fst (fc_actors ctx)) /\
    forall a o, In (a, o) (fc_actors ctx) <->
      is_i32 a /\ actor_object (h ++ flat_map record_ops rs) a o.

End Failures.

(** the errors of a header and a body *)
Definition network_fails (h : header) (b : body) (x : network_error) : Prop :=
  match x with
  | NStreamTooLargeIndex s o =>
      exists before p after, flat_map nc_properties (b_net_cache b) = before ++ p :: after /\
        s = cp_stream_id p /\ o = cp_object_ind p /\
        (forall name, ~ object_at (b_objects b) o name) /\
        forall q, In q before -> exists name, object_at (b_objects b) (cp_object_ind q) name
  | NTooManyFrames n =>
      props_in_range (b_objects b) (b_net_cache b) /\
      first_entry (lit "NumFrames") (h_properties h) (HInt n) /\
      ~ (0 <= n <= Z.of_nat (length (b_network_data b)))
  | NFrameError x ctx =>
      props_in_range (b_objects b) (b_net_cache b) /\
      exists n env, first_entry (lit "NumFrames") (h_properties h) (HInt n) /\
        0 <= n <= Z.of_nat (length (b_network_data b)) /\
        env_of h b env /\
        frames_fail env (Z.to_nat n) (enc_bytes (b_network_data b)) x ctx
  | _ => False
  end.

(** the same error in the same situation; [fc_actors] is a map *)
Definition same_error (x y : network_error) : Prop :=
  match x, y with
  | NFrameError x c, NFrameError y d =>
      x = y /\ fc_objects c = fc_objects d /\ fc_frames c = fc_frames d /\
      fc_new_actors c = fc_new_actors d /\ fc_updated_actors c = fc_updated_actors d /\
      forall a o, In (a, o) (fc_actors c) <-> In (a, o) (fc_actors d)
  | _, _ => x = y
  end.
