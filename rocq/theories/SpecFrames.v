(** * Specification: the grammar of the network data

    A frame is a time, a delta and a sequence of records.  Records announce,
    delete or update actors.  Which object an actor id stands for is read off
    the history of announcements and deletions (oldest first); nothing here
    refers to the tables of the decoder. *)

From Coq Require Import ZArith List Bool.
From Verif Require Import Base F32 NetTypes Header Body Attributes Data Wire SpecBasic SpecNet.
Open Scope Z_scope.

Record net_env := mkEnv {
  e_max_channels : Z;
  e_names : bool;
  e_objects : list str;
  e_caches : list class_net_cache;
  e_attr : attribute_decoder }.

Definition e_net (e : net_env) : Z := v_net (ad_version (e_attr e)).

Inductive record : Type :=
| RNew (a : new_actor)
| RDelete (id : Z)
| RUpdate (id : Z) (us : list updated_attribute).

(** what a record does to the actors *)
Definition record_ops (r : record) : list (map_op Z) :=
  match r with
  | RNew a => [MInsert (n_actor_id a) (n_object_id a)]
  | RDelete id => [MDelete id]
  | RUpdate _ _ => []
  end.

Definition new_of (r : record) : list new_actor := match r with RNew a => [a] | _ => [] end.
Definition deleted_of (r : record) : list Z := match r with RDelete id => [id] | _ => [] end.
Definition updated_of (r : record) : list updated_attribute := match r with RUpdate _ us => us | _ => [] end.

(** times: -0, +0, at least the binary32 neighbour of 1e-10, or not a number *)
Definition time_ok (x : f32) : Prop :=
  x = 0 \/ x = 0x80000000 \/ 0x2EDBE6FF <= x <= 0x7F800000 \/
  0x7F800000 < x mod 2 ^ 31.
Definition time_zero (x : f32) : Prop := x = 0 \/ x = 0x80000000.

(** 32-bit two's complement *)
Definition signed32 (x : Z) : Z := if x <? 2 ^ 31 then x else x - 2 ^ 32.

(** the object an actor id stands for; deletion has no effect below 200 *)
Definition actor_object (h : list (map_op Z)) (id obj : Z) : Prop := map_after 200 h id = Some obj.

Section Grammar.
Context (e : net_env).

Definition w_actor_id : wire Z := w_map signed32 (w_bounded (Z.max 1 (e_max_channels e))).

(** the body of an announcement *)
Definition w_new (id : Z) : wire new_actor := fun i a o =>
  exists name i1 b i2 obj i3 cls sp t,
    w_when (e_names e) (w_int 32) i name i1 /\
    w_bit i1 b i2 /\
    w_int 32 i2 obj i3 /\
    spawnable (e_objects e) obj cls /\
    spawns_as (e_objects e) cls sp /\
    w_trajectory sp (e_net e) i3 t o /\
    a = mkNew id name obj t.

(** one attribute of an actor of class [cls] *)
Definition w_update (id : Z) (cls : str) : wire updated_attribute := fun i u o =>
  exists bound s i1 p pname tag v,
    stream_bound (e_objects e) (e_caches e) cls bound /\
    w_bounded bound i s i1 /\
    resolves (e_objects e) (e_caches e) cls s p /\
    object_at (e_objects e) (cp_object_ind p) pname /\
    kind_of pname tag /\
    w_attribute (e_attr e) tag i1 v o /\
    u = mkUpdated id s (cp_object_ind p) v.

(** values, each preceded by a set bit, up to a clear bit *)
Inductive w_many {A} (P : wire A) : wire (list A) :=
| many_stop o : w_many P (false :: o) [] o
| many_more i x m xs o : P i x m -> w_many P m xs o -> w_many P (true :: i) (x :: xs) o.

(** a record, after the history [h] *)
Definition w_record (h : list (map_op Z)) : wire record := fun i r o =>
  exists id i1, w_actor_id i id i1 /\
    match r with
    | RDelete id' => id' = id /\ i1 = false :: o
    | RNew a => exists i2, i1 = true :: true :: i2 /\ w_new id i2 a o
    | RUpdate id' us => id' = id /\ exists i2 obj cls, i1 = true :: false :: i2 /\
        actor_object h id obj /\ spawnable (e_objects e) obj cls /\ w_many (w_update id cls) i2 us o
    end.

Inductive w_records : list (map_op Z) -> wire (list record) :=
| records_stop h o : w_records h (false :: o) [] o
| records_more h i r m rs o : w_record h i r m -> w_records (h ++ record_ops r) m rs o ->
    w_records h (true :: i) (r :: rs) o.

Definition frame_of (t d : f32) (rs : list record) : frame :=
  mkFrame t d (flat_map new_of rs) (flat_map deleted_of rs) (flat_map updated_of rs).

Definition w_frame (h : list (map_op Z)) : wire (f32 * f32 * list record) := fun i x o =>
  let '(t, d, rs) := x in
  exists i1 i2, w_f32 i t i1 /\ w_f32 i1 d i2 /\ time_ok t /\ time_ok d /\
    ~ (time_zero t /\ time_zero d) /\ w_records h i2 rs o.

(** a list of at most [n] frames: all bits are used up, or [n] frames have been
    read, or a frame with time and delta zero follows *)
Inductive w_frames : nat -> list (map_op Z) -> bits -> list (f32 * f32 * list record) -> Prop :=
| frames_full h i : w_frames 0 h i []
| frames_empty n h : w_frames (S n) h [] []
| frames_end n h i t i1 d o : w_f32 i t i1 -> w_f32 i1 d o -> time_zero t -> time_zero d ->
    w_frames (S n) h i []
| frames_more n h i t d rs m fs : w_frame h i (t, d, rs) m ->
    w_frames n (h ++ flat_map record_ops rs) m fs -> w_frames (S n) h i ((t, d, rs) :: fs).

End Grammar.

Definition to_frame (x : f32 * f32 * list record) : frame :=
  let '(t, d, rs) := x in frame_of t d rs.

(** ** The environment that a header and a body give *)

(** the first entry of a header property *)
Definition entry (h : header) (name : string) (r : option header_prop) : Prop :=
  (exists p, first_entry (lit name) (h_properties h) p /\ r = Some p) \/
  ~ In (lit name) (map fst (h_properties h)) /\ r = None.
Definition int_of (r : option header_prop) : option Z :=
  match r with Some (HInt x) => Some x | _ => None end.
Definition text_of (r : option header_prop) : option str :=
  match r with Some (HName s) | Some (HStr s) => Some s | _ => None end.

(** lexicographic order of byte strings *)
Inductive lex_le : str -> str -> Prop :=
| lex_nil b : lex_le [] b
| lex_lt x a y b : (Byte.to_N x < Byte.to_N y)%N -> lex_le (x :: a) (y :: b)
| lex_eq x a b : lex_le a b -> lex_le (x :: a) (x :: b).

(** the id of a name, or 0 *)
Definition id_or_zero (objects : list str) (name : string) (id : Z) : Prop :=
  first_index objects (lit name) id \/ ~ In (lit name) objects /\ id = 0.

Definition env_of (h : header) (b : body) (e : net_env) : Prop :=
  exists channels lan build color painted special team title rl,
    entry h "MaxChannels" channels /\ entry h "MatchType" lan /\ entry h "BuildVersion" build /\
    id_or_zero (b_objects b) "TAGame.ProductAttribute_UserColor_TA" color /\
    id_or_zero (b_objects b) "TAGame.ProductAttribute_Painted_TA" painted /\
    id_or_zero (b_objects b) "TAGame.ProductAttribute_SpecialEdition_TA" special /\
    id_or_zero (b_objects b) "TAGame.ProductAttribute_TeamEdition_TA" team /\
    id_or_zero (b_objects b) "TAGame.ProductAttribute_TitleID_TA" title /\
    (rl = true <-> exists s, text_of build = Some s /\ lex_le (lit "221120.42953.406184") s) /\
    let v := mkVersion (h_major h) (h_minor h) (match h_net h with Some n => n | None => 0 end) in
    e = {| e_max_channels := (match int_of channels with Some x => x | None => 1023 end) mod 2 ^ 32;
           e_names := at_least v 868 20 0 ||
                      (at_least v 868 14 0 &&
                       negb (match text_of lan with Some s => str_eqb s (lit "Lan") | None => false end));
           e_objects := b_objects b;
           e_caches := b_net_cache b;
           e_attr := mkAttrDecoder v (mkProductDecoder v color painted special team title) rl |}.

(** every property of the net cache refers to an object *)
Definition props_in_range (objects : list str) (caches : list class_net_cache) : Prop :=
  forall p, In p (flat_map nc_properties caches) -> exists name, object_at objects (cp_object_ind p) name.

(** the frames of a replay *)
Definition frames_of (h : header) (b : body) (fs : list (f32 * f32 * list record)) : Prop :=
  props_in_range (b_objects b) (b_net_cache b) /\
  exists count, entry h "NumFrames" count /\
    match int_of count with
    | None => fs = []
    | Some n =>
        0 <= n <= Z.of_nat (length (b_network_data b)) /\
        exists e, env_of h b e /\
          w_frames e (Z.to_nat n) [] (enc_bytes (b_network_data b)) fs
    end.
