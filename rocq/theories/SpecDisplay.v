(** * Specification: the messages of frame errors, causes of errors

    A message is a list of pieces: fixed words, integers in decimal notation and
    other text.  Names are looked up in the object list and the net cache of the
    file, with the relations of SpecNet. *)

From Coq Require Import ZArith List Sorted.
From Verif Require Import Base F32 NetTypes Header Body Errors Data Display SpecBasic SpecNet SpecFrames SpecDecimal.
Open Scope Z_scope.

Inductive piece := W (words : string) | I (x : Z) | T (text : str).

Inductive reads : list piece -> str -> Prop :=
| reads_nil : reads [] []
| reads_words w l t : reads l t -> reads (W w :: l) (lit w ++ t)
| reads_int x d l t : decimal x d -> reads l t -> reads (I x :: l) (d ++ t)
| reads_text s l t : reads l t -> reads (T s :: l) (s ++ t).

Definition NL : piece := W "
".

(** ** Lists of names *)

(** in strictly ascending order, hence without repetition *)
Definition ascending : list str -> Prop := StronglySorted (fun a b => lex_le a b /\ a <> b).

(** the list of the names with [P] *)
Definition list_of (P : str -> Prop) (l : list str) : Prop := ascending l /\ forall n, In n l <-> P n.

Fixpoint commas (l : list (list piece)) : list piece :=
  match l with
  | [] => []
  | [x] => x
  | x :: t => x ++ W ", " :: commas t
  end.

(** ** Values *)

Definition optional_part (o : option Z) : list piece :=
  match o with Some x => [W "Some("; I x; W ")"] | None => [W "None"] end.
Definition location_part (o : option vector3i) : list piece :=
  match o with
  | Some v => [W "Some(Vector3i { x: "; I (v3i_x v); W ", y: "; I (v3i_y v); W ", z: "; I (v3i_z v); W " })"]
  | None => [W "None"]
  end.
Definition rotation_part (o : option rotation) : list piece :=
  match o with
  | Some r => W "Some(Rotation { yaw: " :: optional_part (r_yaw r) ++ W ", pitch: " :: optional_part (r_pitch r) ++
              W ", roll: " :: optional_part (r_roll r) ++ [W " })"]
  | None => [W "None"]
  end.

Section Messages.
Context (show_f32 : f32 -> str) (debug_attribute : attribute -> str).
Context (objects : list str) (caches : list class_net_cache).

(** the properties that the stream id [s] stands for in some class *)
Definition stream_name (s : Z) (n : str) : Prop :=
  exists obj cls p, spawnable objects obj cls /\ resolves objects caches cls s p /\
    object_at objects (cp_object_ind p) n.

Definition name_lists (names unknown : list str) : list piece :=
  [W "searching all attributes with the same stream id, unknown attributes: ["] ++
  commas (map (fun n => [T n]) unknown) ++
  [W "], all attributes with that stream id: ["] ++
  commas (map (fun n => [W "("; T n; W ")"]) names) ++ [W "]. "].

Definition names_for (s : Z) (l : list piece) : Prop :=
  exists names unknown, list_of (stream_name s) names /\
    list_of (fun n => stream_name s n /\ ~ In n (map fst ATTRIBUTES)) unknown /\
    l = name_lists names unknown.

(** ** The error itself *)

Definition attribute_message (x : attribute_error) : list piece :=
  match x with
  | ANotEnoughDataFor what => [W "Not enough data to decode attribute "; W what]
  | AUnrecognizedRemoteId id => [W "Unrecognized remote id of "; I id]
  | AUnimplemented => [W "Does not have an attribute implementation"]
  | ATooBigString size => [W "Unexpected size for string: "; I size]
  end.

Definition frame_message (x : frame_error) : list piece :=
  match x with
  | FNotEnoughDataFor what => [W "not enough data to decode "; W what; W ". "]
  | FTimeOutOfRange t => [W "time is out of range: "; T (show_f32 t); W ". "]
  | FDeltaOutOfRange d => [W "delta is out of range: "; T (show_f32 d); W ". "]
  | FObjectIdOutOfRange o => [W "new actor object id out of range: "; I o; W ". "]
  | FMissingActor a => [W "attribute update references unknown actor: "; I a; W ". "]
  | FMissingCache a o =>
      [W "no known attributes found for actor id / object id: "; I a; W " / "; I o; W ". "]
  | FMissingAttribute a o s =>
      [W "attribute unknown or not implemented:"; NL; W "----------"; NL;
       W "actor id: "; I a; NL; W "actor object id: "; I o; NL; W "attribute stream id: "; I s; NL]
  | FAttributeError a o s x =>
      W "attribute decoding error encountered: " :: attribute_message x ++
      [W " for actor id / actor object id / attribute id: "; I a; W " / "; I o; W " / "; I s; W ". "]
  end.

Inductive detail : frame_error -> list piece -> Prop :=
| detail_cache a o n : object_at objects o n ->
    detail (FMissingCache a o) [W "("; T n; W ")"]
| detail_unknown a o s cls l : spawnable objects o cls ->
    (forall p, ~ resolves objects caches cls s p) -> names_for s l ->
    detail (FMissingAttribute a o s)
      ([W "did not find attribute id ("; I s; W ") on "; T cls; W " in object hierarchy: "] ++ l)
| detail_unimplemented a o s cls p n : spawnable objects o cls ->
    resolves objects caches cls s p -> object_at objects (cp_object_ind p) n ->
    ~ In n (map fst ATTRIBUTES) ->
    detail (FMissingAttribute a o s) [W "attribute: "; T n; NL]
| detail_value a o s x cls p n tag l : spawnable objects o cls ->
    resolves objects caches cls s p -> object_at objects (cp_object_ind p) n -> In (n, tag) ATTRIBUTES ->
    names_for s l ->
    detail (FAttributeError a o s x)
      ([W "found attribute ("; W (tag_name tag); W ") on "; T cls; W " in network cache data. "] ++ l)
| detail_none x : (forall a o, x <> FMissingCache a o) -> (forall a o s, x <> FMissingAttribute a o s) ->
    (forall a o s y, x <> FAttributeError a o s y) -> detail x [].

(** ** The situation *)

Section Situation.
Context (c : frame_context).

(** what is said about the actor of an update: its object now *)
Inductive actor_part (id : Z) : list piece -> Prop :=
| actor_known obj n : In (id, obj) (fc_actors c) -> object_at objects obj n ->
    actor_part id [W "object id: "; I obj; NL; W "object name: "; T n; NL]
| actor_gone : (forall obj, ~ In (id, obj) (fc_actors c)) ->
    actor_part id [W "object id: <none>"; NL].

Inductive update_part (u : updated_attribute) : list piece -> Prop :=
| update_intro l n : actor_part (u_actor_id u) l -> object_at objects (u_object_id u) n ->
    update_part u
      ([NL; W "Last actor update:"; NL; W "------------------"; NL;
        W "actor id: "; I (u_actor_id u); NL] ++ l ++
       [W "attribute stream id: "; I (u_stream_id u); NL;
        W "attribute object id: "; I (u_object_id u); NL;
        W "attribute object name: "; T n; NL;
        W "attribute: "; T (debug_attribute (u_attribute u)); NL]).

Inductive new_part (a : new_actor) : list piece -> Prop :=
| new_intro n : object_at objects (n_object_id a) n ->
    new_part a
      ([NL; W "Last new actor:"; NL; W "---------------"; NL;
       W "actor id: "; I (n_actor_id a); NL;
       W "name id: "; match n_name_id a with Some x => I x | None => W "<none>" end; NL;
       W "object id: "; I (n_object_id a); NL;
       W "object name: "; T n; NL;
       W "location: "] ++ location_part (t_location (n_traj a)) ++ [NL;
       W "rotation: "] ++ rotation_part (t_rotation (n_traj a)) ++ [NL]).

(** the last update, or else the last announcement *)
Inductive last_part (us : list updated_attribute) (ns : list new_actor) : list piece -> Prop :=
| last_update us' u l : us = us' ++ [u] -> update_part u l -> last_part us ns l
| last_new ns' a l : us = [] -> ns = ns' ++ [a] -> new_part a l -> last_part us ns l.

Inductive current_part : list piece -> Prop :=
| current_data l : last_part (fc_updated_actors c) (fc_new_actors c) l -> current_part l
| current_retrace fs f fs' l : fc_updated_actors c = [] -> fc_new_actors c = [] ->
    fc_frames c = fs ++ f :: fs' -> (forall g, In g fs' -> f_updated_actors g = [] /\ f_new_actors g = []) ->
    last_part (f_updated_actors f) (f_new_actors f) l ->
    current_part
      ([W "- No actor information decoded"; NL;
        W "Retrace frame: "; I (Z.of_nat (length fs)); W " (time: "; T (show_f32 (f_time f));
        W ", delta: "; T (show_f32 (f_delta f)); W ")"; NL] ++ l)
| current_nothing : fc_updated_actors c = [] -> fc_new_actors c = [] ->
    (forall g, In g (fc_frames c) -> f_updated_actors g = [] /\ f_new_actors g = []) ->
    current_part [W "- No actor information decoded"; NL].

(** time and delta of the last frame that was decoded *)
Definition last_times (t d : f32) : Prop :=
  fc_frames c = [] /\ t = 0 /\ d = 0 \/
  exists fs f, fc_frames c = fs ++ [f] /\ t = f_time f /\ d = f_delta f.

Definition situation (l : list piece) : Prop :=
  exists t d l', last_times t d /\ current_part l' /\
    l = [W "Current frame: "; I (Z.of_nat (length (fc_frames c)));
         W " (time: "; T (show_f32 t); W " delta: "; T (show_f32 d); W ")"; NL] ++ l'.

Definition frame_error_message (x : frame_error) (l : list piece) : Prop :=
  exists l1 l2, detail x l1 /\ situation l2 /\
    l = W "Error decoding frame: " :: frame_message x ++ l1 ++ NL :: l2.

End Situation.
End Messages.

(** ** Causes *)

(** a cause that is not itself caused by something else *)
Definition plain (e : parse_error) : Prop :=
  match e with
  | EUtf8Error _ | ETextTooLarge _ | EInsufficientData _ _ | EUnexpectedProperty _ | EListTooLarge _ => True
  | _ => False
  end.

(** the parts of the header and of the body, and what surrounds them *)
Definition header_parts : list string :=
  ["major version"; "minor version"; "net version"; "game type"; "header properties"]%string.
Definition body_parts : list string :=
  ["levels"; "keyframes"; "network size"; "network data"; "debug info"; "tickmarks"; "packages"; "objects";
   "names"; "class index"; "net cache"]%string.
Definition frame_parts : list string :=
  ["header size"; "header crc"; "header data"; "content size"; "content crc"; "content data"]%string.

(** an error in one of the parts; in the header properties the size of a
    property may be missing *)
Definition placed (parts : list string) (e : parse_error) : Prop :=
  exists part at_ e', e = EParseError part at_ e' /\ In part parts /\
    (plain e' \/
     part = "header properties"%string /\
     exists size at' want have, e' = EParseError size at' (EInsufficientData want have) /\
       In size ["property size"; "array property size"]%string).

Definition error_shape (e : parse_error) : Prop :=
  placed (frame_parts ++ header_parts ++ body_parts) e \/
  (exists e', e = ECorruptReplay "header" e' /\ placed header_parts e') \/
  (exists e', e = ECorruptReplay "body" e' /\ placed body_parts e') \/
  (exists want have, e = ECrcMismatch want have /\ want <> have) \/
  (exists x, e = ENetworkError x).

(** an error, its cause, the cause of that and so on *)
Inductive causes : any_error -> list any_error -> Prop :=
| causes_root e : source e = None -> causes e [e]
| causes_more e e' l : source e = Some e' -> causes e' l -> causes e (e :: l).
