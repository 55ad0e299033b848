(** * Property theorems: the static tables agree with the names in them (C91) *)

From Coq Require Import ZArith List Bool Lia.
From Verif Require Import Base Text NetTypes Errors Header Body BitReader Data ObjectIndex Parser SpecBasic SpecNet SpecReplay SpecFacts SpecData
  NetworkProofs DataProofs Samples.
Open Scope Z_scope.

(** ** C91 *)

(** every attribute is a property declared by a class of actors *)
Theorem C91_declared : forall n t, In (n, t) ATTRIBUTES ->
  t <> TNotImplemented /\ exists c p, n = c ++ ":"%byte :: p /\ declares c p t /\ p <> [] /\ descends c (lit "Engine.Actor").
Proof. exact attributes_declared. Qed.
Print Assumptions C91_declared.

(** a property is encoded in one way, whatever class declares it, and not declared
    again by a descendant *)
Theorem C91_property : forall c d p t u, declares c p t -> declares d p u -> t = u /\ ~ ancestor d c.
Proof. exact agree_spec. Qed.
Print Assumptions C91_property.

(** flags are booleans, and nothing else is but one property *)
Theorem C91_flags : forall c p t, declares c p t ->
  (t = TBoolean <-> flag_name p \/ c = lit "TAGame.PRI_TA" /\ p = lit "PlayerHistoryValid").
Proof. exact flags. Qed.
Print Assumptions C91_flags.

Theorem C91_parent_by_name : forall c d p, parent_by_name c d -> In (c, p) PARENT_CLASSES -> p = d.
Proof. exact named_parent. Qed.
Print Assumptions C91_parent_by_name.

Theorem C91_family_by_start : forall a f c, In (a, f) family_starts -> known_class c -> starts a c -> descends c f \/ In c family_exceptions.
Proof. exact family_start. Qed.
Print Assumptions C91_family_by_start.

Theorem C91_family_by_end : forall b f c, In (b, f) family_ends -> known_class c -> ends b c -> descends c f.
Proof. exact family_end. Qed.
Print Assumptions C91_family_by_end.

Theorem C91_rooted : forall c, known_class c -> descends c (lit "Core.Object") \/ descends c (lit "TAGame.VoteActor_TA").
Proof. exact rooted. Qed.
Print Assumptions C91_rooted.

(** votes are not in the hierarchy of objects *)
Theorem C91_one_root_refuted : exists c, known_class c /\ ~ descends c (lit "Core.Object").
Proof. exact not_rooted. Qed.
Print Assumptions C91_one_root_refuted.

(** votes have only the properties listed for the default vote itself: those of its
    class, and of all actors, are lost *)
Theorem C91_votes : forall objects caches s p, resolves objects caches (lit "TAGame.Default__VoteActor_TA") s p ->
  exists i, first_index objects (lit "TAGame.Default__VoteActor_TA") i /\ In p (listed caches i).
Proof. exact vote_resolves. Qed.
Print Assumptions C91_votes.

(** a property listed for the parent is known to the child: not for votes *)
Theorem C91_inherited_refuted : exists objects caches c d i s p, parent c d /\ first_index objects d i /\ mention caches s i p /\
  forall q, ~ resolves objects caches c s q.
Proof. exact inherited_lost. Qed.
Print Assumptions C91_inherited_refuted.

(** in a replay that lists an object with all its ancestors *)
Theorem C91_trajectories : forall objects c t, (forall d, descends c d -> In d objects) -> spawns_as objects c t ->
  (t = SpLocationAndRotation <-> exists d, In d turning /\ descends c d) /\
  (t = SpNone <-> ~ descends c (lit "Engine.Actor") \/ exists d, In d placed_in_level /\ descends c d).
Proof. exact trajectories. Qed.
Print Assumptions C91_trajectories.

Theorem C91_case_of_attributes : forall n m t u, same_but_case n m -> In (n, t) ATTRIBUTES -> In (m, u) ATTRIBUTES -> t = u.
Proof. exact case_kind. Qed.
Print Assumptions C91_case_of_attributes.

Theorem C91_case_of_classes : forall n m p q, same_but_case n m -> In (n, p) PARENT_CLASSES -> In (m, q) PARENT_CLASSES -> p = q.
Proof. exact case_parent. Qed.
Print Assumptions C91_case_of_classes.

(** what is updated in a replay is a declared property, and it is a boolean exactly
    if it is named like one *)
Theorem C91_updates : forall B ho c n data r fs f u, bitter_ok B -> hash_order_ok ho -> lenZ data < 2 ^ 31 ->
  parse_with B ho c n data = Ok r -> r_network_frames r = Some fs -> In f fs -> In u (f_updated_actors f) ->
  exists k p t, object_at (r_objects r) (u_object_id u) (k ++ ":"%byte :: p) /\ declares k p t /\
    ((exists b, u_attribute u = ABoolean b) <-> flag_name p \/ k = lit "TAGame.PRI_TA" /\ p = lit "PlayerHistoryValid").
Proof. exact updates_declared. Qed.
Print Assumptions C91_updates.

(** "GameEvent" is declared by four classes, "bHidden" is a flag, the score is none *)
Example C91_ex : declares (lit "TAGame.Ball_TA") (lit "GameEvent") TActiveActor /\ declares (lit "TAGame.Team_TA") (lit "GameEvent") TActiveActor /\
  declares (lit "Engine.Actor") (lit "bHidden") TBoolean /\ flag_name (lit "bHidden") /\
  declares (lit "Engine.TeamInfo") (lit "Score") TInt /\ ~ flag_name (lit "Score").
Proof.
  assert (M : forall c p t, has_colon c = false -> has_colon p = false ->
    str_assoc (c ++ ":"%byte :: p) ATTRIBUTES = Some t -> declares c p t).
  { intros c p t H1 H2 H3. split; [now apply no_colon|]. split; [now apply no_colon|]. now apply (BasicProofs.str_assoc_nodup _ _ _ TableProofs.attributes_nodup). }
  split; [apply M; vm_compute; reflexivity|]. split; [apply M; vm_compute; reflexivity|]. split; [apply M; vm_compute; reflexivity|].
  split; [apply flagb_spec; reflexivity|]. split; [apply M; vm_compute; reflexivity|]. rewrite <- flagb_spec. vm_compute. discriminate.
Qed.

(** the names of the default camera, of a pickup in a level, of a ball and of a boost tell their parents *)
Example C91_ex_parents : forall p,
  (In (lit "TAGame.Default__CameraSettingsActor_TA", p) PARENT_CLASSES -> p = lit "TAGame.CameraSettingsActor_TA") /\
  (In (lit "TheWorld:PersistentLevel.VehiclePickup_Boost_TA", p) PARENT_CLASSES -> p = lit "TAGame.VehiclePickup_Boost_TA") /\
  (In (lit "GameInfo_Soccar.GameInfo.GameInfo_Soccar:GameReplicationInfoArchetype", p) PARENT_CLASSES -> p = lit "TAGame.GRI_TA") /\
  (In (lit "Archetypes.CarComponents.CarComponent_Boost", p) PARENT_CLASSES -> p = lit "TAGame.CarComponent_Boost_TA").
Proof.
  intros p. split; [|split; [|split]]; apply C91_parent_by_name.
  - exact (pn_default (lit "CameraSettingsActor_TA")).
  - apply (pn_level (lit "VehiclePickup_Boost_TA")). apply memb_spec. vm_compute. reflexivity.
  - exact (pn_info (lit "GameInfo_Soccar.GameInfo.GameInfo_Soccar")).
  - apply (pn_archetype (lit "CarComponents") (lit "CarComponent_Boost")). apply known_classes, memb_spec. vm_compute. reflexivity.
Qed.

(** the default ball is a ball, and moves and turns *)
Example C91_ex_ball : known_class (lit "Archetypes.Ball.Ball_Default") /\ In (lit "Archetypes.Ball.Ball_", lit "TAGame.Ball_TA") family_starts /\
  ~ In (lit "Archetypes.Ball.Ball_Default") family_exceptions /\ descends (lit "Archetypes.Ball.Ball_Default") (lit "TAGame.RBActor_TA") /\
  exists d, In d turning /\ descends (lit "Archetypes.Ball.Ball_Default") d.
Proof.
  split; [apply known_classes, memb_spec; vm_compute; reflexivity|]. split; [do 9 right; left; reflexivity|].
  split; [rewrite <- memb_spec; vm_compute; discriminate|].
  assert (D : descends (lit "Archetypes.Ball.Ball_Default") (lit "TAGame.RBActor_TA")) by (apply descends_full, memb_spec; vm_compute; reflexivity).
  split; [exact D|]. eexists. split; [left; reflexivity|exact D].
Qed.

(** a vote with a property of its own *)
Example C91_ex_vote : resolves [lit "TAGame.Default__VoteActor_TA"; lit "TAGame.Vote:bFinished"] [mkNetCache 0 0 1 [mkCacheProp 1 5]]
  (lit "TAGame.Default__VoteActor_TA") 5 (mkCacheProp 1 5).
Proof.
  exists [0]. split.
  - exists [lit "TAGame.Default__VoteActor_TA"]. split; [exact vote_lineage|]. constructor; [|constructor].
    exists [], [lit "TAGame.Vote:bFinished"]. repeat split. intros [].
  - exists [], 0, []. split; [reflexivity|]. split; [|intros x y []]. exists [], []. repeat split. intros q [].
Qed.

(** an update in a file: the ball is hidden *)
Example C91_ex_update : exists r fs f u, parse_with std_bitter key_order CrcAlways NetAlways sample = Ok r /\ r_network_frames r = Some fs /\
  In f fs /\ In u (f_updated_actors f) /\ object_at (r_objects r) (u_object_id u) (lit "Engine.Actor" ++ ":"%byte :: lit "bHidden") /\
  u_attribute u = ABoolean true.
Proof.
  do 4 eexists. split; [vm_compute; reflexivity|]. split; [reflexivity|]. split; [left; reflexivity|]. split; [left; reflexivity|].
  split; [split; [discriminate|vm_compute; reflexivity]|reflexivity].
Qed.
