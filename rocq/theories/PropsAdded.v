(** * Property C95: what later entries in the tables do to replays *)

From Coq Require Import ZArith List.
From Verif Require Import Base F32 NetTypes Errors BitReader Data ObjectIndex Parser SpecBasic SpecReplay
  Added SpecAdded Samples AddedProofs.
Import ListNotations.
Open Scope Z_scope.

(** ** C95: entries added to the tables of attributes, spawns and classes do not change the
    replays that could be read before *)

Theorem C95_model : forall B ho c n data, parse_with_t shipped ho B c n data = parse_with B ho c n data.
Proof. exact model. Qed.
Print Assumptions C95_model.

Theorem C95_attributes : forall B ho attributes c n data r, hash_order_ok ho -> lenZ data < 2 ^ 31 ->
  parse_with B ho c n data = Ok r -> n <> NetIgnoreOnError \/ r_network_frames r <> None ->
  parse_with_t (with_attributes attributes) ho B c n data = Ok r.
Proof. exact (fun B ho A c n data r Ho => attributes_kept B ho Ho A c n data r). Qed.
Print Assumptions C95_attributes.

Theorem C95_errors : forall B ho attributes c n data e, hash_order_ok ho -> lenZ data < 2 ^ 31 ->
  parse_with B ho c n data = Err e ->
  (exists actor object stream ctx, e = ENetworkError (NFrameError (FMissingAttribute actor object stream) ctx) /\
     newly_known attributes (fc_objects ctx)) \/
  exists e', parse_with_t (with_attributes attributes) ho B c n data = Err e' /\ same_error e e'.
Proof. exact (fun B ho A c n data e Ho => attributes_errors B ho Ho A c n data e). Qed.
Print Assumptions C95_errors.

Theorem C95_newer : forall B ho classes spawns attributes c n data r, hash_order_ok ho -> lenZ data < 2 ^ 31 ->
  parse_with B ho c n data = Ok r -> n <> NetIgnoreOnError \/ r_network_frames r <> None ->
  new_classes classes (r_objects r) -> new_spawns spawns (r_objects r) ->
  parse_with_t (added classes spawns attributes) ho B c n data = Ok r.
Proof. exact (fun B ho P S A c n data r Ho => newer B ho Ho P S A c n data r). Qed.
Print Assumptions C95_newer.

Theorem C95_unaffected : forall B ho classes spawns attributes c n data, lenZ data < 2 ^ 31 ->
  (forall r, parse_with B ho c NetNever data = Ok r ->
     new_classes classes (r_objects r) /\ new_spawns spawns (r_objects r) /\ new_attributes attributes (r_objects r)) ->
  parse_with_t (added classes spawns attributes) ho B c n data = parse_with B ho c n data.
Proof. exact unaffected. Qed.
Print Assumptions C95_unaffected.

(** An entry for the spawn data of an object of the replay can change it. *)
Theorem C95_spawns_refuted : exists spawns data r,
  parse_with std_bitter key_order CrcAlways NetAlways data = Ok r /\ new_classes [] (r_objects r) /\
  parse_with_t (added [] spawns []) key_order std_bitter CrcAlways NetAlways data <> Ok r.
Proof.
  exists [(lit "Archetypes.Ball.Ball_Default", SpNone)], sample. eexists. split; [vm_compute; reflexivity|].
  split; [intros o n c _ _ _ []|]. vm_compute. discriminate.
Qed.
Print Assumptions C95_spawns_refuted.

(** *** Examples *)

(** The sample with the attribute "Engine.Actor:bHidden" renamed to one nobody knows. *)
Definition renamed : list byte := firstn 820 sample ++ lit "bHiddex" ++ skipn 827 sample.

Definition later : list (str * attribute_tag) := [(lit "Engine.Actor:bHiddex", TBoolean); (lit "Engine.Actor:bHidden", TInt)].

(* an attribute that is known keeps its kind *)
Example C95_example_kept :
  parse_with_t (with_attributes later) key_order std_bitter CrcAlways NetAlways sample =
  parse_with std_bitter key_order CrcAlways NetAlways sample /\
  exists r, parse_with std_bitter key_order CrcAlways NetAlways sample = Ok r /\ r_network_frames r <> None.
Proof. split; [vm_compute; reflexivity|]. eexists. split; [vm_compute; reflexivity|discriminate]. Qed.

(* an attribute that was not known makes a replay readable *)
Example C95_example_readable :
  (exists actor object stream ctx, parse_with std_bitter key_order CrcNever NetAlways renamed =
     Err (ENetworkError (NFrameError (FMissingAttribute actor object stream) ctx)) /\
     newly_known later (fc_objects ctx)) /\
  exists r fs, parse_with_t (with_attributes later) key_order std_bitter CrcNever NetAlways renamed = Ok r /\
    r_network_frames r = Some fs /\ length fs = 2%nat.
Proof.
  split.
  - do 4 eexists. split; [vm_compute; reflexivity|]. exists (lit "Engine.Actor:bHiddex").
    split; [vm_compute; tauto|]. split; [vm_compute; tauto|]. intros H.
    vm_compute in H. repeat (destruct H as [H|H]; [discriminate H|]). exact H.
  - do 2 eexists. split; [vm_compute; reflexivity|]. split; reflexivity.
Qed.

(* with the frames left out on errors, the same entry makes the frames appear *)
Example C95_example_ignored :
  (exists r, parse_with std_bitter key_order CrcNever NetIgnoreOnError renamed = Ok r /\ r_network_frames r = None) /\
  exists r, parse_with_t (with_attributes later) key_order std_bitter CrcNever NetIgnoreOnError renamed = Ok r /\
    r_network_frames r <> None.
Proof. split; eexists; (split; [vm_compute; reflexivity|]); [reflexivity|discriminate]. Qed.

(* an error about something else stays *)
Example C95_example_error :
  exists e e', parse_with std_bitter key_order CrcNever NetAlways bad_sample = Err e /\
  parse_with_t (with_attributes [(lit "TAGame.CameraSettingsActor_TA:Unheard", TByte)]) key_order std_bitter CrcNever NetAlways bad_sample = Err e' /\
  same_error e e'.
Proof. do 2 eexists. split; [vm_compute; reflexivity|]. split; [vm_compute; reflexivity|]. vm_compute. auto. Qed.


(* a class, its spawn data and an attribute of it, none of them in the sample *)
Definition hoverboard : str := lit "TAGame.Hoverboard_TA".

Example C95_example_newer : forall r, parse_with std_bitter key_order CrcAlways NetAlways sample = Ok r ->
  new_classes [(hoverboard, lit "TAGame.Vehicle_TA")] (r_objects r) /\
  new_spawns [(hoverboard, SpLocationAndRotation)] (r_objects r) /\
  new_attributes [(lit "TAGame.Hoverboard_TA:Height", TFloat)] (r_objects r) /\
  ~ new_spawns [(lit "Engine.Actor", SpLocation)] (r_objects r).
Proof.
  intros r H. vm_compute in H. injection H as <-.
  assert (P : forall x name, ancestor x name -> In name (map snd PARENT_CLASSES)).
  { induction 1 as [x p (c & _ & I)|]; [exact (in_map snd _ _ I)|assumption]. }
  split; [|split; [|split]].
  - intros object name c Io Hn Hc [E|[]]. cbn in E. subst c.
    destruct Hc as [(l & _ & _ & E)|[_ <-]]; [discriminate E|]. destruct Hn as [<-|A].
    + cbn in Io. intuition discriminate.
    + apply P in A. vm_compute in A. repeat (destruct A as [A|A]; [discriminate A|]). exact A.
  - intros name [<-|[]] I. cbn in I. intuition discriminate.
  - intros name [<-|[]] I. cbn in I. intuition discriminate.
  - intros N. apply (N (lit "Engine.Actor")); [now left|]. cbn. auto.
Qed.
