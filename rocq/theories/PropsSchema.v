(** * Properties: which JSON values are read as frames (C86) *)

From Coq Require Import ZArith List Bool Lia.
From Verif Require Import Base F32 NetTypes Json JsonNet SpecBasic SpecDecimal SpecJson SpecSchema SpecSchemaNet SchemaLogic SchemaProofs SchemaFacts.
Open Scope Z_scope.

(** ** C86 *)

Theorem C86_accepted : forall j, (exists f, de_frame j = Some f) <-> accepts schema_frame j.
Proof. exact fits_frame. Qed.
Print Assumptions C86_accepted.

(** the order of the entries of objects does not matter, at any depth *)
Theorem C86_order : forall j j', reordered j j' -> de_frame j = de_frame j'.
Proof. exact order_frame. Qed.
Print Assumptions C86_order.

(** nor do entries with other names *)
Theorem C86_others : forall k v a b, ~ In k [lit "time"; lit "delta"; lit "new_actors"; lit "deleted_actors"; lit "updated_actors"] ->
  de_frame (JObj (a ++ (k, v) :: b)) = de_frame (JObj (a ++ b)).
Proof. exact frame_unknown. Qed.
Print Assumptions C86_others.

(** the names may be left out *)
Theorem C86_sequence : forall a b c d e, de_frame (JArr [a; b; c; d; e]) =
  de_frame (JObj [(lit "time", a); (lit "delta", b); (lit "new_actors", c); (lit "deleted_actors", d); (lit "updated_actors", e)]).
Proof. exact frame_sequence. Qed.
Print Assumptions C86_sequence.

(** what was read is within the Rust types and, if finite, can be written and read again *)
Theorem C86_result : forall j f, de_frame j = Some f -> typed_frame f /\
  (de_frame (ser_frame f) = Some f <-> Forall finite (floats_frame f)).
Proof. exact frame_result. Qed.
Print Assumptions C86_result.

(** not in general: a number that is too large becomes infinity *)
Theorem C86_again_refuted : exists j f, accepts schema_frame j /\ de_frame j = Some f /\ de_frame (ser_frame f) = None.
Proof. exact frame_again. Qed.
Print Assumptions C86_again_refuted.

(** a body without velocities, a whole number for a float, an unknown entry, an identifier written with a sign, a
    product without names; two orders *)
Definition body (x : json) : json := JObj [(lit "location", JArr [JInt 1; JInt 2; x]); (lit "sleeping", JBool true);
  (lit "rotation", JObj [(lit "w", JInt 1); (lit "z", JInt 0); (lit "y", JInt 0); (lit "x", JInt 0)]); (lit "note", JNull)].
Definition update (a : json) : json := JObj [(lit "actor_id", JInt 5); (lit "stream_id", JInt 6); (lit "object_id", JInt 7); (lit "attribute", a)].
Definition written (x : json) (q : str) : json := JObj [(lit "delta", JInt 0); (lit "time", JInt 3); (lit "new_actors", JArr []);
  (lit "updated_actors", JArr [update (JObj [(lit "RigidBody", body x)]); update (JObj [(lit "QWord", JStr q)]);
     update (JObj [(lit "LoadoutOnline", JArr [JArr [JArr [JBool true; JInt 9; JStr (lit "Absent")]]])])]);
  (lit "deleted_actors", JArr [JInt (-4)])].
Definition turned : json := JObj [(lit "time", JInt 3); (lit "delta", JInt 0); (lit "deleted_actors", JArr [JInt (-4)]); (lit "new_actors", JArr []);
  (lit "updated_actors", JArr [update (JObj [(lit "RigidBody", body (JInt 3))]);
     JObj [(lit "attribute", JObj [(lit "QWord", JStr (lit "+017"))]); (lit "stream_id", JInt 6); (lit "object_id", JInt 7); (lit "actor_id", JInt 5)];
     update (JObj [(lit "LoadoutOnline", JArr [JArr [JArr [JBool true; JInt 9; JStr (lit "Absent")]]])])])].
Definition read_frame : frame := mkFrame 0x40400000 0 [] [-4]
  [mkUpdated 5 6 7 (ARigidBody (mkRigid true (mkV3f 0x3f800000 0x40000000 0x40400000) (mkQuat 0 0 0 0x3f800000) None None));
   mkUpdated 5 6 7 (AQWord 17); mkUpdated 5 6 7 (ALoadoutOnline [[mkProduct true 9 PVAbsent]])].
Example C86_ex : de_frame (written (JInt 3) (lit "+017")) = Some read_frame /\ accepts schema_frame (written (JInt 3) (lit "+017")) /\
  typed_frame read_frame /\ de_frame (ser_frame read_frame) = Some read_frame.
Proof.
  assert (E : de_frame (written (JInt 3) (lit "+017")) = Some read_frame) by (vm_compute; reflexivity).
  split; [exact E|]. split; [apply C86_accepted; eauto|]. split; [exact (proj1 (C86_result _ _ E))|vm_compute; reflexivity].
Qed.
Example C86_ex_order : reordered (written (JInt 3) (lit "+017")) turned /\ written (JInt 3) (lit "+017") <> turned /\
  de_frame turned = Some read_frame.
Proof.
  assert (R : reordered (written (JInt 3) (lit "+017")) turned).
  { unfold written, turned. eapply re_object with (f := [_; _; _; _; _]).
    - eapply Permutation.Permutation_trans; [apply Permutation.perm_swap|]. do 2 constructor.
      apply (Permutation.Permutation_app_comm [_; _] [_]).
    - do 4 (constructor; [split; [reflexivity|apply re_same]|]). constructor; [|constructor]. split; [reflexivity|]. cbn [snd].
      apply re_list. constructor; [apply re_same|]. constructor; [|constructor; [apply re_same|constructor]].
      eapply re_object with (f := [_; _; _; _]); [|repeat constructor].
      apply (Permutation.Permutation_trans (l' := [(lit "attribute", JObj [(lit "QWord", JStr (lit "+017"))]); (lit "actor_id", JInt 5); (lit "stream_id", JInt 6); (lit "object_id", JInt 7)]));
        [apply (Permutation.Permutation_app_comm [_; _; _] [_])|constructor; apply (Permutation.Permutation_app_comm [_] [_; _])]. }
  split; [exact R|]. split; [discriminate|]. rewrite <- (C86_order _ _ R). vm_compute; reflexivity.
Qed.
(** rejected: text for a float, a negative or too large identifier, a repeated name, a missing one, an index beyond 32 bits *)
Example C86_ex_not : ~ accepts schema_frame (written (JStr (lit "3")) (lit "17")) /\ ~ accepts schema_frame (written (JInt 3) (lit "-17")) /\
  ~ accepts schema_frame (written (JInt 3) (lit "18446744073709551616")) /\
  (forall f, written (JInt 3) (lit "17") = JObj f -> ~ accepts schema_frame (JObj ((lit "time", JInt 3) :: f)) /\ ~ accepts schema_frame (JObj (tl f))) /\
  ~ accepts schema_frame (JArr [JInt 0; JInt 0; JArr []; JArr [JInt (2 ^ 31)]; JArr []]).
Proof.
  assert (N : forall j, de_frame j = None -> ~ accepts schema_frame j).
  { intros j E H. apply C86_accepted in H as [f Ef]. congruence. }
  split; [apply N; vm_compute; reflexivity|]. split; [apply N; vm_compute; reflexivity|]. split; [apply N; vm_compute; reflexivity|].
  split; [|apply N; vm_compute; reflexivity]. intros f [= <-]. split; apply N; vm_compute; reflexivity.
Qed.
