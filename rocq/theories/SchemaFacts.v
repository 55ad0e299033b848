(** * Proofs: facts about reading frames *)

From Coq Require Import ZArith List Bool Lia.
From Verif Require Import Base F32 NetTypes Json JsonNet SpecBasic SpecDecimal SpecJson SpecSchema SpecSchemaNet BasicProofs JsonLogic JsonProofs SchemaLogic SchemaProofs.
Open Scope Z_scope.

Lemma need_same {A C} name (de : json -> option A) e e' (k k' : A -> option C) : all_values name e = all_values name e' -> (forall a, k a = k' a) ->
  need_field name de e k = need_field name de e' k'.
Proof.
  intros V K. unfold need_field. rewrite V. destruct (all_values name e') as [|j [|]]; auto. destruct (de j); auto.
Qed.

Lemma values_other k name v a b : k <> name -> all_values name (a ++ (k, v) :: b) = all_values name (a ++ b).
Proof.
  intros N. rewrite !values_app. cbn [all_values]. apply str_eqb_neq in N. now rewrite N.
Qed.

Lemma frame_unknown k v a b : ~ In k [lit "time"; lit "delta"; lit "new_actors"; lit "deleted_actors"; lit "updated_actors"] ->
  de_frame (JObj (a ++ (k, v) :: b)) = de_frame (JObj (a ++ b)).
Proof.
  intros N. unfold de_frame. cbn [de_fields In] in *.
  repeat (apply need_same; [apply values_other; intuition|intros]). reflexivity.
Qed.

Lemma frame_sequence a b c d e : de_frame (JArr [a; b; c; d; e]) =
  de_frame (JObj [(lit "time", a); (lit "delta", b); (lit "new_actors", c); (lit "deleted_actors", d); (lit "updated_actors", e)]).
Proof. reflexivity. Qed.

Lemma frame_result j f : de_frame j = Some f -> typed_frame f /\
  (de_frame (ser_frame f) = Some f <-> Forall finite (floats_frame f)).
Proof. intros E. pose proof (gives_frame j f E) as T. split; [exact T|now apply rt_frame]. Qed.

Lemma frame_again : exists j f, accepts schema_frame j /\ de_frame j = Some f /\ de_frame (ser_frame f) = None.
Proof.
  exists (JArr [JF32 0x7f800000; JInt 0; JArr []; JArr []; JArr []]), (mkFrame 0x7f800000 0 [] [] []).
  assert (E : de_frame (JArr [JF32 0x7f800000; JInt 0; JArr []; JArr []; JArr []]) = Some (mkFrame 0x7f800000 0 [] [] [])) by (vm_compute; reflexivity).
  split; [apply fits_frame; eauto|]. split; [exact E|vm_compute; reflexivity].
Qed.
