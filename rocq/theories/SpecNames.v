(** * Specification: which object names are interchangeable *)

From Coq Require Import ZArith List.
From Verif Require Import Base Errors NetTypes Core Header Body BitReader ObjectIndex Network BitLemmas SpecBasic SpecNet.
Import ListNotations.
Open Scope Z_scope.

(** neither has a parent class, and as attributes they are of the same kind (or both
    of none) *)
Definition interchangeable (s s' : str) : Prop :=
  (forall p, ~ parent s p) /\ (forall p, ~ parent s' p) /\ (forall t, kind_of s t <-> kind_of s' t).

Definition renamed (objects objects' : list str) : Prop :=
  Forall2 (fun s s' => s = s' \/ interchangeable s s') objects objects'.

Definition same_but_names (b b' : body) : Prop :=
  renamed (b_objects b) (b_objects b') /\ b_net_cache b = b_net_cache b' /\ b_network_data b = b_network_data b'.

(** the objects, which the error of a frame contains, set aside *)
Definition name_error (objects : list str) (e : network_error) : network_error :=
  match e with
  | NFrameError x c =>
      NFrameError x (mkContext objects (fc_object_attributes c) (fc_frames c) (fc_actors c) (fc_new_actors c) (fc_updated_actors c))
  | e => e
  end.

Definition name_outcome {A} (objects : list str) (o : outcome network_error A) : outcome network_error A :=
  match o with Err e => Err (name_error objects e) | o => o end.

(** some network data have different results when [s'] is written for [s] in one place of
    the objects *)
Definition told_by_data (s s' : str) : Prop :=
  exists h b b' before after,
    b_objects b = before ++ s :: after /\ b_objects b' = before ++ s' :: after /\
    b_net_cache b' = b_net_cache b /\ b_network_data b' = b_network_data b /\
    forall B ho, bitter_ok B -> hash_order_ok ho ->
      network_parse_frames B ho h b' <> name_outcome (b_objects b') (network_parse_frames B ho h b).
