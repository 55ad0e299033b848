(** * Specification: files with fewer frames asked for, or more network data *)

From Coq Require Import ZArith List Bool.
From Verif Require Import Base NetTypes Header Body SpecFrames.
Open Scope Z_scope.

(** the headers agree in everything that frames depend on except their number *)
Definition same_settings (h h' : header) : Prop :=
  h_major h = h_major h' /\ h_minor h = h_minor h' /\ h_net h = h_net h' /\
  forall name, In name ["MaxChannels"; "MatchType"; "BuildVersion"]%string ->
    forall r, entry h name r <-> entry h' name r.

Definition frame_count (h : header) (n : Z) : Prop :=
  exists r, entry h "NumFrames" r /\ int_of r = Some n.

(** the bodies agree in everything that frames depend on, but the network data of
    the second go on *)
Definition continued (b b' : body) (extra : list byte) : Prop :=
  b_objects b' = b_objects b /\ b_net_cache b' = b_net_cache b /\
  b_network_data b' = b_network_data b ++ extra.

(** a moving body without a velocity is one that was cut off (C19) *)
Definition not_cut_off (a : attribute) : Prop :=
  match a with
  | ARigidBody r => rb_sleeping r = false -> rb_linear_velocity r <> None /\ rb_angular_velocity r <> None
  | _ => True
  end.
Definition frame_whole (f : frame) : Prop := forall u, In u (f_updated_actors f) -> not_cut_off (u_attribute u).
