(** * Properties: memory reserved ahead while the frames are decoded (C106) *)

From Coq Require Import ZArith List Bool String.
From Verif Require Import Base Text NetTypes Errors Header Body BitReader ObjectIndex Network Wire SpecReserveNet SpecWrite BitLemmas
  ReserveNet ReserveNetProofs ReserveNetExact EraSharp Samples.
Import ListNotations.
Open Scope Z_scope.

(** ** C106 *)

(** Counting changes nothing else. *)
Theorem C106_same : forall B ho h b, fst (network_reserved B ho h b) = network_parse_frames B ho h b.
Proof. exact network_same. Qed.
Print Assumptions C106_same.

(** Accepted frames: room for as many records as each had, up to the next power of two, and
    for the products of the loadouts, nothing else. *)
Theorem C106_exact : forall B ho h b fs, bitter_ok B -> network_parse_frames B ho h b = Ok fs ->
  frames_room fs (snd (network_reserved B ho h b)).
Proof. exact network_exact. Qed.
Print Assumptions C106_exact.

(** That is one number. *)
Theorem C106_unique : forall fs x y, frames_room fs x -> frames_room fs y -> x = y.
Proof. exact room_unique. Qed.
Print Assumptions C106_unique.

(** Accepted or not: at most one element for each bit of the network data, and 494. *)
Theorem C106_bound : forall B ho h b, bitter_ok B -> snd (network_reserved B ho h b) <= 8 * lenZ (b_network_data b) + 494.
Proof. exact network_bound. Qed.
Print Assumptions C106_bound.

(** An actor and three loadouts, two of them of two lists, of one product and of none: one new
    actor and three updates (1 + 4), twice two lists and one product. *)
Definition n_body (n : nat) (l : bits) : body := mkBody [] [] [] [] [] w_objects [] [] w_caches (packed n l).
Definition n_loadout : bits :=
  enc_bits 8 2 ++ enc_bits 8 1 ++ [false] ++ enc_bits 32 7 ++ enc_bits 8 0.
Definition n_update (stream : Z) (l : bits) : bits := [true] ++ enc_bounded 6 stream ++ l.
Definition n_records : bits :=
  w_start true ++ [true] ++ enc_bounded 1023 0 ++ [true; false] ++ n_update 2 n_loadout ++ n_update 2 n_loadout ++
  n_update 2 (enc_bits 8 0).
Example C106_ex : exists fs,
  network_parse_frames std_bitter key_order (w_header 20 (Some 2) ordinary) (n_body 96 n_records) = Ok fs /\
  map (fun f => (lenZ (f_new_actors f), lenZ (f_updated_actors f), lenZ (f_deleted_actors f))) fs = [(1, 3, 0)] /\
  map u_attribute (flat_map f_updated_actors fs) =
    [ALoadoutOnline [[mkProduct false 7 PVAbsent]; []]; ALoadoutOnline [[mkProduct false 7 PVAbsent]; []]; ALoadoutOnline []] /\
  snd (network_reserved std_bitter key_order (w_header 20 (Some 2) ordinary) (n_body 96 n_records)) = 1 + 4 + 2 * (2 + 1).
Proof. eexists. split; [vm_compute; reflexivity|]. split; [reflexivity|]. split; [reflexivity|]. vm_compute. reflexivity. Qed.

(** The bits alone are not enough: a loadout that announces
    255 lists, the first of 255 products, at the end of 22 bytes. *)
Definition n_cut : body := n_body 22 (w_start true ++ w_attr 2 (enc_bits 8 255 ++ enc_bits 8 255)).
Theorem C106_needed : exists h b e, network_parse_frames std_bitter key_order h b = Err e /\
  8 * lenZ (b_network_data b) + 334 <= snd (network_reserved std_bitter key_order h b).
Proof.
  exists (w_header 20 (Some 2) ordinary), n_cut. eexists. split; [vm_compute; reflexivity|].
  apply Z.leb_le. vm_compute. reflexivity.
Qed.
Print Assumptions C106_needed.
Example C106_ex_bound : lenZ (b_network_data n_cut) = 22 /\
  snd (network_reserved std_bitter key_order (w_header 20 (Some 2) ordinary) n_cut) = 510.
Proof. split; vm_compute; reflexivity. Qed.

(** Two numbers of room, for two and for three records. *)
Example C106_ex_room : room 2 2 /\ room 3 4 /\ ~ room 3 3.
Proof.
  split; [right; exists 1; repeat split; cbv; congruence|]. split; [right; exists 2; repeat split; cbv; congruence|].
  intros [[H _]|(k & Lk & E & _)]; [discriminate|]. destruct (Z.eq_dec k 0) as [->|N]; [discriminate|].
  apply (f_equal Z.odd) in E. rewrite Z.odd_pow in E by (destruct k; [congruence|reflexivity|contradiction Lk; reflexivity]). discriminate.
Qed.
