(** * Specification: what it means for a decoder to implement a wire format *)

From Coq Require Import ZArith List.
From Verif Require Import Base BitReader Wire.

(** Any state the bit reader can be in: at most 63 bits buffered, a scratch
    buffer of 1024 bytes with arbitrary contents, any unread bytes. *)
Definition reader_ok (r : rs) : Prop := (length (lk r) <= 63)%nat /\ length (buf r) = 1024%nat.

(** On the bits ahead of the reader, [m] succeeds with [v] exactly when they
    start with an encoding of [v], and then leaves exactly what follows the
    encoding; otherwise it fails.  It never panics. *)
Definition implements {E A} (m : rd E A) (P : wire A) : Prop :=
  forall r, reader_ok r ->
    (forall v after, P (flat r) v after <->
       exists r', m r = (Ok v, r') /\ flat r' = after /\ reader_ok r') /\
    ((exists v r', m r = (Ok v, r')) \/ (exists e r', m r = (Err e, r'))).
