(** * Specification: the result of parsing, for every input *)

From Coq Require Import ZArith List Bool.
From Verif Require Import Base Errors Header Body NetTypes Parser SpecFile SpecReplay SpecFrames SpecErrors
  SpecFileErrors.

(** [means c n data o]: [o] is the result for the file [data] under the checksum
    policy [c] and the network policy [n] *)
Inductive means (c : crc_check) (n : network_parse) (data : bytes) : outcome parse_error replay -> Prop :=
| means_fault e : file_fails c data e -> means c n data (Err e)
| means_skipped h b : file_is c data h b -> n = NetNever -> means c n data (Ok (replay_of h b None))
| means_frames h b fs : file_is c data h b -> n <> NetNever -> frames_of (sec_value h) (sec_value b) fs ->
    means c n data (Ok (replay_of h b (Some (map to_frame fs))))
| means_ignored h b x : file_is c data h b -> n = NetIgnoreOnError -> network_fails (sec_value h) (sec_value b) x ->
    means c n data (Ok (replay_of h b None))
| means_network h b x : file_is c data h b -> n = NetAlways -> network_fails (sec_value h) (sec_value b) x ->
    means c n data (Err (ENetworkError x)).

(** equal up to the order of the actors in the context of a frame error *)
Definition same_result (o o' : outcome parse_error replay) : Prop :=
  match o, o' with
  | Err (ENetworkError x), Err (ENetworkError y) => same_error x y
  | _, _ => o = o'
  end.
