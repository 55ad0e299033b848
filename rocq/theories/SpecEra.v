(** * Specification: on what of the header the network data depend *)

From Coq Require Import ZArith List String.
From Verif Require Import Base Text Errors NetTypes Core Header Body BitReader ObjectIndex Parser SpecBasic SpecFile SpecReplay SpecFrames.
Open Scope Z_scope.

Definition net_of (h : header) : Z := match h_net h with Some n => n | None => 0 end.

(** the version of the file has come to a.b.c *)
Definition reached (h : header) (a b c : Z) : Prop :=
  a < h_major h \/ a = h_major h /\ (b < h_minor h \/ b = h_minor h /\ c <= net_of h).

(** ** Four of the properties *)

Definition says_int (h : header) (name : string) (x : Z) : Prop :=
  first_entry (lit name) (h_properties h) (HInt x).
Definition says_text (h : header) (name : string) (s : str) : Prop :=
  first_entry (lit name) (h_properties h) (HName s) \/ first_entry (lit name) (h_properties h) (HStr s).

(** the number of channels *)
Definition channels (h : header) (x : Z) : Prop :=
  says_int h "MaxChannels" x \/ (forall y, ~ says_int h "MaxChannels" y) /\ x = 1023.
Definition over_lan (h : header) : Prop := says_text h "MatchType" (lit "Lan").
Definition new_build (h : header) : Prop :=
  exists s, says_text h "BuildVersion" s /\ lex_le (lit "221120.42953.406184") s.

(** ** Everything that counts *)

Inductive aspect : Set :=
| Version (a b c : Z)  (** has this version been reached? *)
| Net (n : Z)          (** has this net version been reached? *)
| Frames               (** the number of frames *)
| Channels
| Lan
| Build.

Definition aspects : list aspect :=
  [Version 868 12 0; Version 868 14 0; Version 868 18 0; Version 868 20 0; Version 868 23 8;
   Net 1; Net 7; Net 10; Frames; Channels; Lan; Build].

Definition agree (a : aspect) (h h' : header) : Prop :=
  match a with
  | Version x y z => reached h x y z <-> reached h' x y z
  | Net n => n <= net_of h <-> n <= net_of h'
  | Frames => forall x, says_int h "NumFrames" x <-> says_int h' "NumFrames" x
  | Channels => forall x, channels h x <-> channels h' x
  | Lan => reached h 868 14 0 -> ~ reached h 868 20 0 -> (over_lan h <-> over_lan h')
  | Build => new_build h <-> new_build h'
  end.

Definition agree_all (h h' : header) : Prop := forall a, In a aspects -> agree a h h'.
Definition agree_but (a : aspect) (h h' : header) : Prop := forall a', In a' aspects -> a' <> a -> agree a' h h'.

(** what counts of the body *)
Definition same_network (b b' : body) : Prop :=
  b_objects b = b_objects b' /\ b_net_cache b = b_net_cache b' /\ b_network_data b = b_network_data b'.

(** two files with the same body can both be read and have different frames *)
Definition told_apart (h h' : header) : Prop :=
  exists data data' sh sh' sb r r',
    f_file data (sh, sb) [] /\ f_file data' (sh', sb) [] /\ sec_value sh = h /\ sec_value sh' = h' /\
    (forall B ho, bitter_ok B -> hash_order_ok ho ->
       parse_with B ho CrcAlways NetAlways data = Ok r /\ parse_with B ho CrcAlways NetAlways data' = Ok r') /\
    r_network_frames r <> r_network_frames r'.
