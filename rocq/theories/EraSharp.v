(** * Proofs: each aspect of the header counts *)

From Coq Require Import ZArith List Bool String Lia Permutation.
From Verif Require Import Base Text F32 NetTypes Errors Core Header Body BitReader ObjectIndex Data Network Parser
  BitLemmas Wire SpecText SpecBasic SpecFrames SpecFile SpecReplay SpecWrite RunProofs WriteProofs ParseProofs SpecEra EraProofs Samples.
Import ListNotations.
Open Scope Z_scope.

(** ** Small files *)

Fixpoint packed (n : nat) (l : bits) : list byte :=
  match n with
  | O => []
  | S m => byte_of_bits (firstn 8 (l ++ repeat false 8)) :: packed m (skipn 8 l)
  end.

(** the object that is spawned, those of products, and the attributes *)
Definition w_objects : list str :=
  map lit ["TAGame.PRI_TA"; "TAGame.ProductAttribute_UserColor_TA"; "TAGame.ProductAttribute_Painted_TA";
           "TAGame.GameEvent_TA:GameMode"; "TAGame.PRI_TA:CameraSettings"; "TAGame.PRI_TA:ClientLoadoutOnline";
           "Engine.PlayerReplicationInfo:UniqueId"; "TAGame.Ball_TA:AirResistance"; "ProjectX.GRI_X:GameServerID"]%string.
Definition w_caches : list class_net_cache :=
  [mkNetCache 0 0 0 [mkCacheProp 3 0; mkCacheProp 4 1; mkCacheProp 5 2; mkCacheProp 6 3; mkCacheProp 7 4; mkCacheProp 8 5]].

(** time and delta, and the new actor 0 with or without a name *)
Definition w_start (name : bool) : bits :=
  enc_bits 32 1065353216 ++ enc_bits 32 1065353216 ++ [true] ++ enc_bounded 1023 0 ++ [true; true] ++
  (if name then enc_bits 32 0 else []) ++ [false] ++ enc_bits 32 0.
(** one attribute of it; what follows are zeros *)
Definition w_attr (stream : Z) (l : bits) : bits :=
  [true] ++ enc_bounded 1023 0 ++ [true; false; true] ++ enc_bounded 6 stream ++ l.

Definition w_body (l : bits) : body :=
  mkBody [] [] [] [] [] w_objects [] [] w_caches (packed 96 l).

Definition w_props (frames channels : Z) (kind build : string) : props :=
  [(lit "NumFrames", HInt frames); (lit "MaxChannels", HInt channels);
   (lit "MatchType", HName (lit kind)); (lit "BuildVersion", HStr (lit build))].
Definition w_header (minor : Z) (net : option Z) (ps : props) : header :=
  mkHeader 868 minor net (lit "TAGame.Replay_Soccar_TA") ps.

(** ** Checking *)

Definition plain (s : str) : bool := forallb (fun b => byteZ b <? 128) s && (length s <=? 999)%nat.

Lemma plain_utf8 s : forallb (fun b => byteZ b <? 128) s = true -> utf8 (map byteZ s) s.
Proof.
  induction s as [|b s IH]; cbn [forallb map]; intros H; [constructor|]. apply andb_prop in H as [Hb Hs].
  change (b :: s) with ([b] ++ s). constructor; [|apply IH, Hs]. apply Z.ltb_lt in Hb.
  constructor; [reflexivity|]. unfold byteZ in *. lia.
Qed.
Lemma plain_units s : forallb (fun b => byteZ b <? 128) s = true ->
  length (flat_map utf16_units_of (map byteZ s)) = length s.
Proof.
  induction s as [|b s IH]; cbn [forallb map flat_map]; intros H; [reflexivity|]. apply andb_prop in H as [Hb Hs].
  rewrite app_length, (IH Hs). cbn [length]. enough (E : length (utf16_units_of (byteZ b)) = 1%nat) by now rewrite E.
  unfold utf16_units_of. apply Z.ltb_lt in Hb. replace (byteZ b <? 65536) with true; [reflexivity|]. symmetry. apply Z.ltb_lt. lia.
Qed.
Lemma plain_text s : plain s = true -> text_ok s.
Proof.
  intros H. apply andb_prop in H as [H L]. exists (map byteZ s). split; [apply plain_utf8, H|].
  unfold count. rewrite (plain_units _ H). apply Nat.leb_le in L. lia.
Qed.
Lemma plain_valid s : plain s = true -> valid_utf8 s.
Proof. intros H. apply andb_prop in H as [H _]. exists (map byteZ s). apply plain_utf8, H. Qed.

(** what the properties of the headers here are *)
Definition plain_prop (kv : str * header_prop) : bool :=
  plain (fst kv) && negb (str_eqb (fst kv) (lit "None")) &&
  match snd kv with
  | HInt x => (- 2 ^ 31 <=? x) && (x <? 2 ^ 31)
  | HName s | HStr s => plain s
  | _ => false
  end.
Definition plain_header (h : header) : bool :=
  (h_major h =? 868) && (0 <=? h_minor h) && (h_minor h <? 1000) &&
  match h_net h with Some n => (17 <? h_minor h) && (0 <=? n) && (n <? 1000) | None => h_minor h <=? 17 end &&
  plain (h_game_type h) && forallb plain_prop (h_properties h).

Lemma plain_header_ok h : plain_header h = true -> header_ok h.
Proof.
  unfold plain_header. rewrite !andb_true_iff. intros (((((M & L) & U) & V) & T) & P).
  apply Z.eqb_eq in M. apply Z.leb_le in L. apply Z.ltb_lt in U.
  unfold header_ok, i32_ok. rewrite M. split; [lia|]. split; [lia|]. split; [|split; [apply plain_text, T|]].
  - destruct (h_net h); [|apply Z.leb_le in V; lia]. rewrite !andb_true_iff in V. lia.
  - unfold props_ok. rewrite forallb_forall in P. apply Forall_forall. intros [k v] Hk. apply P in Hk. unfold plain_prop in Hk.
    cbn [fst snd] in *. rewrite !andb_true_iff in Hk. destruct Hk as ((K & N) & W). split.
    + split; [apply plain_valid, K|]. intros ->. discriminate N.
    + destruct v; try discriminate W; constructor; try now apply plain_text. unfold i32_ok. lia.
Qed.

Lemma w_body_ok l : body_ok (w_body l).
Proof.
  assert (N : forall A (P : A -> Prop), list_ok P []) by (intros; split; [cbv; discriminate|constructor]).
  assert (I : forall x, (- 2 ^ 31 <=? x) && (x <? 2 ^ 31) = true -> i32_ok x) by (intros x; unfold i32_ok; lia).
  unfold body_ok, w_body. cbn [b_levels b_keyframes b_debug_info b_tick_marks b_packages b_objects b_names b_class_indices b_net_cache].
  do 5 (split; [apply N|]). split; [split; [cbv; discriminate|repeat constructor; apply plain_text; reflexivity]|].
  do 2 (split; [apply N|]). split; [cbv; discriminate|].
  repeat (constructor; cbn [nc_object_ind nc_parent_id nc_cache_id nc_properties cp_object_ind cp_stream_id]; try (apply I; reflexivity)).
  cbv. discriminate.
Qed.

Lemma packed_length n : forall l, length (packed n l) = n.
Proof. induction n as [|n IH]; intros l; cbn; [reflexivity|now rewrite IH]. Qed.

Definition small (h : header) : bool := Z.of_nat (length (write_header h)) <? 1000.
Lemma w_length h l : small h = true -> lenZ (write_file h (w_body l)) < 2 ^ 31.
Proof.
  intros H. unfold small in H. apply Z.ltb_lt in H. unfold lenZ, write_file. rewrite app_length, !write_section_length.
  enough (E : (length (write_body (w_body l)) < 1000)%nat) by lia.
  unfold write_body. repeat rewrite app_length. cbn [w_body b_network_data b_levels b_keyframes b_debug_info b_tick_marks b_packages b_objects b_names b_class_indices b_net_cache].
  rewrite ?packed_length. apply Nat.ltb_lt. reflexivity.
Qed.

Lemma w_parse h l fs : plain_header h = true -> small h = true ->
  network_parse_frames std_bitter key_order h (w_body l) = Ok fs ->
  parse_with std_bitter key_order CrcAlways NetAlways (write_file h (w_body l)) =
    Ok (replay_of (section_of (write_header h) h) (section_of (write_body (w_body l)) (w_body l)) (Some fs)).
Proof.
  intros P S E. apply plain_header_ok in P. apply (w_length _ l) in S.
  rewrite parse_written, E by (assumption || apply w_body_ok). reflexivity.
Qed.

Lemma told h h' l fs fs' : plain_header h = true -> plain_header h' = true -> small h = true -> small h' = true ->
  network_parse_frames std_bitter key_order h (w_body l) = Ok fs ->
  network_parse_frames std_bitter key_order h' (w_body l) = Ok fs' -> fs <> fs' -> told_apart h h'.
Proof.
  intros P P' S S' E E' N. apply plain_header_ok in P, P'. apply (w_length _ l) in S, S'. pose proof (w_body_ok l) as B0.
  set (b := w_body l) in *.
  exists (write_file h b), (write_file h' b), (section_of (write_header h) h),
    (section_of (write_header h') h'), (section_of (write_body b) b),
    (replay_of (section_of (write_header h) h) (section_of (write_body b) b) (Some fs)),
    (replay_of (section_of (write_header h') h') (section_of (write_body b) b) (Some fs')).
  split; [now apply read_file|]. split; [now apply read_file|]. split; [reflexivity|]. split; [reflexivity|].
  split; [|cbn; congruence]. intros B ho HB Hho.
  rewrite !(parse_same B std_bitter HB std_bitter_ok ho key_order Hho (fun V m => Permutation_refl m)) by assumption.
  rewrite !parse_written, E, E' by assumption. split; reflexivity.
Qed.

Ltac told_by l := eapply (told _ _ l); [vm_compute; reflexivity..|discriminate].

(** all but one of the aspects *)
Ltac agree_one :=
  lazymatch goal with
  | |- agree (Version _ _ _) _ _ => apply agree_version; vm_compute; reflexivity
  | |- agree (Net _) _ _ => cbn; lia
  | |- agree Frames _ _ => apply agree_frames; vm_compute; reflexivity
  | |- agree Channels _ _ => apply agree_channels; vm_compute; reflexivity
  | |- agree Build _ _ => apply agree_build; vm_compute; reflexivity
  | |- agree Lan _ _ => cbn [agree]; rewrite !lan_find; vm_compute; tauto
  end.
Ltac agree_others :=
  unfold agree_but; intros x Hx Nx; cbn in Hx; repeat (destruct Hx as [<-|Hx]; [try (now exfalso; apply Nx); agree_one|]); destruct Hx.

Definition ordinary : props := w_props 1 1023 "Online" "1".

Lemma sharp_12 : exists h h', agree_but (Version 868 12 0) h h' /\ told_apart h h'.
Proof.
  exists (w_header 11 None ordinary), (w_header 12 None ordinary). split; [agree_others|].
  told_by (w_start false ++ w_attr 0 []).
Qed.

Lemma sharp_14 : exists h h', agree_but (Version 868 14 0) h h' /\ told_apart h h'.
Proof.
  exists (w_header 13 None ordinary), (w_header 14 None ordinary). split; [agree_others|].
  told_by (w_start false).
Qed.

Lemma sharp_18 : exists h h', agree_but (Version 868 18 0) h h' /\ told_apart h h'.
Proof.
  exists (w_header 17 None ordinary), (w_header 18 (Some 0) ordinary). split; [agree_others|].
  told_by (w_start true ++ w_attr 2 (enc_bits 8 1 ++ enc_bits 8 1 ++ [false] ++ enc_bits 32 2)).
Qed.

Lemma sharp_20 : exists h h', agree_but (Version 868 20 0) h h' /\ told_apart h h'.
Proof.
  exists (w_header 19 (Some 0) ordinary), (w_header 20 (Some 0) ordinary). split; [agree_others|].
  told_by (w_start true ++ w_attr 1 []).
Qed.

Lemma sharp_23 : exists h h', agree_but (Version 868 23 8) h h' /\ told_apart h h'.
Proof.
  exists (w_header 23 (Some 7) ordinary), (w_header 23 (Some 8) ordinary). split; [agree_others|].
  told_by (w_start true ++ w_attr 2 (enc_bits 8 1 ++ enc_bits 8 1 ++ [false] ++ enc_bits 32 1)).
Qed.

Lemma sharp_net_1 : exists h h', agree_but (Net 1) h h' /\ told_apart h h'.
Proof.
  exists (w_header 20 (Some 0) ordinary), (w_header 20 (Some 1) ordinary). split; [agree_others|].
  told_by (w_start true ++ w_attr 3 (enc_bits 8 2)).
Qed.

Lemma sharp_net_7 : exists h h', agree_but (Net 7) h h' /\ told_apart h h'.
Proof.
  exists (w_header 20 (Some 6) ordinary), (w_header 20 (Some 7) ordinary). split; [agree_others|].
  told_by (w_start true ++ w_attr 4 (enc_bits 4 4 ++ [true])).
Qed.

Lemma sharp_net_10 : exists h h', agree_but (Net 10) h h' /\ told_apart h h'.
Proof.
  exists (w_header 20 (Some 9) ordinary), (w_header 20 (Some 10) ordinary). split; [agree_others|].
  told_by (w_start true ++ w_attr 3 (enc_bits 8 7)).
Qed.

Lemma sharp_frames : exists h h', agree_but (Frames) h h' /\ told_apart h h'.
Proof.
  exists (w_header 20 (Some 10) ordinary), (w_header 20 (Some 10) (w_props 0 1023 "Online" "1")). split; [agree_others|].
  told_by (w_start true).
Qed.

Lemma sharp_channels : exists h h', agree_but (Channels) h h' /\ told_apart h h'.
Proof.
  exists (w_header 20 (Some 10) ordinary), (w_header 20 (Some 10) (w_props 1 5 "Online" "1")). split; [agree_others|].
  told_by (w_start true).
Qed.

Lemma sharp_lan : exists h h', agree_but (Lan) h h' /\ told_apart h h'.
Proof.
  exists (w_header 16 None ordinary), (w_header 16 None (w_props 1 1023 "Lan" "1")). split; [agree_others|].
  told_by (w_start true).
Qed.

Lemma sharp_build : exists h h', agree_but (Build) h h' /\ told_apart h h'.
Proof.
  exists (w_header 20 (Some 10) (w_props 1 1023 "Online" "221120.42953.406183")), (w_header 20 (Some 10) (w_props 1 1023 "Online" "221120.42953.406184")). split; [agree_others|].
  told_by (w_start true ++ w_attr 5 []).
Qed.

Theorem all_count a : In a aspects -> exists h h', agree_but a h h' /\ told_apart h h'.
Proof.
  intros Ha. cbn in Ha.
  destruct Ha as [<-|[<-|[<-|[<-|[<-|[<-|[<-|[<-|[<-|[<-|[<-|[<-|[]]]]]]]]]]]]].
  - exact sharp_12.
  - exact sharp_14.
  - exact sharp_18.
  - exact sharp_20.
  - exact sharp_23.
  - exact sharp_net_1.
  - exact sharp_net_7.
  - exact sharp_net_10.
  - exact sharp_frames.
  - exact sharp_channels.
  - exact sharp_lan.
  - exact sharp_build.
Qed.
