(** * Properties: net caches with the same meaning *)

From Coq Require Import ZArith List Bool String Lia.
From Verif Require Import Base Text NetTypes NetModels Errors Data Core Header Body BitReader ObjectIndex Network Parser
  BitLemmas Wire SpecBasic SpecNet SpecFile SpecReplay SpecReader SpecWrite SpecFrames SpecRange SpecEra SpecMeaning
  HierarchyProofs TableProofs CacheProofs WriteProofs EraSharp MeaningProofs MeaningSharp Samples.
Import ListNotations.
Open Scope Z_scope.

(** ** C105 *)

Theorem C105_network : forall B ho h b b', hash_order_ok ho -> lenZ (b_objects b) <= 2 ^ 31 ->
  net_cache_ok (b_net_cache b) -> net_cache_ok (b_net_cache b') ->
  b_objects b' = b_objects b -> b_network_data b' = b_network_data b ->
  props_in_range (b_objects b) (b_net_cache b) -> props_in_range (b_objects b) (b_net_cache b') ->
  same_meaning (b_objects b) (b_net_cache b) (b_net_cache b') ->
  network_parse_frames B ho h b = network_parse_frames B ho h b'.
Proof. exact meaning. Qed.
Print Assumptions C105_network.

(** in files *)
Theorem C105_files : forall B ho data data' h h' b b' rest rest' n, hash_order_ok ho -> lenZ data < 2 ^ 31 -> lenZ data' < 2 ^ 31 ->
  f_file data (h, b) rest -> f_file data' (h', b') rest' -> agree_all (sec_value h) (sec_value h') ->
  b_objects (sec_value b') = b_objects (sec_value b) -> b_network_data (sec_value b') = b_network_data (sec_value b) ->
  props_in_range (b_objects (sec_value b)) (b_net_cache (sec_value b)) ->
  props_in_range (b_objects (sec_value b)) (b_net_cache (sec_value b')) ->
  same_meaning (b_objects (sec_value b)) (b_net_cache (sec_value b)) (b_net_cache (sec_value b')) ->
  match parse_with B ho CrcNever n data, parse_with B ho CrcNever n data' with
  | Ok r, Ok r' => r_network_frames r = r_network_frames r'
  | Err e, Err e' => e = e'
  | Panic p, Panic p' => p = p'
  | _, _ => False
  end.
Proof. exact meaning_files. Qed.
Print Assumptions C105_files.

(** parent and cache ids do not matter, nor how the properties of a class are split over
    entries, nor the order of different classes *)
Theorem C105_listed : forall objects caches caches', (forall id, listed caches id = listed caches' id) ->
  same_meaning objects caches caches'.
Proof. exact listed_meaning. Qed.
Print Assumptions C105_listed.

(** a stream id that stands for something else, or for nothing, is told by some network data *)
Theorem C105_exact : forall b b' id name s p pname tag, body_ok b -> body_ok b' -> b_objects b' = b_objects b ->
  lenZ (write_body b) < 2 ^ 30 -> lenZ (write_body b') < 2 ^ 30 ->
  props_in_range (b_objects b) (b_net_cache b) ->
  spawnable (b_objects b) id name -> 0 <= s < 2 ^ 31 - 1 ->
  resolves (b_objects b) (b_net_cache b) name s p -> ~ resolves (b_objects b) (b_net_cache b') name s p ->
  object_at (b_objects b) (cp_object_ind p) pname -> kind_of pname tag -> tag <> TNotImplemented ->
  exists h l r, forall B ho, bitter_ok B -> hash_order_ok ho ->
    parse_with B ho CrcAlways NetAlways (write_file h (with_network l b)) = Ok r /\
    forall r', parse_with B ho CrcAlways NetAlways (write_file h (with_network l b')) = Ok r' ->
      r_network_frames r' <> r_network_frames r.
Proof. exact meaning_told. Qed.
Print Assumptions C105_exact.

(** The mode of the game and the id of its server are listed for the stream id 0 of players, the last counts.
    Splitting the class over two entries with other ids changes nothing, changing the order does. *)
Definition m_caches : list class_net_cache := [mkNetCache 0 0 0 [mkCacheProp 3 0; mkCacheProp 4 1; mkCacheProp 8 0]].
Definition m_split : list class_net_cache :=
  [mkNetCache 7 5 6 []; mkNetCache 0 9 1 [mkCacheProp 3 0]; mkNetCache 0 2 7 [mkCacheProp 4 1; mkCacheProp 8 0]].
Definition m_other : list class_net_cache := [mkNetCache 0 0 0 [mkCacheProp 8 0; mkCacheProp 4 1; mkCacheProp 3 0]].
Definition m_body (caches : list class_net_cache) : body :=
  mkBody [] [] [] [] [] w_objects [] [] caches
    (packed 96 (w_start true ++ [true] ++ enc_bounded 1023 0 ++ [true; false; true] ++ enc_bounded 2 0)).

Example C105_ex : exists fs fs',
  m_caches <> m_split /\ same_meaning w_objects m_caches m_split /\
  network_parse_frames std_bitter key_order (w_header 20 (Some 2) ordinary) (m_body m_caches) = Ok fs /\
  network_parse_frames std_bitter key_order (w_header 20 (Some 2) ordinary) (m_body m_split) = Ok fs /\
  network_parse_frames std_bitter key_order (w_header 20 (Some 2) ordinary) (m_body m_other) = Ok fs' /\
  map u_object_id (flat_map f_updated_actors fs) = [8] /\ map u_object_id (flat_map f_updated_actors fs') = [3].
Proof.
  eexists _, _. split; [discriminate|]. split.
  { apply C105_listed. intros id. unfold listed, m_caches, m_split. cbn [filter nc_object_ind].
    destruct (7 =? id), (0 =? id); reflexivity. }
  split; [vm_compute; reflexivity|]. split; [vm_compute; reflexivity|]. split; [vm_compute; reflexivity|]. split; reflexivity.
Qed.

Lemma m_ids : class_ids w_objects (lit "TAGame.PRI_TA") [0].
Proof. apply hierarchy_iff; [vm_compute; discriminate|]. vm_compute. reflexivity. Qed.
Lemma m_body_ok caches : caches = m_caches \/ caches = m_split \/ caches = m_other -> body_ok (m_body caches).
Proof.
  intros H.
  assert (N : forall A (P : A -> Prop), list_ok P []) by (intros; split; [cbv; discriminate|constructor]).
  assert (I : forall x, (- 2 ^ 31 <=? x) && (x <? 2 ^ 31) = true -> i32_ok x) by (intros x; unfold i32_ok; lia).
  unfold body_ok, m_body. cbn [b_levels b_keyframes b_debug_info b_tick_marks b_packages b_objects b_names b_class_indices b_net_cache].
  do 5 (split; [apply N|]). split; [split; [cbv; discriminate|repeat constructor; apply plain_text; reflexivity]|].
  do 2 (split; [apply N|]).
  destruct H as [-> | [-> | ->]]; (split; [cbv; discriminate|]);
    repeat (constructor; cbn [nc_object_ind nc_parent_id nc_cache_id nc_properties cp_object_ind cp_stream_id]; try (apply I; reflexivity));
    cbv; discriminate.
Qed.

Example C105_ex_exact : exists h l r, forall B ho, bitter_ok B -> hash_order_ok ho ->
    parse_with B ho CrcAlways NetAlways (write_file h (with_network l (m_body m_caches))) = Ok r /\
    forall r', parse_with B ho CrcAlways NetAlways (write_file h (with_network l (m_body m_other))) = Ok r' ->
      r_network_frames r' <> r_network_frames r.
Proof.
  assert (L : lenZ w_objects <= 2 ^ 31) by (vm_compute; discriminate).
  apply (C105_exact _ _ 0 (lit "TAGame.PRI_TA") 0 (mkCacheProp 8 0) (lit "ProjectX.GRI_X:GameServerID") TQWordString).
  - apply m_body_ok. now left.
  - apply m_body_ok. right. now right.
  - reflexivity.
  - apply Z.ltb_lt. vm_compute. reflexivity.
  - apply Z.ltb_lt. vm_compute. reflexivity.
  - intros p [<-|[<-|[<-|[]]]]; eexists; (split; [vm_compute; discriminate|vm_compute; reflexivity]).
  - split; [|eexists; apply parent_spec; vm_compute; reflexivity]. exists [], (tl w_objects). split; [reflexivity|]. split; [intros []|reflexivity].
  - lia.
  - apply (resolves_ids w_objects L m_caches _ _ _ _ m_ids). exists [], 0, []. split; [reflexivity|]. split; [|intros y z []].
    exists [mkCacheProp 3 0; mkCacheProp 4 1], []. split; [reflexivity|]. split; [reflexivity|intros q []].
  - intros H. apply (resolves_ids w_objects L m_other _ _ _ _ m_ids) in H. destruct H as (b & x & a & E & (b1 & a1 & E1 & _ & N) & _).
    destruct b as [|y [|? ?]]; [|discriminate E|discriminate E]. injection E as <- <-. change (listed m_other 0) with [mkCacheProp 8 0; mkCacheProp 4 1; mkCacheProp 3 0] in E1.
    destruct b1 as [|? [|? [|? [|? ?]]]]; try discriminate E1. injection E1 as <-. apply (N (mkCacheProp 3 0)); [|reflexivity]. right. now left.
  - split; [vm_compute; discriminate|vm_compute; reflexivity].
  - apply kind_of_spec. vm_compute. reflexivity.
  - discriminate.
Qed.

(** the files with the first two *)
Example C105_ex_files : exists h b b' r fs, agree_all h h /\ b_net_cache b = m_caches /\ b_net_cache b' = m_split /\
  write_file h b <> write_file h b' /\
  f_file (write_file h b) (section_of (write_header h) h, section_of (write_body b) b) [] /\
  f_file (write_file h b') (section_of (write_header h) h, section_of (write_body b') b') [] /\
  lenZ (write_file h b) < 2 ^ 31 /\ lenZ (write_file h b') < 2 ^ 31 /\
  props_in_range (b_objects b) (b_net_cache b) /\ props_in_range (b_objects b) (b_net_cache b') /\
  same_meaning (b_objects b) (b_net_cache b) (b_net_cache b') /\
  parse_with std_bitter key_order CrcNever NetAlways (write_file h b) = Ok r /\
  r_network_frames r = Some fs /\ length (flat_map f_updated_actors fs) = 1%nat.
Proof.
  destruct C105_ex as (fs & _ & _ & S & E & _ & _ & U & _).
  set (h := w_header 20 (Some 2) ordinary) in *.
  assert (Hh : header_ok h) by (apply plain_header_ok; reflexivity).
  assert (B1 : body_ok (m_body m_caches)) by (apply m_body_ok; now left).
  assert (B2 : body_ok (m_body m_split)) by (apply m_body_ok; right; now left).
  assert (L1 : lenZ (write_file h (m_body m_caches)) < 2 ^ 31).
  { unfold lenZ, write_file. rewrite app_length, !write_section_length. apply Z.ltb_lt. vm_compute. reflexivity. }
  assert (L2 : lenZ (write_file h (m_body m_split)) < 2 ^ 31).
  { unfold lenZ, write_file. rewrite app_length, !write_section_length. apply Z.ltb_lt. vm_compute. reflexivity. }
  exists h, (m_body m_caches), (m_body m_split). eexists. exists fs. split; [intros [] _; cbn; tauto|]. split; [reflexivity|]. split; [reflexivity|].
  split.
  { intros Q. apply (f_equal (@length byte)) in Q. unfold write_file in Q. rewrite !app_length, !write_section_length in Q. vm_compute in Q. discriminate Q. }
  split; [now apply read_file|]. split; [now apply read_file|]. split; [exact L1|]. split; [exact L2|].
  split; [intros p [<-|[<-|[<-|[]]]]; eexists; (split; [vm_compute; discriminate|vm_compute; reflexivity])|].
  split; [intros p [<-|[<-|[<-|[]]]]; eexists; (split; [vm_compute; discriminate|vm_compute; reflexivity])|].
  split; [exact S|]. split; [rewrite parse_written, E by assumption; reflexivity|]. split; [reflexivity|].
  rewrite <- (map_length u_object_id), U. reflexivity.
Qed.
