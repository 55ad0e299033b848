(** * Properties: which object names are interchangeable *)

From Coq Require Import ZArith List Bool String Lia.
From Verif Require Import Base Text NetTypes NetModels Errors Data Core Header Body BitReader ObjectIndex Network Parser
  BitLemmas Wire SpecBasic SpecNet SpecFile SpecReplay SpecWrite BasicProofs HierarchyProofs TableProofs WriteProofs SpecEra EraSharp SpecNames NamesProofs NamesSharp Samples.
Import ListNotations.
Open Scope Z_scope.

(** ** C104 *)

Theorem C104_network : forall B ho h b b', same_but_names b b' ->
  network_parse_frames B ho h b' = name_outcome (b_objects b') (network_parse_frames B ho h b).
Proof. exact named. Qed.
Print Assumptions C104_network.

(** in files *)
Theorem C104_files : forall B ho data data' h h' b b' rest rest' n, lenZ data < 2 ^ 31 -> lenZ data' < 2 ^ 31 ->
  f_file data (h, b) rest -> f_file data' (h', b') rest' ->
  agree_all (sec_value h) (sec_value h') -> same_but_names (sec_value b) (sec_value b') ->
  match parse_with B ho CrcNever n data, parse_with B ho CrcNever n data' with
  | Ok r, Ok r' => r_network_frames r = r_network_frames r'
  | Err (ENetworkError e), Err (ENetworkError e') => e' = name_error (b_objects (sec_value b')) e
  | Panic p, Panic p' => p = p'
  | _, _ => False
  end.
Proof. exact named_files. Qed.
Print Assumptions C104_files.

(** no others are *)
Theorem C104_exact : forall s s', s <> s' -> ~ interchangeable s s' -> told_by_data s s'.
Proof. exact all_told. Qed.
Print Assumptions C104_exact.

Definition e_body (l : list str) : body :=
  mkBody [] [] [] [] [] (w_objects ++ l) [] [] [mkNetCache 0 0 0 [mkCacheProp 9 0]]
    (packed 40 (w_start true ++ [true] ++ enc_bounded 1023 0 ++ [true; false; true])).

Definition e_one : list str := [lit "TAGame.PRI_TA:MatchScore"; lit "Park_P"].
Definition e_two : list str := [lit "TAGame.PRI_TA:MatchGoals"; lit "Stadium_Foggy_P"].

(** Two attributes that are 32-bit numbers are interchangeable, as are two names of no
    class; and a file with an update of the one or the other has the same frames.  The
    attribute is not interchangeable with one that is a truth value. *)
Example C104_ex : exists s s' t b b' r r',
  s <> s' /\ interchangeable s s' /\ interchangeable (lit "Park_P") (lit "Stadium_Foggy_P") /\
  e_one = [s; lit "Park_P"] /\ e_two = [s'; lit "Stadium_Foggy_P"] /\ b = e_body e_one /\ b' = e_body e_two /\
  same_but_names b b' /\
  network_parse_frames std_bitter key_order (w_header 20 (Some 2) ordinary) b = Ok r /\
  network_parse_frames std_bitter key_order (w_header 20 (Some 2) ordinary) b' = Ok r' /\
  r = r' /\ length (flat_map f_updated_actors r) = 1%nat /\ told_by_data s t.
Proof.
  exists (lit "TAGame.PRI_TA:MatchScore"), (lit "TAGame.PRI_TA:MatchGoals"), (lit "Engine.Actor:bHidden"),
    (e_body e_one), (e_body e_two).
  assert (I : forall x y, str_assoc (normalize_object x) PARENT_CLASSES = None -> str_assoc (normalize_object y) PARENT_CLASSES = None ->
    str_assoc x ATTRIBUTES = str_assoc y ATTRIBUTES -> interchangeable x y).
  { intros x y P Q E. rewrite <- no_parent_spec in P, Q. split; [exact P|]. split; [exact Q|]. intros t. rewrite !kind_of_spec, E. reflexivity. }
  assert (I1 : interchangeable (lit "TAGame.PRI_TA:MatchScore") (lit "TAGame.PRI_TA:MatchGoals")) by (apply I; vm_compute; reflexivity).
  assert (I2 : interchangeable (lit "Park_P") (lit "Stadium_Foggy_P")) by (apply I; vm_compute; reflexivity).
  eexists _, _. split; [discriminate|]. split; [exact I1|]. split; [exact I2|]. do 4 (split; [reflexivity|]).
  split.
  { split; [|split; reflexivity]. apply Forall2_app.
    - generalize w_objects. intros l. induction l; constructor; auto.
    - constructor; [right; exact I1|]. constructor; [right; exact I2|]. constructor. }
  split; [vm_compute; reflexivity|]. split; [vm_compute; reflexivity|]. split; [reflexivity|]. split; [reflexivity|].
  apply all_told; [discriminate|]. intros (_ & _ & K). assert (E : kind_of (lit "Engine.Actor:bHidden") TInt).
  { apply K, kind_of_spec. vm_compute. reflexivity. }
  apply kind_of_spec in E. vm_compute in E. discriminate E.
Qed.

Lemma e_body_ok l : forallb plain l && (length l <=? 99)%nat = true -> body_ok (e_body l).
Proof.
  intros H. apply andb_prop in H as [P L]. apply Nat.leb_le in L.
  assert (N : forall A (P : A -> Prop), list_ok P []) by (intros; split; [cbv; discriminate|constructor]).
  assert (I : forall x, (- 2 ^ 31 <=? x) && (x <? 2 ^ 31) = true -> i32_ok x) by (intros x; unfold i32_ok; lia).
  unfold body_ok, e_body. cbn [b_levels b_keyframes b_debug_info b_tick_marks b_packages b_objects b_names b_class_indices b_net_cache].
  do 5 (split; [apply N|]). split.
  { split; [unfold count; rewrite app_length; cbn [w_objects map length]; lia|]. apply Forall_app. split; [repeat constructor; apply plain_text; reflexivity|].
    apply Forall_forall. intros x Hx. rewrite forallb_forall in P. now apply plain_text, P. }
  do 2 (split; [apply N|]). split; [cbv; discriminate|].
  repeat (constructor; cbn [nc_object_ind nc_parent_id nc_cache_id nc_properties cp_object_ind cp_stream_id]; try (apply I; reflexivity)); cbv; discriminate.
Qed.

(** the files with them *)
Example C104_ex_files : exists h b b' r fs, agree_all h h /\ same_but_names b b' /\ b_objects b <> b_objects b' /\
  f_file (write_file h b) (section_of (write_header h) h, section_of (write_body b) b) [] /\
  f_file (write_file h b') (section_of (write_header h) h, section_of (write_body b') b') [] /\
  lenZ (write_file h b) < 2 ^ 31 /\ lenZ (write_file h b') < 2 ^ 31 /\
  parse_with std_bitter key_order CrcNever NetAlways (write_file h b) = Ok r /\
  r_network_frames r = Some fs /\ length (flat_map f_updated_actors fs) = 1%nat.
Proof.
  destruct C104_ex as (s & s' & t & b & b' & fs & _ & N & _ & _ & E1 & E2 & -> & -> & S & E & _ & _ & U & _).
  set (h := w_header 20 (Some 2) ordinary) in *.
  assert (Hh : header_ok h) by (apply plain_header_ok; reflexivity).
  assert (B1 : body_ok (e_body e_one)) by (apply e_body_ok; vm_compute; reflexivity).
  assert (B2 : body_ok (e_body e_two)) by (apply e_body_ok; vm_compute; reflexivity).
  assert (L1 : lenZ (write_file h (e_body e_one)) < 2 ^ 31).
  { unfold lenZ, write_file. rewrite app_length, !write_section_length. apply Z.ltb_lt. vm_compute. reflexivity. }
  assert (L2 : lenZ (write_file h (e_body e_two)) < 2 ^ 31).
  { unfold lenZ, write_file. rewrite app_length, !write_section_length. apply Z.ltb_lt. vm_compute. reflexivity. }
  exists h, (e_body e_one), (e_body e_two). eexists. exists fs. split; [intros [] _; cbn; tauto|]. split; [exact S|].
  split; [cbn [e_body b_objects]; intros Q; apply app_inv_head in Q; discriminate Q|].
  split; [now apply read_file|]. split; [now apply read_file|]. split; [exact L1|]. split; [exact L2|].
  split; [rewrite parse_written, E by assumption; reflexivity|]. split; [reflexivity|exact U].
Qed.
