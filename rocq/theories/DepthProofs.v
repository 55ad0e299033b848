(** * The depth of header properties is paid for in bytes *)

From Coq Require Import ZArith List Bool Lia.
From Verif Require Import Base Text F32 Errors Core Header Body BitReader ObjectIndex Network Parser
  SpecText SpecFile SpecReplay SpecWrite SpecDepth FileFacts WriteProofs.
Open Scope Z_scope.
Notation len := lenZ.

Lemma len_app {A} (a b : list A) : len (a ++ b) = len a + len b.
Proof. unfold lenZ. rewrite app_length. lia. Qed.
Lemma len_int n x : len (write_int n x) = Z.of_nat n.
Proof. unfold lenZ. now rewrite write_int_length. Qed.
Lemma len_nonneg {A} (l : list A) : 0 <= len l.
Proof. unfold lenZ. lia. Qed.
Lemma write_str_least s : 4 <= len (write_str s).
Proof. destruct s; cbn [write_str]; [now rewrite len_int|]. rewrite len_app, len_int. pose proof (len_nonneg ((b :: s) ++ [x00])). lia. Qed.
Lemma write_text_least s : 4 <= len (write_text s).
Proof.
  unfold write_text. destruct (points s); [now rewrite len_int|].
  destruct (bytes_1252 _); rewrite len_app, len_int; match goal with |- context [len ?x] => pose proof (len_nonneg x) end; lia.
Qed.
Lemma write_list_least {A} (w : A -> bytes) l : 4 <= len (write_list w l).
Proof. unfold write_list. rewrite len_app, len_int. pose proof (len_nonneg (flat_map w l)). lia. Qed.
Lemma flat_in {A} (w : A -> bytes) l x : In x l -> len (w x) <= len (flat_map w l).
Proof.
  induction l as [|y l IH]; [intros []|]. cbn [flat_map]. rewrite len_app. pose proof (len_nonneg (w y)).
  pose proof (len_nonneg (flat_map w l)). intros [->|H1]; [lia|]. apply IH in H1. lia.
Qed.

Lemma entry_least q k v ps : In (k, v) ps ->
  21 + len (write_str (lit (kind_name v))) + len (write_value q v) <= len (write_entries (write_value q) ps).
Proof.
  intros H. unfold write_entries. rewrite len_app. change (len (write_str (lit "None"))) with 9.
  apply (flat_in (fun '(k, v) => write_str k ++ write_str (lit (kind_name v)) ++ write_int 8 0 ++ write_value q v)) in H.
  cbv beta iota in H. rewrite !len_app, len_int in H. pose proof (write_str_least k).
  etransitivity; [|apply Z.add_le_mono_r; exact H]. lia.
Qed.

Lemma levels_cost q n ps : levels n ps -> 43 * Z.of_nat n + 9 <= len (write_entries (write_value q) ps).
Proof.
  induction 1 as [ps|n key name fields ps H _ IH|n key rows row ps H H1 _ IH].
  - unfold write_entries. rewrite len_app. change (len (write_str (lit "None"))) with 9.
    match goal with |- context [len (flat_map ?f ?l)] => pose proof (len_nonneg (flat_map f l)) end. lia.
  - apply (entry_least q) in H. change (len (write_str (lit (kind_name (HStruct name fields))))) with 19 in H.
    change (write_value q (HStruct name fields)) with (write_str name ++ write_entries (write_value q) fields) in H.
    rewrite len_app in H. pose proof (write_str_least name). lia.
  - apply (entry_least q) in H. change (len (write_str (lit (kind_name (HArray rows))))) with 18 in H.
    change (write_value q (HArray rows)) with (write_list (write_entries (write_value q)) rows) in H.
    unfold write_list in H. rewrite len_app, len_int in H.
    apply (flat_in (write_entries (write_value q))) in H1. lia.
Qed.

Lemma header_least h : len (write_entries (write_value (oldest h)) (h_properties h)) + 12 <= len (write_header h).
Proof.
  unfold write_header. rewrite !len_app, !len_int. pose proof (write_text_least (h_game_type h)).
  match goal with |- context [len (match ?x with Some _ => _ | None => _ end)] => pose proof (len_nonneg (match x with Some n => write_int 4 n | None => [] end)) end.
  lia.
Qed.
Lemma body_least b : 40 <= len (write_body b).
Proof.
  unfold write_body. rewrite !len_app, len_int.
  pose proof (write_list_least write_text (b_levels b)). pose proof (write_list_least write_keyframe (b_keyframes b)).
  pose proof (write_list_least write_debug (b_debug_info b)). pose proof (write_list_least write_tickmark (b_tick_marks b)).
  pose proof (write_list_least write_text (b_packages b)). pose proof (write_list_least write_text (b_objects b)).
  pose proof (write_list_least write_text (b_names b)). pose proof (write_list_least write_class_index (b_class_indices b)).
  pose proof (write_list_least write_net_cache (b_net_cache b)). pose proof (len_nonneg (b_network_data b)). lia.
Qed.

Section Files.
Context (B : bitter) (ho : hash_order).

Lemma depth_bound c n data r k : len data < 2 ^ 31 -> parse_with B ho c n data = Ok r ->
  levels k (r_properties r) -> 43 * Z.of_nat k + 77 <= len data.
Proof.
  intros L E H. destruct (parse_ok_file _ _ _ _ _ _ L E) as (h & b & rest & F & Er).
  destruct (shortest _ _ _ _ F) as (_ & _ & S). unfold write_file in S. rewrite len_app in S.
  unfold write_section in S. rewrite !len_app, !len_int in S.
  pose proof (header_least (sec_value h)). pose proof (body_least (sec_value b)).
  assert (K : r_properties r = h_properties (sec_value h)) by (rewrite Er; reflexivity).
  rewrite K in H. apply (levels_cost (oldest (sec_value h))) in H. lia.
Qed.

(** ** Arrays in arrays *)

Fixpoint arrays (n : nat) : props :=
  match n with
  | O => []
  | S n' => [([], HArray [arrays n'])]
  end.
Lemma arrays_levels n : levels n (arrays n).
Proof. induction n; [constructor|]. cbn [arrays]. eapply levels_array; [left; reflexivity|left; reflexivity|exact IHn]. Qed.
Lemma arrays_ok n : props_ok false (arrays n).
Proof.
  induction n; [constructor|]. cbn [arrays]. constructor; [|constructor]. cbn [fst snd].
  split; [split; [exists []; constructor|discriminate]|]. constructor; [cbn; lia|]. constructor; [exact IHn|constructor].
Qed.
Lemma arrays_length n : len (write_entries (write_value false) (arrays n)) = 43 * Z.of_nat n + 9.
Proof.
  induction n; [reflexivity|]. cbn [arrays]. unfold write_entries at 1. cbn [flat_map write_value]. unfold write_list.
  cbn [flat_map]. rewrite !app_nil_r, !len_app, !len_int, IHn. change (len (write_str [])) with 4.
  change (len (write_str (lit (kind_name (HArray [arrays n]))))) with 18. change (len (write_str (lit "None"))) with 9. lia.
Qed.

Definition arrays_file (n : nat) : bytes :=
  write_file (mkHeader 1 0 None [] (arrays n)) (mkBody [] [] [] [] [] [] [] [] [] []).

Lemma arrays_file_length n : len (arrays_file n) = 43 * Z.of_nat n + 77.
Proof.
  unfold arrays_file, write_file, write_section. rewrite !len_app, !len_int.
  change (len (write_body (mkBody [] [] [] [] [] [] [] [] [] []))) with 40.
  unfold write_header. cbn [h_major h_minor h_net h_game_type h_properties oldest Z.eqb andb]. rewrite !len_app, !len_int.
  change (len (write_text [])) with 4. change (len []) with 0. rewrite arrays_length. lia.
Qed.

Lemma depth_reached n c : 43 * Z.of_nat n + 77 < 2 ^ 31 ->
  exists data r, len data = 43 * Z.of_nat n + 77 /\ parse_with B ho c NetNever data = Ok r /\ levels n (r_properties r).
Proof.
  intros L. exists (arrays_file n). eexists. split; [apply arrays_file_length|]. split.
  - unfold arrays_file. rewrite parse_written.
    + reflexivity.
    + split; [unfold i32_ok; cbn; lia|]. split; [unfold i32_ok; cbn; lia|]. split; [cbn; lia|].
      split; [|apply arrays_ok]. exists []. split; [constructor|cbn; lia].
    + repeat match goal with |- _ /\ _ => split | |- body_ok _ => unfold body_ok | |- list_ok _ _ => unfold list_ok end;
        cbn; try lia; constructor.
    + fold (arrays_file n). rewrite arrays_file_length. exact L.
  - apply arrays_levels.
Qed.
End Files.
