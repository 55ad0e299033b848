(** * Fewer frames asked for, more network data *)

From Coq Require Import ZArith List Bool Lia ZifyBool ZifyNat String.
#[local] Open Scope list_scope.
From Verif Require Import Base F32 NetTypes Errors Core Header Body Attributes BitReader ObjectIndex Network Parser
  SpecText Wire SpecBasic SpecNet SpecFrames SpecFile SpecReplay SpecTail BitLemmas ReaderLogic LeafProofs NetworkProofs
  FileFacts ParseProofs RunProofs Samples.
Open Scope Z_scope.

(** ** Fewer frames *)

Lemma frames_fewer e n h i fs : w_frames e n h i fs -> forall k, (k <= n)%nat -> w_frames e k h i (firstn k fs).
Proof.
  induction 1 as [h i|n h|n h i t i1 d o H1 H2 T D|n h i t d rs m fs Hf _ IH]; intros k Hk.
  - replace k with 0%nat by lia. constructor.
  - destruct k; cbn [firstn]; constructor.
  - destruct k; cbn [firstn]; [constructor|]. eapply frames_end; eauto.
  - destruct k; cbn [firstn]; [constructor|]. eapply frames_more; [eauto|]. apply IH. lia.
Qed.

(** ** More data *)

(** what can be read can still be read when more follows *)
Definition ext {A} (P : wire A) : Prop := forall x i v o, P i v o -> P (i ++ x) v (o ++ x).

Lemma ext_ret {A} (a : A) : ext (w_ret a).
Proof. intros x i v o [-> ->]. split; reflexivity. Qed.
Lemma ext_none {A} : ext (@w_none A).
Proof. intros x i v o []. Qed.
Lemma ext_bind {A C} (P : wire A) (Q : A -> wire C) : ext P -> (forall a, ext (Q a)) -> ext (w_bind P Q).
Proof. intros HP HQ x i v o (a & m & Pa & Qa). exists a, (m ++ x). split; [now apply HP|now apply HQ]. Qed.
Lemma ext_map {A C} (f : A -> C) P : ext P -> ext (w_map f P).
Proof. intros H x i v o (a & Pa & ->). exists a. split; [now apply H|reflexivity]. Qed.
Lemma ext_such {A C} (R : A -> C -> Prop) P : ext P -> ext (w_such R P).
Proof. intros H x i v o (a & Pa & Ra). exists a. split; [now apply H|exact Ra]. Qed.
Lemma ext_bit : ext w_bit.
Proof. intros x i v o ->. reflexivity. Qed.
Lemma ext_uint n : ext (w_uint n).
Proof. intros x i v o [R ->]. split; [exact R|]. now rewrite app_assoc. Qed.
Lemma ext_int n : ext (w_int n).
Proof. intros x i v o [R ->]. split; [exact R|]. now rewrite app_assoc. Qed.
Lemma ext_bytes n : ext (w_bytes n).
Proof. intros x i v o [R ->]. split; [exact R|]. now rewrite app_assoc. Qed.
Lemma ext_bounded m : ext (w_bounded m).
Proof. intros x i v o [R ->]. split; [exact R|]. now rewrite app_assoc. Qed.
Lemma ext_times {A} n (P : wire A) : ext P -> ext (w_times n P).
Proof. intros H. induction n as [|n IH]; cbn [w_times]; [apply ext_ret|]. apply ext_bind; [exact H|]. intros a. apply ext_bind; [exact IH|]. intros l. apply ext_ret. Qed.
Lemma ext_local_name : ext w_local_name.
Proof.
  intros x i v o (cs & U & F & N & K). exists cs. split; [exact U|]. split; [exact F|]. split; [exact N|].
  destruct K as [[L ->]|[L ->]]; [left|right]; (split; [exact L|]); now rewrite <- ?app_assoc.
Qed.

Ltac extend :=
  repeat first
    [ apply ext_ret | apply ext_none | apply ext_bit | apply ext_uint | apply ext_int | apply ext_bytes | apply ext_bounded
    | apply ext_local_name | apply ext_map | apply ext_such | apply ext_times
    | apply ext_bind; [|intros ?]
    | match goal with |- ext (if ?c then _ else _) => destruct c end
    | match goal with |- ext (match ?c with _ => _ end) => destruct c end
    | progress unfold w_f32, w_u32, w_opt, w_when, w_component, w_vec3i, w_vec3f, w_rotation, w_quat_old, w_quat_new,
        w_active, w_explosion, w_loadout, w_text, w_remote, w_unique_tail, w_unique, w_product_value, w_product, w_online,
        w_reservation_name, w_trajectory, w_actor_id
    | progress cbv zeta ].

Lemma ext_velocity net x i v o : w_velocity net i (Some v) o -> w_velocity net (i ++ x) (Some v) (o ++ x).
Proof. cbn [w_velocity]. assert (E : ext (w_vec3f net)) by extend. apply E. Qed.

Lemma ext_attribute D tag x i v o : not_cut_off v -> w_attribute D tag i v o -> w_attribute D tag (i ++ x) v (o ++ x).
Proof.
  intros W. destruct tag.
  all: try (match goal with |- w_attribute _ ?t _ _ _ -> _ => assert (E : ext (w_attribute D t)); [cbn [w_attribute]; solve [extend]|apply E] end).
  cbn [w_attribute]. cbv zeta. intros (s & m1 & H1 & l & m2 & H2 & r & m3 & H3 & K).
  exists s, (m1 ++ x). split; [now apply ext_bit|]. exists l, (m2 ++ x). split.
  { assert (E : ext (w_vec3f (v_net (ad_version D)))) by extend. now apply E. }
  exists r, (m3 ++ x). split.
  { assert (E : ext (if 7 <=? v_net (ad_version D) then w_quat_new else w_quat_old)) by extend. now apply E. }
  destruct s; [now apply ext_ret|]. destruct K as (lin & m4 & H4 & ang & m5 & H5 & -> & ->).
  cbn [not_cut_off rb_sleeping rb_linear_velocity rb_angular_velocity] in W. destruct (W eq_refl) as [W1 W2].
  destruct lin as [lin|]; [|congruence]. destruct ang as [ang|]; [|congruence].
  exists (Some lin), (m4 ++ x). split; [now apply ext_velocity|].
  exists (Some ang), (m5 ++ x). split; [now apply ext_velocity|]. split; reflexivity.
Qed.

Section Grammar.
Context (e : net_env) (x : bits).

Lemma ext_new id : ext (w_new e id).
Proof.
  intros y i v o (name & i1 & b & i2 & obj & i3 & cls & sp & t & H1 & H2 & H3 & S1 & S2 & H4 & ->).
  exists name, (i1 ++ y), b, (i2 ++ y), obj, (i3 ++ y), cls, sp, t.
  assert (E1 : ext (w_when (e_names e) (w_int 32))) by extend.
  assert (E2 : ext (w_trajectory sp (e_net e))) by (destruct sp; cbn [w_trajectory]; extend).
  split; [now apply E1|]. split; [now apply ext_bit|]. split; [now apply ext_int|].
  split; [exact S1|]. split; [exact S2|]. split; [now apply E2|]. reflexivity.
Qed.
Lemma ext_update id cls i u o : not_cut_off (u_attribute u) -> w_update e id cls i u o ->
  w_update e id cls (i ++ x) u (o ++ x).
Proof.
  intros W (bound & s & i1 & p & pn & tag & a & H1 & H2 & H3 & H4 & H5 & H6 & ->). cbn [u_attribute] in W.
  exists bound, s, (i1 ++ x), p, pn, tag, a. split; [exact H1|]. split; [now apply ext_bounded|].
  split; [exact H3|]. split; [exact H4|]. split; [exact H5|]. split; [now apply ext_attribute|]. reflexivity.
Qed.
Lemma ext_updates id cls i us o : (forall u, In u us -> not_cut_off (u_attribute u)) ->
  w_many (w_update e id cls) i us o -> w_many (w_update e id cls) (i ++ x) us (o ++ x).
Proof.
  intros W H. induction H as [o|i u m us o Hu _ IH]; cbn [app]; [constructor|].
  econstructor; [apply ext_update; [apply W; now left|exact Hu]|]. apply IH. intros v Hv. apply W. now right.
Qed.
Lemma ext_record h i r o : (forall u, In u (updated_of r) -> not_cut_off (u_attribute u)) ->
  w_record e h i r o -> w_record e h (i ++ x) r (o ++ x).
Proof.
  intros W (id & i1 & H & K). exists id, (i1 ++ x). split.
  { assert (E : ext (w_actor_id e)) by extend. now apply E. }
  destruct r as [a|id'|id' us].
  - destruct K as (i2 & -> & K). exists (i2 ++ x). split; [reflexivity|]. now apply ext_new.
  - destruct K as (-> & ->). split; reflexivity.
  - destruct K as (-> & i2 & obj & cls & -> & A & S & K). split; [reflexivity|].
    exists (i2 ++ x), obj, cls. split; [reflexivity|]. split; [exact A|]. split; [exact S|]. now apply ext_updates.
Qed.
Lemma ext_records h i rs o : (forall u, In u (flat_map updated_of rs) -> not_cut_off (u_attribute u)) ->
  w_records e h i rs o -> w_records e h (i ++ x) rs (o ++ x).
Proof.
  intros W H. induction H as [h o|h i r m rs o Hr _ IH]; cbn [app]; [constructor|]. cbn [flat_map] in W.
  econstructor; [apply ext_record; [|exact Hr]; intros u Hu; apply W, in_or_app; now left|].
  apply IH. intros u Hu. apply W, in_or_app. now right.
Qed.
Lemma ext_frames n h i fs : (forall f, In f (map to_frame fs) -> frame_whole f) -> length fs = n ->
  w_frames e n h i fs -> w_frames e n h (i ++ x) fs.
Proof.
  intros W L H. induction H as [h i|n h|n h i t i1 d o H1 H2 T D|n h i t d rs m fs Hf _ IH]; try discriminate L.
  - constructor.
  - cbn [length] in L. injection L as L. eapply frames_more with (m := m ++ x).
    + destruct Hf as (i1 & i2 & F1 & F2 & T1 & T2 & Z & R). exists (i1 ++ x), (i2 ++ x).
      split; [now apply ext_uint|]. split; [now apply ext_uint|]. split; [exact T1|]. split; [exact T2|]. split; [exact Z|].
      apply ext_records; [|exact R]. apply (W (to_frame (t, d, rs))). left. reflexivity.
    + apply IH; [|exact L]. intros f Hf'. apply W. right. exact Hf'.
Qed.
End Grammar.

(** ** Files *)

Lemma enc_bytes_app a b : enc_bytes (a ++ b) = enc_bytes a ++ enc_bytes b.
Proof. unfold enc_bytes. rewrite map_app. apply concat_app. Qed.

Lemma env_same h h' b b' extra e : same_settings h h' -> continued b b' extra -> env_of h b e -> env_of h' b' e.
Proof.
  intros (E1 & E2 & E3 & S) (O & C & _). unfold env_of. rewrite O, C, <- E1, <- E2, <- E3.
  intros (ch & lan & bu & c1 & c2 & c3 & c4 & c5 & rl & H1 & H2 & H3 & H).
  exists ch, lan, bu, c1, c2, c3, c4, c5, rl.
  split; [apply S; cbn; auto|]. split; [apply S; cbn; auto|]. split; [apply S; cbn; auto|]. exact H.
Qed.

Lemma entry_fun h name r r' : entry h name r -> entry h name r' -> r = r'.
Proof. rewrite !entry_find. congruence. Qed.

Section Files.
Context (B : bitter) (HB : bitter_ok B) (ho : hash_order) (Hho : hash_order_ok ho).
Notation parse := (parse_with B ho).

Lemma fewer_frames data data' h b rest h' b' rest' n k fs : lenZ data < 2 ^ 31 -> lenZ data' < 2 ^ 31 ->
  f_file data (h, b) rest -> f_file data' (h', b') rest' ->
  same_settings (sec_value h) (sec_value h') -> continued (sec_value b) (sec_value b') [] ->
  frame_count (sec_value h) n -> frame_count (sec_value h') k -> 0 <= k <= n ->
  parse CrcNever NetAlways data = Ok (replay_of h b (Some fs)) ->
  parse CrcNever NetAlways data' = Ok (replay_of h' b' (Some (firstn (Z.to_nat k) fs))).
Proof.
  intros L L' F F' S C (r & N & En) (r' & K & Ek) Hk P.
  apply (parse_frames B HB ho Hho _ _ _ _ _ L F) in P as (xs & (R & count & Hc & Hx) & ->).
  rewrite (entry_fun _ _ _ _ Hc N), En in Hx. destruct Hx as (Rn & e & He & Hw).
  apply (parse_frames B HB ho Hho _ _ _ _ _ L' F'). exists (firstn (Z.to_nat k) xs). split; [|apply firstn_map].
  pose proof C as (O & Ca & Nd). rewrite app_nil_r in Nd. split; [now rewrite O, Ca|].
  exists r'. split; [exact K|]. rewrite Ek, Nd. split; [lia|]. exists e. split; [eapply env_same; eauto|].
  apply frames_fewer with (n := Z.to_nat n); [exact Hw|lia].
Qed.

Lemma more_data data data' h b rest h' b' rest' extra fs : lenZ data < 2 ^ 31 -> lenZ data' < 2 ^ 31 ->
  f_file data (h, b) rest -> f_file data' (h', b') rest' ->
  same_settings (sec_value h) (sec_value h') -> continued (sec_value b) (sec_value b') extra ->
  frame_count (sec_value h) (Z.of_nat (length fs)) -> frame_count (sec_value h') (Z.of_nat (length fs)) ->
  (forall f, In f fs -> frame_whole f) ->
  parse CrcNever NetAlways data = Ok (replay_of h b (Some fs)) ->
  parse CrcNever NetAlways data' = Ok (replay_of h' b' (Some fs)).
Proof.
  intros L L' F F' S C (r & N & En) (r' & K & Ek) W P.
  apply (parse_frames B HB ho Hho _ _ _ _ _ L F) in P as (xs & (R & count & Hc & Hx) & ->).
  rewrite (entry_fun _ _ _ _ Hc N), En in Hx. destruct Hx as (Rn & e & He & Hw). rewrite map_length in *.
  apply (parse_frames B HB ho Hho _ _ _ _ _ L' F'). exists xs. split; [|reflexivity].
  pose proof C as (O & Ca & Nd). split; [now rewrite O, Ca|].
  exists r'. split; [exact K|]. rewrite Ek, Nd, app_length. split; [lia|]. exists e. split; [eapply env_same; eauto|].
  rewrite Nat2Z.id in *. rewrite enc_bytes_app. now apply ext_frames.
Qed.
End Files.

(** ** The samples *)

Lemma settings_run h h' : h_major h = h_major h' -> h_minor h = h_minor h' -> h_net h = h_net h' ->
  map (fun name => find_prop name (h_properties h)) ["MaxChannels"; "MatchType"; "BuildVersion"]%string =
  map (fun name => find_prop name (h_properties h')) ["MaxChannels"; "MatchType"; "BuildVersion"]%string ->
  same_settings h h'.
Proof.
  intros E1 E2 E3 E. split; [exact E1|]. split; [exact E2|]. split; [exact E3|]. cbn [map] in E. injection E as E4 E5 E6.
  intros name [<-|[<-|[<-|[]]]] r; rewrite !entry_find; now rewrite ?E4, ?E5, ?E6.
Qed.

Lemma count_run h n : int_of (find_prop "NumFrames" (h_properties h)) = Some n -> frame_count h n.
Proof. intros E. eexists. split; [now apply entry_find|exact E]. Qed.

(** two files that can be computed *)
Lemma run_pair data data' extra n k : (lenZ data <? 2 ^ 31) && (lenZ data' <? 2 ^ 31) = true ->
  match run_file data, run_file data' with
  | Some (mkSection _ _ _ h, mkSection _ _ _ b, _), Some (mkSection _ _ _ h', mkSection _ _ _ b', _) =>
      (h_major h, h_minor h, h_net h) = (h_major h', h_minor h', h_net h') /\
      map (fun name => find_prop name (h_properties h)) ["MaxChannels"; "MatchType"; "BuildVersion"]%string =
      map (fun name => find_prop name (h_properties h')) ["MaxChannels"; "MatchType"; "BuildVersion"]%string /\
      b_objects b' = b_objects b /\ b_net_cache b' = b_net_cache b /\ b_network_data b' = b_network_data b ++ extra /\
      int_of (find_prop "NumFrames" (h_properties h)) = Some n /\ int_of (find_prop "NumFrames" (h_properties h')) = Some k
  | _, _ => False
  end ->
  exists h b rest h' b' rest', run_file data = Some (h, b, rest) /\ run_file data' = Some (h', b', rest') /\
      f_file data (h, b) rest /\ f_file data' (h', b') rest' /\
      same_settings (sec_value h) (sec_value h') /\ continued (sec_value b) (sec_value b') extra /\
      frame_count (sec_value h) n /\ frame_count (sec_value h') k.
Proof.
  intros L H. destruct (run_file data) as [[[h b] rest]|] eqn:E; [|destruct H].
  destruct (run_file data') as [[[h' b'] rest']|] eqn:E'; [|destruct h, b, H].
  apply andb_prop in L as [L L']. apply Z.ltb_lt in L, L'.
  apply (run_file_ok _ _ _ _ L) in E as F. apply (run_file_ok _ _ _ _ L') in E' as F'.
  exists h, b, rest, h', b', rest'. split; [reflexivity|]. split; [reflexivity|]. split; [exact F|]. split; [exact F'|].
  destruct h as [? ? ? h], b as [? ? ? b], h' as [? ? ? h'], b' as [? ? ? b']. cbn [sec_value].
  destruct H as (V & S & O & C & N & K1 & K2).
  split; [apply settings_run; congruence|]. split; [split; [exact O|split; [exact C|exact N]]|].
  split; [now apply count_run|now apply count_run].
Qed.

(** ** A ball whose velocities are missing *)

Definition frames_in (r : outcome parse_error replay) : list frame :=
  match r with Ok r => match r_network_frames r with Some fs => fs | None => [] end | _ => [] end.

Lemma more_data_refuted : exists data data' h b rest h' b' rest' extra r r' fs fs',
  f_file data (h, b) rest /\ f_file data' (h', b') rest' /\
  same_settings (sec_value h) (sec_value h') /\ continued (sec_value b) (sec_value b') extra /\
  frame_count (sec_value h) (Z.of_nat (length fs)) /\ frame_count (sec_value h') (Z.of_nat (length fs)) /\
  parse_with std_bitter key_order CrcAlways NetAlways data = Ok r /\ r_network_frames r = Some fs /\
  parse_with std_bitter key_order CrcAlways NetAlways data' = Ok r' /\ r_network_frames r' = Some fs' /\
  length fs' = length fs /\ fs <> fs'.
Proof.
  destruct (run_pair moving_sample moved_sample (repeat x00 8) 1 1) as (h & b & rest & h' & b' & rest' & _ & _ & F & F' & S & C & N & N').
  { reflexivity. }
  { vm_compute. repeat split. }
  assert (P : exists r, parse_with std_bitter key_order CrcAlways NetAlways moving_sample = Ok r) by (eexists; vm_compute; reflexivity).
  destruct P as [r P].
  assert (P' : exists r, parse_with std_bitter key_order CrcAlways NetAlways moved_sample = Ok r) by (eexists; vm_compute; reflexivity).
  destruct P' as [r' P'].
  pose (parses := parse_with std_bitter key_order CrcAlways NetAlways).
  assert (Q : exists fs fs', Some fs = r_network_frames r /\ Some fs' = r_network_frames r' /\ length fs = 1%nat /\ length fs' = 1%nat /\ fs <> fs').
  { exists (frames_in (parses moving_sample)), (frames_in (parses moved_sample)).
    replace (r_network_frames r) with (match parses moving_sample with Ok r => r_network_frames r | _ => None end) by (unfold parses; now rewrite P).
    replace (r_network_frames r') with (match parses moved_sample with Ok r => r_network_frames r | _ => None end) by (unfold parses; now rewrite P').
    clear. vm_compute. split; [reflexivity|]. split; [reflexivity|]. split; [reflexivity|]. split; [reflexivity|]. discriminate. }
  destruct Q as (fs & fs' & Q1 & Q2 & Q3 & Q4 & Q5).
  exists moving_sample, moved_sample, h, b, rest, h', b', rest', (repeat x00 8), r, r', fs, fs'. rewrite Q3, Q4.
  auto 20.
Qed.
