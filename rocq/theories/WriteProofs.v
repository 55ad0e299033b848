(** * What is written can be read *)

From Coq Require Import ZArith List Bool Lia ZifyBool ZifyNat.
From Verif Require Import Base F32 Text Errors Core Header Body Crc Parser SpecText SpecFile SpecReplay SpecCrc SpecWrite
  TextProofs CoreLogic CrcProofs FileProofs FileFacts SizeProofs AlikeProofs.
Open Scope Z_scope.
Notation len l := (Z.of_nat (length l)).

(** ** Numbers *)

Lemma low_byte_is x : is (low_byte x) (x mod 256).
Proof.
  unfold low_byte, is. pose proof (Z.mod_pos_bound x 256 ltac:(lia)) as R.
  destruct (Byte.of_N (Z.to_N (x mod 256))) as [b|] eqn:E.
  - apply Byte.to_of_N in E. rewrite E. lia.
  - apply Byte.of_N_None_iff in E. lia.
Qed.
Lemma write_int_length n : forall x, length (write_int n x) = n.
Proof. induction n as [|n IH]; intros x; cbn [write_int length]; [reflexivity|]. now rewrite IH. Qed.
Lemma write_int_little n : forall x, little_endian x (write_int n x).
Proof. induction n as [|n IH]; intros x; cbn [write_int little_endian]; [exact I|]. split; [apply low_byte_is|apply IH]. Qed.

Lemma read_int n x rest : 0 <= x < 256 ^ Z.of_nat n -> f_uint n (write_int n x ++ rest) x rest.
Proof. intros R. exists (write_int n x). split; [split; [apply write_int_length|reflexivity]|]. split; [exact R|apply write_int_little]. Qed.
Lemma read_i32 x rest : i32_ok x -> f_i32 (write_int 4 x ++ rest) x rest.
Proof. intros R. exists (write_int 4 x). split; [split; [apply write_int_length|reflexivity]|]. split; [exact R|apply write_int_little]. Qed.
Lemma read_u32 x rest : u32_ok x -> f_u32 (write_int 4 x ++ rest) x rest.
Proof. intros R. apply read_int. exact R. Qed.

Lemma cost_int n i x o : f_uint n i x o -> 0 <= x < 256 ^ Z.of_nat n /\ len (write_int n x) + len o <= len i.
Proof. intros (l & (L & ->) & R & _). rewrite write_int_length, app_length. split; [exact R|lia]. Qed.
Lemma cost_i32 i x o : f_i32 i x o -> i32_ok x /\ len (write_int 4 x) + len o <= len i.
Proof. intros (l & (L & ->) & R & _). rewrite write_int_length, app_length. split; [exact R|lia]. Qed.
Lemma cost_u32 i x o : f_u32 i x o -> u32_ok x /\ len (write_int 4 x) + len o <= len i.
Proof. intros H. apply cost_int in H. exact H. Qed.

(** ** Texts *)

Lemma same_length {A C} (R : A -> C -> Prop) l l' : Forall2 R l l' -> length l = length l'.
Proof. induction 1; cbn [length]; congruence. Qed.

Lemma points_one c s rest : utf8_one c s -> points (s ++ rest) = c :: points rest.
Proof.
  intros H. destruct H as [a x A|a b x y A B|a b c x y z A B C|a b c d x y z t A B C D]; unfold is in *; cbn [app points];
    unfold byteZ; rewrite ?A, ?B, ?C, ?D.
  - replace (x <? 128) with true by lia. reflexivity.
  - replace (192 + x <? 128) with false by lia. replace (192 + x <? 224) with true by lia.
    replace ((128 + y) mod 64) with y by (Z.div_mod_to_equations; lia). f_equal. lia.
  - replace (224 + x <? 128) with false by lia. replace (224 + x <? 224) with false by lia. replace (224 + x <? 240) with true by lia.
    replace ((128 + y) mod 64) with y by (Z.div_mod_to_equations; lia).
    replace ((128 + z) mod 64) with z by (Z.div_mod_to_equations; lia). f_equal. lia.
  - replace (240 + x <? 128) with false by lia. replace (240 + x <? 224) with false by lia. replace (240 + x <? 240) with false by lia.
    replace ((128 + y) mod 64) with y by (Z.div_mod_to_equations; lia).
    replace ((128 + z) mod 64) with z by (Z.div_mod_to_equations; lia).
    replace ((128 + t) mod 64) with t by (Z.div_mod_to_equations; lia). f_equal. lia.
Qed.
Lemma points_utf8 cs s : utf8 cs s -> points s = cs.
Proof. induction 1 as [|c cs s t H _ IH]; [reflexivity|]. rewrite (points_one _ _ _ H). now f_equal. Qed.
Lemma one_scalar c s : utf8_one c s -> scalar c.
Proof. intros H. unfold scalar, surrogate in *. destruct H; unfold surrogate in *; lia. Qed.
Lemma utf8_scalars cs s : utf8 cs s -> Forall scalar cs.
Proof. induction 1; constructor; eauto using one_scalar. Qed.

Lemma is_byteZ b x : is b x -> 0 <= x < 256.
Proof. unfold is. intros <-. pose proof (Byte.to_N_bounded b). lia. Qed.

Lemma byte_1252_one c b : byte_1252 c = Some b -> windows1252_one b c.
Proof.
  unfold byte_1252. destruct (find _ _) as [x|] eqn:E; [|discriminate]. cbn [option_map]. intros [= <-].
  apply find_some in E as [I E]. apply in_map_iff in I as (n & <- & I). apply in_seq in I. apply Z.eqb_eq in E.
  exists (Z.of_nat n). split; [|now rewrite <- E].
  pose proof (low_byte_is (Z.of_nat n)) as L. rewrite Z.mod_small in L by lia. exact L.
Qed.
Lemma one_byte_1252 b c : windows1252_one b c -> exists b', byte_1252 c = Some b'.
Proof.
  intros (x & H & ->). unfold byte_1252. destruct (find _ _) as [y|] eqn:E; [eexists; reflexivity|]. exfalso.
  pose proof (is_byteZ _ _ H). eapply find_none in E; [apply Z.eqb_neq in E; now apply E|].
  apply in_map_iff. exists (Z.to_nat x). split; [apply Z2Nat.id; lia|]. apply in_seq. lia.
Qed.
Lemma bytes_1252_all cs : forall l, bytes_1252 cs = Some l -> Forall2 windows1252_one l cs.
Proof.
  induction cs as [|c cs IH]; cbn [bytes_1252]; intros l; [intros [= <-]; constructor|].
  destruct (byte_1252 c) as [b|] eqn:E; [|discriminate]. destruct (bytes_1252 cs) as [t|]; [|discriminate].
  intros [= <-]. constructor; [now apply byte_1252_one|auto].
Qed.
Lemma all_bytes_1252 l cs : Forall2 windows1252_one l cs -> exists l', bytes_1252 cs = Some l'.
Proof.
  induction 1 as [|b c l cs H _ [l' IH]]; cbn [bytes_1252]; [eexists; reflexivity|].
  apply one_byte_1252 in H as [b' ->]. rewrite IH. eexists. reflexivity.
Qed.

Lemma units_of_length c : (1 <= length (utf16_units_of c))%nat.
Proof. unfold utf16_units_of. destruct (_ <? _); cbn [length]; lia. Qed.
Lemma units_at_least cs : (length cs <= length (flat_map utf16_units_of cs))%nat.
Proof. induction cs as [|c cs IH]; cbn [flat_map length]; [lia|]. rewrite app_length. pose proof (units_of_length c). lia. Qed.
Lemma units_range cs : Forall scalar cs -> Forall (fun u => 0 <= u < 65536) (flat_map utf16_units_of cs).
Proof.
  induction 1 as [|c cs [S _] _ IH]; cbn [flat_map]; [constructor|]. apply Forall_app. split; [|exact IH].
  unfold utf16_units_of. destruct (c <? 65536) eqn:E; repeat constructor; Z.div_mod_to_equations; lia.
Qed.
Lemma write_units us : Forall (fun u => 0 <= u < 65536) us -> units (flat_map (write_int 2) us) us.
Proof.
  induction 1 as [|u us R _ IH]; cbn [flat_map write_int app]; constructor; [|exact IH].
  exists (u mod 256), (u / 256). pose proof (low_byte_is u) as A. pose proof (low_byte_is (u / 256)) as B.
  split; [exact A|]. split; [|Z.div_mod_to_equations; lia].
  replace ((u / 256) mod 256) with (u / 256) in B by (Z.div_mod_to_equations; lia). exact B.
Qed.
Lemma flat_map_int n us : length (flat_map (write_int n) us) = (n * length us)%nat.
Proof. induction us as [|u us IH]; cbn [flat_map length]; [lia|]. rewrite app_length, write_int_length, IH. lia. Qed.

Lemma empty_text rest : f_text (write_int 4 0 ++ rest) [] rest.
Proof.
  exists 0, rest. split; [apply read_i32; unfold i32_ok; lia|]. cbn [Z.ltb Z.compare orb].
  exists []. split; [split; reflexivity|]. exists []. split; constructor.
Qed.

Lemma read_text s rest : text_ok s -> f_text (write_text s ++ rest) s rest.
Proof.
  intros (cs & U & L). unfold write_text. rewrite (points_utf8 _ _ U). unfold count in *.
  destruct cs as [|c cs']; [inversion U; subst; apply empty_text|]. remember (c :: cs') as cs eqn:Ecs. clear Ecs c cs'.
  pose proof (units_at_least cs) as AL. destruct (bytes_1252 cs) as [l|] eqn:E.
  - apply bytes_1252_all in E. pose proof (same_length _ _ _ E) as EL. rewrite <- !app_assoc.
    replace (l ++ [x00] ++ rest) with ((l ++ [x00]) ++ rest) by now rewrite <- app_assoc.
    eapply text_recovers_1252; [exact E|exact U|lia|reflexivity|apply write_int_little].
  - pose proof (utf8_scalars _ _ U) as S. rewrite <- !app_assoc.
    replace (flat_map (write_int 2) (flat_map utf16_units_of cs) ++ [x00; x00] ++ rest)
      with ((flat_map (write_int 2) (flat_map utf16_units_of cs) ++ [x00; x00]) ++ rest) by now rewrite <- app_assoc.
    eapply text_recovers_utf16; [exact S|apply write_units, units_range, S|exact U|rewrite flat_map_int; lia|reflexivity|].
    rewrite flat_map_int. replace (2 * length (flat_map utf16_units_of cs) / 2)%nat with (length (flat_map utf16_units_of cs));
      [apply write_int_little|]. symmetry. rewrite Nat.mul_comm. now apply Nat.div_mul.
Qed.

Lemma units_twice l us : units l us -> length l = (2 * length us)%nat /\ Forall (fun u => 0 <= u < 65536) us.
Proof.
  induction 1 as [|a b u l us (x & y & A & B & ->) _ [IH1 IH2]]; cbn [length]; [split; [lia|constructor]|].
  apply is_byteZ in A, B. split; [lia|]. constructor; [lia|exact IH2].
Qed.
Lemma chars_units us cs : utf16_chars_of us cs -> Forall (fun u => 0 <= u < 65536) us ->
  length (flat_map utf16_units_of cs) = length us.
Proof.
  induction 1 as [|u us cs _ _ IH|u v us cs Lu Lv _ IH|u us cs _ _ _ IH]; intros F; cbn [flat_map length]; auto; rewrite app_length;
    unfold utf16_units_of at 1.
  - inversion F; subst. replace (u <? 65536) with true by lia. cbn [length]. now rewrite IH.
  - inversion F as [|? ? _ F']; subst. inversion F'; subst. unfold lead, trail in *.
    replace (_ <? 65536) with false by lia. cbn [length]. now rewrite IH.
  - inversion F; subst. cbn [Z.ltb Z.compare length]. change (65533 <? 65536) with true. cbn [length]. now rewrite IH.
Qed.
Lemma high_small x c : windows1252_high x = Some c -> 0 <= c < 65536.
Proof.
  intros H. destruct x as [|p|p]; try discriminate H. cbn in H.
  repeat (destruct p as [p|p|]; try discriminate H); injection H as <-; lia.
Qed.
Lemma one_small b c : windows1252_one b c -> 0 <= c < 65536.
Proof.
  intros (x & H & ->). apply is_byteZ in H. destruct (windows1252_high x) as [c|] eqn:E; [|lia]. eapply high_small; eauto.
Qed.
Lemma small_units l cs : Forall2 windows1252_one l cs -> length (flat_map utf16_units_of cs) = length cs.
Proof.
  induction 1 as [|b c l cs H _ IH]; cbn [flat_map length]; [reflexivity|]. rewrite app_length, IH.
  apply one_small in H. unfold utf16_units_of. now replace (c <? 65536) with true by lia.
Qed.
Lemma removelast_length {A} (l : list A) : length (removelast l) = (length l - 1)%nat.
Proof.
  destruct l as [|x l] using rev_ind; [reflexivity|]. rewrite removelast_snoc, app_length. cbn [length]. lia.
Qed.

Lemma write_text_length cs s : utf8 cs s ->
  length (write_text s) = match cs with
    | [] => 4%nat
    | _ => match bytes_1252 cs with Some _ => (5 + length cs)%nat | None => (6 + 2 * length (flat_map utf16_units_of cs))%nat end
    end.
Proof.
  intros U. unfold write_text. rewrite (points_utf8 _ _ U). destruct cs as [|c cs]; [reflexivity|].
  destruct (bytes_1252 (c :: cs)) as [l|] eqn:E; rewrite !app_length, write_int_length.
  - apply bytes_1252_all, same_length in E. rewrite E. cbn [length]. lia.
  - rewrite flat_map_int. cbn [length]. lia.
Qed.

Lemma cost_text i s o : f_text i s o -> text_ok s /\ len (write_text s) + len o <= len i.
Proof.
  intros (n & m & H1 & H2). apply cost_i32 in H1 as [_ H1]. rewrite write_int_length in H1.
  destruct ((n <? -10000) || (10000 <? n)) eqn:R; [destruct H2|]. destruct (n <? 0) eqn:N.
  - destruct H2 as (l & (L & ->) & us & cs & U & C & V). apply units_twice in U as [UL UF].
    pose proof (chars_units _ _ C UF) as CU. rewrite !removelast_length in UL. unfold count. pose proof (units_at_least cs) as AL.
    split; [exists cs; split; [exact V|unfold count; lia]|].
    rewrite (write_text_length _ _ V), app_length in *. destruct cs; [lia|]. destruct (bytes_1252 _); lia.
  - destruct H2 as (l & (L & ->) & cs & F & V). pose proof (same_length _ _ _ F) as FL. rewrite removelast_length in FL.
    pose proof (small_units _ _ F) as SU. split; [exists cs; split; [exact V|unfold count; lia]|].
    rewrite (write_text_length _ _ V), app_length in *. destruct cs as [|c cs]; [lia|].
    destruct (all_bytes_1252 _ _ F) as [l' ->]. cbn [length] in *. lia.
Qed.

Lemma read_str s rest : valid_utf8 s -> len (write_str s) < 2 ^ 31 -> f_str (write_str s ++ rest) s rest.
Proof.
  intros V L. unfold write_str in *. destruct s as [|c s'].
  - exists 0, rest. split; [apply read_i32; unfold i32_ok; lia|]. exists []. split; [split; reflexivity|]. split; [reflexivity|exact V].
  - remember (c :: s') as s. clear Heqs. rewrite !app_length, write_int_length in L. unfold count in *. cbn [length] in L.
    rewrite <- !app_assoc. exists (len s + 1), ((s ++ [x00]) ++ rest). split; [rewrite <- app_assoc; apply read_i32; unfold i32_ok; lia|].
    replace (len s + 1 <? 0) with false by lia. exists (s ++ [x00]). split.
    + split; [rewrite app_length; cbn [length]; lia|reflexivity].
    + rewrite removelast_snoc. auto.
Qed.
Lemma cost_str i s o : f_str i s o -> valid_utf8 s /\ len (write_str s) + len o <= len i.
Proof.
  intros (n & m & H1 & H2). apply cost_i32 in H1 as [_ H1]. rewrite write_int_length in H1. destruct (n <? 0) eqn:N; [destruct H2|].
  destruct H2 as (l & (L & ->) & E & V). split; [exact V|]. pose proof (removelast_length l) as RL. rewrite <- E in RL.
  rewrite app_length in H1. unfold write_str. destruct s; rewrite ?app_length, write_int_length; cbn [length] in *; lia.
Qed.

(** ** Lists *)

(** values of the kind [Q] written by [w] are read by [P] *)
Definition writes {A} (Q : A -> Prop) (w : A -> bytes) (P : form A) : Prop :=
  forall x rest, Q x -> len (w x) < 2 ^ 31 -> P (w x ++ rest) x rest.
(** what [P] reads is of the kind [Q], and not shorter than what [w] writes *)
Definition costs {A} (Q : A -> Prop) (w : A -> bytes) (P : form A) : Prop :=
  forall i x o, P i x o -> Q x /\ len (w x) + len o <= len i.

Lemma read_list {A} (Q : A -> Prop) w P : writes Q w P -> writes (list_ok Q) (write_list w) (f_list P).
Proof.
  intros H l rest [L F] S. unfold write_list, count in *. rewrite app_length in S. rewrite <- app_assoc.
  exists (len l). eexists. split; [apply read_i32; unfold i32_ok; lia|]. unfold f_counted.
  replace ((len l <? 0) || (25000 <? len l)) with false by lia. rewrite Nat2Z.id.
  assert (S' : len (flat_map w l) < 2 ^ 31) by lia. clear L S. revert S'.
  induction F as [|x l Hx _ IH]; cbn [flat_map length f_times app]; intros S; [split; reflexivity|].
  rewrite app_length in S. rewrite <- app_assoc. eexists _, _. split; [apply H; [exact Hx|lia]|].
  eexists _, _. split; [apply IH; lia|]. split; reflexivity.
Qed.
Lemma cost_list {A} (Q : A -> Prop) w P : costs Q w P -> costs (list_ok Q) (write_list w) (f_list P).
Proof.
  intros H i l o (n & m & H1 & H2). apply cost_i32 in H1 as [_ H1]. rewrite write_int_length in H1. unfold f_counted in H2.
  destruct ((n <? 0) || (25000 <? n)) eqn:R; [destruct H2|]. pose proof (f_times_length _ _ _ _ _ H2) as L.
  assert (K : Forall Q l /\ len (flat_map w l) + len o <= len m).
  { clear - H H2. revert m l H2. induction (Z.to_nat n) as [|k IH]; cbn [f_times]; intros m l H2.
    - destruct H2 as [-> ->]. split; [constructor|cbn [flat_map length]; lia].
    - destruct H2 as (x & m1 & Hx & xs & m2 & Hs & -> & ->). apply H in Hx as [Q1 L1]. apply IH in Hs as [Q2 L2].
      split; [now constructor|]. cbn [flat_map]. rewrite app_length. lia. }
  destruct K as [K1 K2]. unfold write_list, list_ok, count. rewrite app_length, write_int_length. split; [split; [lia|exact K1]|lia].
Qed.

Lemma writes_text : writes text_ok write_text f_text.
Proof. intros s rest H _. now apply read_text. Qed.
Lemma costs_text : costs text_ok write_text f_text.
Proof. exact cost_text. Qed.

(** ** Properties *)

Lemma ascii_utf8 s : Text.utf8_validate 0 s = None -> valid_utf8 s.
Proof. apply validate_spec. Qed.
Lemma kind_utf8 v : valid_utf8 (lit (kind_name v)).
Proof. destruct v; apply ascii_utf8; reflexivity. Qed.
Lemma kind_length v : (length (write_str (lit (kind_name v))) < 100)%nat.
Proof. apply Nat.ltb_lt. destruct v; reflexivity. Qed.
Lemma none_utf8 : valid_utf8 (lit "None").
Proof. apply ascii_utf8. reflexivity. Qed.

Section Properties.
Context (q : bool).

Definition reads (v : header_prop) : Prop := value_ok q v -> len (write_value q v) < 2 ^ 31 ->
  forall rest, f_value q (lit (kind_name v)) (write_value q v ++ rest) v rest.

Lemma read_entries ps : Forall (fun kv => reads (snd kv)) ps -> props_ok q ps ->
  len (write_entries (write_value q) ps) < 2 ^ 31 ->
  forall rest, f_props q (write_entries (write_value q) ps ++ rest) ps rest.
Proof.
  unfold write_entries. induction 1 as [|[k v] ps Hv _ IH]; intros O L rest.
  - cbn [flat_map app]. apply fp_end. apply read_str; [exact none_utf8|reflexivity].
  - apply Forall_cons_iff in O as [[[K1 K2] O1] O2]. cbn [fst snd flat_map] in *. rewrite !app_length in L.
    rewrite <- !app_assoc. eapply fp_entry with (ignored := write_int 8 0).
    + apply read_str; [exact K1|lia].
    + exact K2.
    + apply read_str; [apply kind_utf8|]. pose proof (kind_length v). lia.
    + split; reflexivity.
    + apply Hv; [exact O1|lia].
    + rewrite app_assoc. apply IH; [exact O2|]. rewrite app_length. lia.
Qed.

Lemma read_rows rows : Forall (Forall (fun kv => reads (snd kv))) rows -> Forall (props_ok q) rows ->
  len (flat_map (write_entries (write_value q)) rows) < 2 ^ 31 ->
  forall rest, f_rows q (length rows) (flat_map (write_entries (write_value q)) rows ++ rest) rows rest.
Proof.
  induction 1 as [|r rows Hr _ IH]; intros O L rest; cbn [flat_map app length] in *; [constructor|].
  apply Forall_cons_iff in O as [O1 O2]. rewrite app_length in L. rewrite <- app_assoc.
  econstructor; [apply read_entries; [exact Hr|exact O1|lia]|]. apply IH; [exact O2|lia].
Qed.

Lemma read_value v : reads v.
Proof.
  induction v as [rows IH|b|k v|x|x|s|x|s|name f IH] using header_prop_nested; intros O L rest; inversion O; subst; cbn [kind_name].
  - cbn [write_value] in *. unfold write_list, count in *. rewrite app_length in L. rewrite <- app_assoc.
    eapply fv_array with (n := len rows); [apply read_i32; unfold i32_ok; lia|lia|]. rewrite Nat2Z.id.
    apply read_rows; [exact IH|assumption|lia].
  - cbn [write_value]. destruct q.
    + destruct b; cbn; [apply (fv_bool true _ x01 [x00; x00; x00])|apply (fv_bool true _ x00 [x00; x00; x00])]; split; reflexivity.
    + destruct b; cbn; [apply (fv_bool false _ x01 [])|apply (fv_bool false _ x00 [])]; split; reflexivity.
  - cbn [write_value] in *. rewrite app_length in L. rewrite <- app_assoc. destruct H2 as [K1 K2].
    eapply fv_byte; [reflexivity|apply read_str; [exact K1|lia]|exact K2|apply read_str; [assumption|lia]].
  - cbn [write_value] in *. apply fv_byte_quirk; [reflexivity|]. now apply read_text.
  - apply fv_float, read_u32. assumption.
  - apply fv_int, read_i32. assumption.
  - apply fv_name, read_text. assumption.
  - apply fv_qword, read_int. assumption.
  - apply fv_str, read_text. assumption.
  - change (write_value q (HStruct name f)) with (write_str name ++ write_entries (write_value q) f) in *.
    rewrite app_length in L. rewrite <- app_assoc.
    eapply fv_struct; [apply read_str; [assumption|lia]|]. apply read_entries; [exact IH|assumption|lia].
Qed.

Lemma read_props ps : props_ok q ps -> len (write_entries (write_value q) ps) < 2 ^ 31 ->
  forall rest, f_props q (write_entries (write_value q) ps ++ rest) ps rest.
Proof. apply read_entries. apply Forall_forall. intros kv _. apply read_value. Qed.

Lemma cost_props_all :
  (forall i ps o, f_props q i ps o -> props_ok q ps /\ len (write_entries (write_value q) ps) + len o <= len i) /\
  (forall k i v o, f_value q k i v o -> (k = lit (kind_name v) /\ value_ok q v) /\ len (write_value q v) + len o <= len i) /\
  (forall n i rows o, f_rows q n i rows o -> (length rows = n /\ Forall (props_ok q) rows) /\
     len (flat_map (write_entries (write_value q)) rows) + len o <= len i).
Proof.
  apply f_props_mut.
  - intros i o H. apply cost_str in H as [_ H]. split; [constructor|]. exact H.
  - intros i key m1 kind m2 ign m3 v m4 rest o H1 N H2 H3 _ [[E V] IHv] _ [P IHp].
    apply cost_str in H1 as [K1 H1]. apply cost_str in H2 as [_ H2]. destruct H3 as [L8 ->]. rewrite app_length in H2. subst kind.
    split; [constructor; [split; [split; [exact K1|exact N]|exact V]|exact P]|].
    unfold write_entries in *. cbn [flat_map]. rewrite !app_length in *. rewrite write_int_length. lia.
  - intros i key m1 m2 ign m3 m4 b m5 rest o _ H1 _ H2 H3 H4 H5 _ [P IHp].
    apply cost_str in H1 as [_ H1]. apply cost_str in H2 as [_ H2]. destruct H3 as [L8 ->]. apply cost_str in H4 as [_ H4].
    destruct H5 as [L1 ->]. rewrite app_length in *. split; [exact P|lia].
  - intros i b l o [H ->]. split; [split; [reflexivity|constructor]|]. cbn [write_value]. rewrite write_int_length, app_length. lia.
  - intros i kind m v o E H1 N H2. apply cost_str in H1 as [K1 H1]. apply cost_str in H2 as [K2 H2].
    split; [split; [reflexivity|constructor; [exact E|split; [exact K1|exact N]|exact K2]]|]. cbn [write_value]. rewrite app_length. lia.
  - intros i kind o E H. apply cost_text in H as [K H]. split; [split; [reflexivity|now constructor]|]. exact H.
  - intros i n m rows o H R _ [[L P] IH]. apply cost_i32 in H as [_ H]. rewrite write_int_length in H.
    split; [split; [reflexivity|apply ok_array; [unfold count, props in *; lia|exact P]]|].
    cbn [write_value]. unfold write_list. rewrite app_length, write_int_length. lia.
  - intros i x o H. apply cost_u32 in H as [K H]. split; [split; [reflexivity|now constructor]|]. exact H.
  - intros i x o H. apply cost_i32 in H as [K H]. split; [split; [reflexivity|now constructor]|]. exact H.
  - intros i x o H. apply cost_int in H as [K H]. split; [split; [reflexivity|now constructor]|]. exact H.
  - intros i s o H. apply cost_text in H as [K H]. split; [split; [reflexivity|now constructor]|]. exact H.
  - intros i s o H. apply cost_text in H as [K H]. split; [split; [reflexivity|now constructor]|]. exact H.
  - intros i name m fields o H _ [P IH]. apply cost_str in H as [K H].
    split; [split; [reflexivity|now constructor]|].
    change (write_value q (HStruct name fields)) with (write_str name ++ write_entries (write_value q) fields). rewrite app_length. lia.
  - intros i. split; [split; [reflexivity|constructor]|]. cbn [flat_map length]. lia.
  - intros n i r m rows o _ [P1 H1] _ [[L P2] H2]. split; [split; [cbn [length]; congruence|now constructor]|].
    cbn [flat_map]. rewrite app_length. lia.
Qed.
Lemma cost_props i ps o : f_props q i ps o -> props_ok q ps /\ len (write_entries (write_value q) ps) + len o <= len i.
Proof. apply cost_props_all. Qed.
End Properties.

(** ** Header and body *)

Lemma read_header : writes header_ok write_header f_header.
Proof.
  intros [maj min net game ps] rest (H1 & H2 & H3 & H4 & H5) L. unfold write_header, oldest in *.
  cbn [h_major h_minor h_net h_game_type h_properties] in *. rewrite !app_length in L. rewrite <- !app_assoc.
  eexists _, _. split; [apply read_i32; exact H1|]. eexists _, _. split; [apply read_i32; exact H2|].
  exists net. eexists. split.
  { destruct net as [n|].
    - replace ((865 <? maj) && (17 <? min)) with true by lia. exists n. split; [apply read_i32; tauto|reflexivity].
    - replace ((865 <? maj) && (17 <? min)) with false by lia. split; reflexivity. }
  eexists _, _. split; [apply read_text; exact H4|]. eexists _, _. split; [apply read_props; [exact H5|lia]|]. split; reflexivity.
Qed.
Lemma cost_header : costs header_ok write_header f_header.
Proof.
  intros i h o (maj & m1 & H1 & min & m2 & H2 & net & m3 & H3 & game & m4 & H4 & ps & m5 & H5 & -> & ->).
  apply cost_i32 in H1 as [K1 H1]. apply cost_i32 in H2 as [K2 H2]. apply cost_text in H4 as [K4 H4]. apply cost_props in H5 as [K5 H5].
  unfold header_ok, write_header, oldest. cbn [h_major h_minor h_net h_game_type h_properties]. rewrite !app_length.
  destruct ((865 <? maj) && (17 <? min)) eqn:E.
  - destruct H3 as (n & H3 & ->). apply cost_i32 in H3 as [K3 H3]. split; [|lia].
    split; [exact K1|]. split; [exact K2|]. split; [split; [lia|split; [lia|exact K3]]|]. split; [exact K4|exact K5].
  - destruct H3 as [-> ->]. cbn [length]. split; [|lia].
    split; [exact K1|]. split; [exact K2|]. split; [lia|]. split; [exact K4|exact K5].
Qed.

Ltac read1 := eexists _, _; split; [first [apply read_i32; assumption|apply read_u32; assumption|apply read_text; assumption
                                          |apply read_str; [assumption|lia]]|].
Ltac reads := intros x rest H L; cbv beta in H; unfold writes in *; rewrite ?app_length in L.

Lemma w_keyframe : writes (fun k => u32_ok (kf_time k) /\ i32_ok (kf_frame k) /\ i32_ok (kf_position k)) write_keyframe f_keyframe.
Proof. intros [t f p] rest (H1 & H2 & H3) _. unfold write_keyframe. cbn [kf_time kf_frame kf_position] in *. rewrite <- !app_assoc. do 3 read1. split; reflexivity. Qed.
Lemma w_debug : writes (fun d => i32_ok (di_frame d) /\ text_ok (di_user d) /\ text_ok (di_text d)) write_debug f_debug.
Proof. intros [f u t] rest (H1 & H2 & H3) _. unfold write_debug. cbn [di_frame di_user di_text] in *. rewrite <- !app_assoc. do 3 read1. split; reflexivity. Qed.
Lemma w_tickmark : writes (fun t => text_ok (tm_description t) /\ i32_ok (tm_frame t)) write_tickmark f_tickmark.
Proof. intros [d f] rest (H1 & H2) _. unfold write_tickmark. cbn [tm_description tm_frame] in *. rewrite <- !app_assoc. do 2 read1. split; reflexivity. Qed.
Lemma w_class_index : writes (fun c => valid_utf8 (cx_class c) /\ i32_ok (cx_index c)) write_class_index f_class_index.
Proof.
  intros [c x] rest (H1 & H2) L. unfold write_class_index in *. cbn [cx_class cx_index] in *. rewrite app_length in L.
  rewrite <- !app_assoc. do 2 read1. split; reflexivity.
Qed.
Lemma w_cache_prop : writes (fun p => i32_ok (cp_object_ind p) /\ i32_ok (cp_stream_id p)) write_cache_prop f_cache_prop.
Proof. intros [o s] rest (H1 & H2) _. unfold write_cache_prop. cbn [cp_object_ind cp_stream_id] in *. rewrite <- !app_assoc. do 2 read1. split; reflexivity. Qed.
Lemma w_net_cache : writes (fun c => i32_ok (nc_object_ind c) /\ i32_ok (nc_parent_id c) /\ i32_ok (nc_cache_id c) /\
  list_ok (fun p => i32_ok (cp_object_ind p) /\ i32_ok (cp_stream_id p)) (nc_properties c)) write_net_cache f_net_cache.
Proof.
  intros [o p c ps] rest (H1 & H2 & H3 & H4) L. unfold write_net_cache in *.
  cbn [nc_object_ind nc_parent_id nc_cache_id nc_properties] in *. rewrite !app_length in L. rewrite <- !app_assoc. do 3 read1.
  eexists _, _. split; [apply (read_list _ _ _ w_cache_prop); [exact H4|lia]|]. split; reflexivity.
Qed.

Lemma read_body : writes body_ok write_body f_body.
Proof.
  intros [le kf di tm pk ob na ci nc nd] rest (H1 & H2 & H3 & H4 & H5 & H6 & H7 & H8 & H9) L. unfold write_body, body_ok in *.
  cbn [b_levels b_keyframes b_network_data b_debug_info b_tick_marks b_packages b_objects b_names b_class_indices b_net_cache] in *.
  rewrite !app_length in L. rewrite <- !app_assoc.
  eexists _, _. split; [apply (read_list _ _ _ writes_text); [exact H1|lia]|].
  eexists _, _. split; [apply (read_list _ _ _ w_keyframe); [exact H2|lia]|].
  eexists _, _. split.
  { exists (count nd). eexists. unfold count. split; [apply read_i32; unfold i32_ok; lia|].
    replace (len nd <? 0) with false by lia. rewrite Nat2Z.id. split; reflexivity. }
  eexists _, _. split; [apply (read_list _ _ _ w_debug); [exact H3|lia]|].
  eexists _, _. split; [apply (read_list _ _ _ w_tickmark); [exact H4|lia]|].
  eexists _, _. split; [apply (read_list _ _ _ writes_text); [exact H5|lia]|].
  eexists _, _. split; [apply (read_list _ _ _ writes_text); [exact H6|lia]|].
  eexists _, _. split; [apply (read_list _ _ _ writes_text); [exact H7|lia]|].
  eexists _, _. split; [apply (read_list _ _ _ w_class_index); [exact H8|lia]|].
  eexists _, _. split; [apply (read_list _ _ _ w_net_cache); [exact H9|lia]|]. split; reflexivity.
Qed.

Lemma c_keyframe : costs (fun k => u32_ok (kf_time k) /\ i32_ok (kf_frame k) /\ i32_ok (kf_position k)) write_keyframe f_keyframe.
Proof.
  intros i x o (t & m1 & H1 & f & m2 & H2 & p & m3 & H3 & -> & ->). apply cost_u32 in H1 as [K1 H1].
  apply cost_i32 in H2 as [K2 H2]. apply cost_i32 in H3 as [K3 H3]. unfold write_keyframe. cbn [kf_time kf_frame kf_position].
  rewrite !app_length. split; [auto|lia].
Qed.
Lemma c_debug : costs (fun d => i32_ok (di_frame d) /\ text_ok (di_user d) /\ text_ok (di_text d)) write_debug f_debug.
Proof.
  intros i x o (t & m1 & H1 & f & m2 & H2 & p & m3 & H3 & -> & ->). apply cost_i32 in H1 as [K1 H1].
  apply cost_text in H2 as [K2 H2]. apply cost_text in H3 as [K3 H3]. unfold write_debug. cbn [di_frame di_user di_text].
  rewrite !app_length. split; [auto|lia].
Qed.
Lemma c_tickmark : costs (fun t => text_ok (tm_description t) /\ i32_ok (tm_frame t)) write_tickmark f_tickmark.
Proof.
  intros i x o (t & m1 & H1 & f & m2 & H2 & -> & ->). apply cost_text in H1 as [K1 H1].
  apply cost_i32 in H2 as [K2 H2]. unfold write_tickmark. cbn [tm_description tm_frame]. rewrite !app_length. split; [auto|lia].
Qed.
Lemma c_class_index : costs (fun c => valid_utf8 (cx_class c) /\ i32_ok (cx_index c)) write_class_index f_class_index.
Proof.
  intros i x o (t & m1 & H1 & f & m2 & H2 & -> & ->). apply cost_str in H1 as [K1 H1].
  apply cost_i32 in H2 as [K2 H2]. unfold write_class_index. cbn [cx_class cx_index]. rewrite !app_length. split; [auto|lia].
Qed.
Lemma c_cache_prop : costs (fun p => i32_ok (cp_object_ind p) /\ i32_ok (cp_stream_id p)) write_cache_prop f_cache_prop.
Proof.
  intros i x o (t & m1 & H1 & f & m2 & H2 & -> & ->). apply cost_i32 in H1 as [K1 H1].
  apply cost_i32 in H2 as [K2 H2]. unfold write_cache_prop. cbn [cp_object_ind cp_stream_id]. rewrite !app_length. split; [auto|lia].
Qed.
Lemma c_net_cache : costs (fun c => i32_ok (nc_object_ind c) /\ i32_ok (nc_parent_id c) /\ i32_ok (nc_cache_id c) /\
  list_ok (fun p => i32_ok (cp_object_ind p) /\ i32_ok (cp_stream_id p)) (nc_properties c)) write_net_cache f_net_cache.
Proof.
  intros i x o (t & m1 & H1 & f & m2 & H2 & p & m3 & H3 & ps & m4 & H4 & -> & ->). apply cost_i32 in H1 as [K1 H1].
  apply cost_i32 in H2 as [K2 H2]. apply cost_i32 in H3 as [K3 H3]. apply (cost_list _ _ _ c_cache_prop) in H4 as [K4 H4].
  unfold write_net_cache. cbn [nc_object_ind nc_parent_id nc_cache_id nc_properties]. rewrite !app_length. split; [auto|lia].
Qed.

Lemma cost_body : costs body_ok write_body f_body.
Proof.
  intros i b o (le & m1 & H1 & kf & m2 & H2 & nd & m3 & H3 & di & m4 & H4 & tm & m5 & H5 & pk & m6 & H6 & ob & m7 & H7
    & na & m8 & H8 & ci & m9 & H9 & nc & m10 & H10 & -> & ->).
  apply (cost_list _ _ _ costs_text) in H1 as [K1 H1], H6 as [K6 H6], H7 as [K7 H7], H8 as [K8 H8].
  apply (cost_list _ _ _ c_keyframe) in H2 as [K2 H2]. apply (cost_list _ _ _ c_debug) in H4 as [K4 H4].
  apply (cost_list _ _ _ c_tickmark) in H5 as [K5 H5]. apply (cost_list _ _ _ c_class_index) in H9 as [K9 H9].
  apply (cost_list _ _ _ c_net_cache) in H10 as [K10 H10].
  destruct H3 as (n & m & H3 & H3'). apply cost_i32 in H3 as [_ H3]. rewrite write_int_length in H3.
  destruct (n <? 0); [destruct H3'|]. destruct H3' as [_ ->]. rewrite app_length in H3.
  unfold body_ok, write_body.
  cbn [b_levels b_keyframes b_network_data b_debug_info b_tick_marks b_packages b_objects b_names b_class_indices b_net_cache].
  rewrite !app_length, !write_int_length. split; [auto 10|lia].
Qed.

(** ** Files *)

Lemma crc_ok l : u32_ok (Z.of_N (crc32_unreal l)).
Proof. rewrite <- calc_crc_spec. pose proof (calc_crc_bound l) as B. unfold u32_ok. change (2 ^ 32) with (Z.of_N (2 ^ 32)%N). lia. Qed.

Lemma read_section {A} (P : form A) l x rest : len l < 2 ^ 31 -> (forall r, P (l ++ r) x r) ->
  f_section P (write_section l ++ rest) (section_of l x) rest.
Proof.
  intros L H. unfold write_section, section_of. rewrite <- !app_assoc.
  exists (count l), (Z.of_N (crc32_unreal l)), l, (l ++ rest), x. split; [|split; [apply H|reflexivity]].
  eexists. split; [apply read_i32; unfold i32_ok, count; lia|]. split; [apply read_u32, crc_ok|]. unfold count.
  split; [lia|]. split; [reflexivity|]. now exists rest.
Qed.

Lemma write_section_length l : length (write_section l) = (8 + length l)%nat.
Proof. unfold write_section. rewrite !app_length, !write_int_length. lia. Qed.

Lemma read_file h b : header_ok h -> body_ok b -> lenZ (write_file h b) < 2 ^ 31 ->
  f_file (write_file h b) (section_of (write_header h) h, section_of (write_body b) b) [].
Proof.
  intros H1 H2 L. unfold lenZ, write_file in *. rewrite app_length, !write_section_length in L.
  eexists _, _. split; [apply read_section; [lia|]; intros r; apply read_header; [exact H1|lia]|].
  eexists _, _. split; [|split; reflexivity]. rewrite <- (app_nil_r (write_section (write_body b))).
  apply read_section; [lia|]. intros r. apply read_body; [exact H2|lia].
Qed.

Lemma cost_file data h b rest : f_file data (h, b) rest ->
  header_ok (sec_value h) /\ body_ok (sec_value b) /\
  lenZ (write_file (sec_value h) (sec_value b)) + lenZ rest <= lenZ data.
Proof.
  intros (h' & m' & (hs & hc & hcov & hm & hv & (m1 & D1 & D2 & _) & Hh & ->) & b' & m2 & Hb & E & ->).
  assert (EH := f_equal fst E). assert (EB := f_equal snd E). cbn in EH, EB. subst h b. clear E.
  destruct Hb as (bs & bc & bcov & bm & bv & (m3 & D3 & D4 & _) & Hb & ->). cbn [sec_value].
  apply cost_i32 in D1 as [_ D1], D3 as [_ D3]. apply cost_u32 in D2 as [_ D2], D4 as [_ D4]. rewrite write_int_length in *.
  apply cost_header in Hh as [K1 Hh]. apply cost_body in Hb as [K2 Hb]. split; [exact K1|]. split; [exact K2|].
  unfold lenZ, write_file. rewrite app_length, !write_section_length. lia.
Qed.

Section Files.
Context (B : BitReader.bitter) (ho : ObjectIndex.hash_order).
Notation parse := (parse_with B ho).

Lemma parse_written h b c n : header_ok h -> body_ok b -> lenZ (write_file h b) < 2 ^ 31 ->
  parse c n (write_file h b) =
    out_map (replay_of (section_of (write_header h) h) (section_of (write_body b) b))
            (net_result n (Network.network_parse_frames B ho h b)).
Proof.
  intros H1 H2 L. rewrite (fate_file B ho _ _ _ _ L (read_file _ _ H1 H2 L)). unfold mismatch, section_of.
  cbn [sec_crc sec_bytes sec_value]. rewrite <- !calc_crc_spec, !Z.eqb_refl. now destruct c.
Qed.

Lemma read_back h b c : header_ok h -> body_ok b -> lenZ (write_file h b) < 2 ^ 31 ->
  parse c NetNever (write_file h b) = Ok (replay_of (section_of (write_header h) h) (section_of (write_body b) b) None).
Proof. intros H1 H2 L. now rewrite parse_written. Qed.

Lemma rewritten data h b rest n : lenZ data < 2 ^ 31 -> f_file data (h, b) rest ->
  match parse CrcNever n data, parse CrcAlways n (write_file (sec_value h) (sec_value b)) with
  | Ok r, Ok r' => same_contents r r'
  | Err e, Err e' => e = e'
  | Panic p, Panic p' => p = p'
  | _, _ => False
  end.
Proof.
  intros L F. destruct (cost_file _ _ _ _ F) as (H1 & H2 & H3). pose proof (lenZ_nonneg rest).
  rewrite parse_written; [|exact H1|exact H2|lia]. rewrite (fate_file B ho _ _ _ _ L F). cbn [mismatch].
  destruct (net_result n _) as [fs|e|p]; cbn [out_map]; [|reflexivity|reflexivity]. repeat split.
Qed.

Lemma rewrite_accepted data c n r : lenZ data < 2 ^ 31 -> parse c n data = Ok r ->
  exists data' r', lenZ data' <= lenZ data /\ parse CrcAlways n data' = Ok r' /\ same_contents r r'.
Proof.
  intros L E. destruct (parse_ok_file B ho _ _ _ _ L E) as (h & b & rest & F & _).
  assert (E' : parse CrcNever n data = Ok r).
  { rewrite (fate_file B ho _ _ _ _ L F) in E |- *. cbn [mismatch]. destruct (mismatch c _ _); [discriminate|].
    destruct (mismatch c _ _); [discriminate|exact E]. }
  pose proof (rewritten _ _ _ _ n L F) as R. rewrite E' in R.
  destruct (cost_file _ _ _ _ F) as (_ & _ & H3). pose proof (lenZ_nonneg rest).
  destruct (parse CrcAlways n (write_file (sec_value h) (sec_value b))) as [r'|?|?] eqn:W; [|destruct R..].
  exists (write_file (sec_value h) (sec_value b)), r'. split; [lia|]. split; [exact W|exact R].
Qed.

Lemma shortest data h b rest : f_file data (h, b) rest ->
  header_ok (sec_value h) /\ body_ok (sec_value b) /\ lenZ (write_file (sec_value h) (sec_value b)) <= lenZ data.
Proof. intros F. destruct (cost_file _ _ _ _ F) as (H1 & H2 & H3). pose proof (lenZ_nonneg rest). repeat split; try apply H1; try apply H2; lia. Qed.
End Files.
