(** * A replay holds no more than its file pays for *)

From Coq Require Import ZArith List Bool Lia ZifyBool ZifyNat.
From Verif Require Import Base F32 NetTypes Errors Core Header Body Attributes BitReader ObjectIndex Network Parser
  SpecText Wire SpecBasic SpecNet SpecFrames SpecFile SpecReplay SpecSize BitLemmas ReaderLogic LeafProofs FileFacts ParseProofs.
Open Scope Z_scope.

Notation len l := (Z.of_nat (length l)).

Lemma total_cons {A} (f : A -> Z) x l : total f (x :: l) = f x + total f l.
Proof. reflexivity. Qed.
Lemma total_nil {A} (f : A -> Z) : total f [] = 0.
Proof. reflexivity. Qed.
Lemma total_nonneg {A} (f : A -> Z) l : (forall x, 0 <= f x) -> 0 <= total f l.
Proof. intros H. induction l as [|x l IH]; [reflexivity|]. rewrite total_cons. specialize (H x). lia. Qed.
Lemma total_app {A} (f : A -> Z) l m : total f (l ++ m) = total f l + total f m.
Proof. induction l as [|x l IH]; [reflexivity|]. cbn [app]. rewrite !total_cons. lia. Qed.
Lemma total_one {A} (l : list A) : total (fun _ => 1) l = len l.
Proof. induction l as [|x l IH]; [reflexivity|]. rewrite total_cons, IH. cbn [length]. lia. Qed.

(** ** Text *)

Lemma utf8_len cs s : utf8 cs s -> len s <= 4 * len cs.
Proof.
  induction 1 as [|c cs s t H _ IH]; [cbn; lia|]. rewrite app_length. cbn [length].
  assert ((length s <= 4)%nat) by (destruct H; cbn; lia). lia.
Qed.
Lemma removelast_len {A} (l : list A) : len (removelast l) <= len l.
Proof. induction l as [|x [|y l] IH]; cbn [removelast length] in *; lia. Qed.
Lemma windows1252_len l s : windows1252 l s -> len s <= 4 * len l.
Proof. intros (cs & H & U). apply utf8_len in U. assert (len l = len cs) by (clear -H; induction H; cbn [length] in *; lia). lia. Qed.
Lemma utf16_len l s : utf16 l s -> len s <= 4 * len l.
Proof.
  intros (us & cs & H & C & U). apply utf8_len in U.
  assert (len cs <= len us) by (clear -C; induction C; cbn [length] in *; lia).
  assert (len us <= len l) by (clear -H; induction H; cbn [length] in *; lia). lia.
Qed.

(** ** Forms: eight for every byte *)

Definition fpays {A} (P : form A) (w : A -> Z) : Prop :=
  forall i v o, P i v o -> w v + 8 * len o <= 8 * len i.

Lemma fp_bytes n : fpays (f_bytes n) (fun l => 8 * len l).
Proof. intros i v o [_ ->]. rewrite app_length. lia. Qed.
Lemma fp_bytes_n n : fpays (f_bytes n) (fun _ => 8 * Z.of_nat n).
Proof. intros i v o [<- ->]. rewrite app_length. lia. Qed.
Lemma fp_such {A C} (R : A -> C -> Prop) P w w' : fpays P w -> (forall a v, R a v -> w' v <= w a) ->
  fpays (f_such R P) w'.
Proof. intros H L i v o (a & Pa & Ra). apply H in Pa. apply L in Ra. lia. Qed.
Lemma fp_i32 : fpays f_i32 (fun _ => 32).
Proof. eapply fp_such; [apply fp_bytes_n|]. cbv beta. lia. Qed.
Lemma fp_uint n : fpays (f_uint n) (fun _ => 8 * Z.of_nat n).
Proof. eapply fp_such; [apply fp_bytes_n|]. cbv beta. lia. Qed.
Lemma fp_f32 : fpays f_f32 (fun _ => 32).
Proof. exact (fp_uint 4). Qed.
Lemma fp_u32 : fpays f_u32 (fun _ => 32).
Proof. exact (fp_uint 4). Qed.
Lemma fp_str : fpays f_str (fun s => 32 + text_size s).
Proof.
  intros i v o (n & m & H & K). apply fp_i32 in H. destruct (n <? 0); [destruct K|].
  apply (fp_such _ _ (fun l => 8 * len l) text_size) in K; [lia|apply fp_bytes|].
  intros a s [-> _]. unfold text_size. pose proof (removelast_len a). lia.
Qed.
Lemma fp_text : fpays f_text (fun s => 32 + text_size s).
Proof.
  intros i v o (n & m & H & K). apply fp_i32 in H. destruct (_ || _); [destruct K|].
  assert (text_size v + 8 * len o <= 8 * len m); [|lia].
  destruct (n <? 0); revert K; apply fp_such with (w := fun l => 8 * len l); try apply fp_bytes;
    intros a s W; unfold text_size.
  - apply utf16_len in W. pose proof (removelast_len a). pose proof (removelast_len (removelast a)). lia.
  - apply windows1252_len in W. pose proof (removelast_len a). lia.
Qed.
Lemma fp_times {A} (P : form A) w n : fpays P w -> fpays (f_times n P) (total w).
Proof.
  intros H. induction n as [|n IH]; intros i v o.
  - intros [-> ->]. rewrite total_nil. lia.
  - intros (x & m & Px & xs & m' & Pxs & -> & ->). apply H in Px. apply IH in Pxs. rewrite total_cons. lia.
Qed.
Lemma fp_list {A} (P : form A) w : fpays P w -> fpays (f_list P) (fun l => 32 + total w l).
Proof.
  intros H i v o (n & m & Hn & K). apply fp_i32 in Hn. unfold f_counted in K. destruct (_ || _); [destruct K|].
  apply (fp_times P w _ H) in K. lia.
Qed.

Ltac spread :=
  repeat match goal with
  | H : f_bind _ _ _ _ _ |- _ => destruct H as (? & ? & ? & H)
  | H : f_ret _ _ _ _ |- _ => destruct H as [-> ->]
  | H : f_i32 _ _ _ |- _ => apply fp_i32 in H
  | H : f_f32 _ _ _ |- _ => apply fp_f32 in H
  | H : f_str _ _ _ |- _ => apply fp_str in H
  | H : f_text _ _ _ |- _ => apply fp_text in H
  end.

Lemma fp_keyframe : fpays f_keyframe (fun _ => 1).
Proof. intros i v o H. unfold f_keyframe in H. spread. lia. Qed.
Lemma fp_debug : fpays f_debug (fun d => 1 + text_size (di_user d) + text_size (di_text d)).
Proof. intros i v o H. unfold f_debug in H. spread. cbn [di_user di_text]. lia. Qed.
Lemma fp_tickmark : fpays f_tickmark (fun t => 1 + text_size (tm_description t)).
Proof. intros i v o H. unfold f_tickmark in H. spread. cbn [tm_description]. lia. Qed.
Lemma fp_class_index : fpays f_class_index (fun c => 1 + text_size (cx_class c)).
Proof. intros i v o H. unfold f_class_index in H. spread. cbn [cx_class]. lia. Qed.
Lemma fp_cache_prop : fpays f_cache_prop (fun _ => 1).
Proof. intros i v o H. unfold f_cache_prop in H. spread. lia. Qed.
Lemma fp_net_cache : fpays f_net_cache (fun c => 1 + len (nc_properties c)).
Proof.
  intros i v o H. unfold f_net_cache in H. spread.
  match goal with H : f_list _ _ _ _ |- _ => apply (fp_list _ _ fp_cache_prop) in H; rewrite total_one in H end.
  cbn [nc_properties]. lia.
Qed.
Lemma fp_network : fpays f_network (fun l => 8 * len l).
Proof.
  intros i v o (n & m & H & K). apply fp_i32 in H. destruct (n <? 0); [destruct K|]. apply fp_bytes in K. lia.
Qed.
Lemma fp_texts : fpays (f_list f_text) texts_size.
Proof.
  intros i v o H. apply (fp_list f_text (fun s => 1 + text_size s)) in H; [unfold texts_size; lia|].
  intros i' v' o' K. apply fp_text in K. lia.
Qed.

Scheme f_props_m := Minimality for f_props Sort Prop
  with f_value_m := Minimality for f_value Sort Prop
  with f_rows_m := Minimality for f_rows Sort Prop.
Combined Scheme f_props_mut from f_props_m, f_value_m, f_rows_m.

Lemma text_nonneg s : 0 <= text_size s.
Proof. unfold text_size. lia. Qed.

Lemma fp_props_all q :
  (forall i ps o, f_props q i ps o -> 0 <= props_size ps /\ 32 + props_size ps + 8 * len o <= 8 * len i) /\
  (forall k i v o, f_value q k i v o -> 0 <= value_size v /\ value_size v + 8 * len o <= 8 * len i) /\
  (forall n i rows o, f_rows q n i rows o -> 0 <= total (fun row => 1 + props_size row) rows /\
     total (fun row => 1 + props_size row) rows + 8 * len o <= 8 * len i).
Proof.
  apply f_props_mut.
  - intros i o H. apply fp_str in H. pose proof (text_nonneg (lit "None")). cbn [props_size total fold_right] in *.
    change (props_size []) with 0. lia.
  - intros i key m1 kind m2 ign m3 v m4 rest o H1 _ H2 H3 _ IHv _ IHp.
    apply fp_str in H1, H2. apply fp_bytes_n in H3. change (props_size ((key, v) :: rest)) with
      (1 + text_size key + value_size v + props_size rest).
    pose proof (text_nonneg key). pose proof (text_nonneg kind). lia.
  - intros i key m1 m2 ign m3 m4 b m5 rest o _ H1 _ H2 H3 H4 H5 _ IHp.
    apply fp_str in H1, H2, H4. apply fp_bytes_n in H3, H5.
    pose proof (text_nonneg key). pose proof (text_nonneg (lit "ByteProperty")). pose proof (text_nonneg (lit "None")). lia.
  - intros i b l o H. apply fp_bytes_n in H. cbn [value_size]. lia.
  - intros i kind m v o _ H1 _ H2. apply fp_str in H1, H2. cbn [value_size maybe]. pose proof (text_nonneg kind). try pose proof (text_nonneg v). lia.
  - intros i kind o _ H. apply fp_text in H. cbn [value_size maybe]. pose proof (text_nonneg kind). try pose proof (text_nonneg v). lia.
  - intros i n m rows o H _ _ IH. apply fp_i32 in H. cbn [value_size]. fold props_size in *.
    change (0 <= total (fun row => 1 + props_size row) rows /\
            total (fun row => 1 + props_size row) rows + 8 * len o <= 8 * len i). lia.
  - intros i x o H. apply fp_f32 in H. cbn [value_size]. lia.
  - intros i x o H. apply fp_i32 in H. cbn [value_size]. lia.
  - intros i x o H. apply fp_uint in H. cbn [value_size]. lia.
  - intros i x o H. apply fp_text in H. cbn [value_size]. pose proof (text_nonneg x). lia.
  - intros i x o H. apply fp_text in H. cbn [value_size]. pose proof (text_nonneg x). lia.
  - intros i name m fields o H _ IH. apply fp_str in H. cbn [value_size].
    change (0 <= text_size name + props_size fields /\ text_size name + props_size fields + 8 * len o <= 8 * len i).
    pose proof (text_nonneg name). lia.
  - intros i. cbn. lia.
  - intros n i r m rows o _ IHp _ IHr.
    change (total (fun row => 1 + props_size row) (r :: rows)) with
      (1 + props_size r + total (fun row => 1 + props_size row) rows). lia.
Qed.
Lemma fp_props q : fpays (f_props q) (fun ps => 32 + props_size ps).
Proof. intros i v o H. now apply (fp_props_all q) in H. Qed.

Lemma fp_header : fpays f_header (fun h => text_size (h_game_type h) + props_size (h_properties h)).
Proof.
  intros i v o H. unfold f_header in H. spread.
  match goal with H : f_props _ _ _ _ |- _ => apply fp_props in H end.
  cbn [h_game_type h_properties].
  match goal with H : (if ?c then _ else _) ?a _ ?b |- _ => assert (8 * len b <= 8 * len a); [|lia]; destruct c end.
  - match goal with H : f_such _ _ _ _ _ |- _ =>
      apply (fp_such _ _ (fun _ => 32) (fun _ => 0)) in H; [lia|apply fp_i32|intros; lia] end.
  - spread. lia.
Qed.

Lemma header_shrinks i v o : f_header i v o -> len o <= len i.
Proof.
  intros H. pose proof (fp_header _ _ _ H) as W. pose proof (text_nonneg (h_game_type v)).
  assert (0 <= props_size (h_properties v)); [|lia].
  unfold f_header in H. spread. cbn [h_properties].
  match goal with H : f_props ?q _ _ _ |- _ => apply (fp_props_all q) in H as [H _]; exact H end.
Qed.

Lemma fp_body : fpays f_body (fun b =>
  texts_size (b_levels b) + len (b_keyframes b) +
  total (fun d => 1 + text_size (di_user d) + text_size (di_text d)) (b_debug_info b) +
  total (fun t => 1 + text_size (tm_description t)) (b_tick_marks b) +
  texts_size (b_packages b) + texts_size (b_objects b) + texts_size (b_names b) +
  total (fun c => 1 + text_size (cx_class c)) (b_class_indices b) +
  total (fun c => 1 + len (nc_properties c)) (b_net_cache b) + 8 * len (b_network_data b)).
Proof.
  intros i v o H. unfold f_body in H. spread.
  repeat match goal with
  | H : f_list f_text _ _ _ |- _ => apply fp_texts in H
  | H : f_list f_keyframe _ _ _ |- _ => apply (fp_list _ _ fp_keyframe) in H; rewrite total_one in H
  | H : f_list f_debug _ _ _ |- _ => apply (fp_list _ _ fp_debug) in H
  | H : f_list f_tickmark _ _ _ |- _ => apply (fp_list _ _ fp_tickmark) in H
  | H : f_list f_class_index _ _ _ |- _ => apply (fp_list _ _ fp_class_index) in H
  | H : f_list f_net_cache _ _ _ |- _ => apply (fp_list _ _ fp_net_cache) in H
  | H : f_network _ _ _ |- _ => apply fp_network in H
  end.
  cbn [b_levels b_keyframes b_debug_info b_tick_marks b_packages b_objects b_names b_class_indices b_net_cache b_network_data].
  lia.
Qed.

Lemma fp_section {A} (P : form A) w : fpays P w -> fpays (f_section P) (fun s => 64 + w (sec_value s)).
Proof.
  intros H i v o (size & crc & cov & m & x & (m1 & H1 & H2 & _) & Px & ->).
  apply fp_i32 in H1. apply fp_u32 in H2. apply H in Px. cbn [sec_value]. lia.
Qed.

(** ** Wires: one for every bit *)

Definition wpays {A} (P : wire A) (w : A -> Z) : Prop :=
  forall i v o, P i v o -> w v + len o <= len i.
Notation shrinks P := (wpays P (fun _ => 0)).

Lemma wp_weaken {A} (P : wire A) w w' : wpays P w -> (forall v, w' v <= w v) -> wpays P w'.
Proof. intros H L i v o Hv. apply H in Hv. specialize (L v). lia. Qed.
Lemma shr_ret {A} (a : A) : shrinks (w_ret a).
Proof. intros i v o [-> ->]. lia. Qed.
Lemma shr_none {A} : shrinks (@w_none A).
Proof. intros i v o []. Qed.
Lemma shr_bind {A C} (P : wire A) (Q : A -> wire C) : shrinks P -> (forall a, shrinks (Q a)) -> shrinks (w_bind P Q).
Proof. intros HP HQ i v o (a & m & Pa & Qa). apply HP in Pa. apply HQ in Qa. lia. Qed.
Lemma shr_map {A C} (f : A -> C) P : shrinks P -> shrinks (w_map f P).
Proof. intros H i v o (a & Pa & ->). apply H in Pa. lia. Qed.
Lemma wp_bit : wpays w_bit (fun _ => 1).
Proof. intros i v o ->. cbn [length]. lia. Qed.
Lemma wp_uint n : wpays (w_uint n) (fun _ => Z.of_nat n).
Proof. intros i v o [_ ->]. rewrite app_length, enc_bits_length. lia. Qed.
Lemma wp_int n : wpays (w_int n) (fun _ => Z.of_nat n).
Proof. intros i v o [_ ->]. rewrite app_length, enc_bits_length. lia. Qed.
Lemma enc_bytes_len l : len (enc_bytes l) = 8 * len l.
Proof.
  unfold enc_bytes. induction l as [|b l IH]; [reflexivity|].
  cbn [map concat]. rewrite app_length, enc_bits_length. cbn [length]. lia.
Qed.
Lemma wp_bytes n : wpays (w_bytes n) (fun l => 8 * len l).
Proof. intros i v o [_ ->]. rewrite app_length. pose proof (enc_bytes_len v). lia. Qed.
Lemma shr_bounded max : shrinks (w_bounded max).
Proof. intros i v o [_ ->]. rewrite app_length. lia. Qed.
Lemma wp_times {A} (P : wire A) w n : wpays P w -> wpays (w_times n P) (total w).
Proof.
  intros H. induction n as [|n IH]; intros i v o.
  - intros [-> ->]. rewrite total_nil. lia.
  - intros (x & m & Px & xs & m' & Pxs & -> & ->). apply H in Px. apply IH in Pxs. rewrite total_cons. lia.
Qed.

Lemma shr_velocity net : shrinks (w_vec3f net) -> shrinks (w_velocity net).
Proof.
  intros H i [v|] o; cbn [w_velocity]; [intros K; apply H in K; lia|].
  intros [[_ ->]|(_ & s & K & _)]; [lia|]. apply shr_bounded in K. lia.
Qed.
Lemma shr_local_name : wpays w_local_name text_size.
Proof.
  intros i s o (cs & U & _ & _ & K). apply utf8_len in U. unfold text_size.
  assert (E : len (concat (map (enc_bits 8) cs)) = 8 * len cs).
  { clear. induction cs as [|c cs IH]; [reflexivity|]. cbn [map concat]. rewrite app_length, enc_bits_length. cbn [length]. lia. }
  destruct K as [[_ ->]|[_ ->]]; rewrite !app_length, ?enc_bits_length; lia.
Qed.

Ltac shrink :=
  repeat first
    [ apply shr_ret | apply shr_none | apply shr_bounded | apply shr_map | apply shr_velocity
    | apply (wp_weaken _ _ _ wp_bit); intros; lia
    | apply (wp_weaken _ _ _ (wp_uint _)); intros; lia
    | apply (wp_weaken _ _ _ (wp_int _)); intros; lia
    | apply shr_bind; [|intros ?]
    | match goal with |- wpays (if ?c then _ else _) _ => destruct c end
    | progress unfold w_f32, w_u32, w_opt, w_when, w_component, w_vec3i, w_vec3f, w_rotation, w_quat_old, w_quat_new,
        w_active, w_explosion, w_loadout
    | progress cbv zeta ].

Lemma wp_text : wpays w_text text_size.
Proof.
  intros i v o (n & m & H & K). apply wp_int in H.
  assert (text_size v + len o <= len m); [|lia].
  destruct (n =? 0); [destruct K as [-> ->]; cbn; lia|].
  destruct (0 <? n); [destruct (n <=? 1024)|destruct (- n <=? 512)]; try destruct K; destruct H0 as [H0 W];
    apply wp_bytes in H0; unfold text_size.
  - apply windows1252_len in W. pose proof (removelast_len x). lia.
  - apply utf16_len in W. pose proof (removelast_len x). pose proof (removelast_len (removelast x)). lia.
Qed.

Lemma before_nul_len l : len (before_nul l) <= len l.
Proof. induction l as [|b l IH]; [reflexivity|]. cbn [before_nul length]. destruct b; cbn [length]; lia. Qed.

Lemma wp_remote net sys : wpays (w_remote net sys) remote_size.
Proof.
  assert (Z0 : forall (f : Z -> remote_id) n, (forall x, remote_size (f x) = 0) -> wpays (w_map f (w_uint n)) remote_size).
  { intros f n F i v o (a & H & ->). apply wp_uint in H. rewrite F. lia. }
  unfold w_remote. repeat match goal with |- wpays match ?x with _ => _ end _ => destruct x end;
    try (intros i v o []; fail); try (apply Z0; reflexivity).
  all: intros i v o H.
  all: repeat match goal with
       | H : w_bind _ _ _ _ _ |- _ => destruct H as (? & ? & ? & H)
       | H : w_ret _ _ _ _ |- _ => destruct H as [-> ->]
       | H : w_map _ _ _ _ _ |- _ => destruct H as (? & H & ->)
       | H : w_such _ _ _ _ _ |- _ => destruct H as (? & H & ?)
       | H : w_uint _ _ _ _ |- _ => apply wp_uint in H
       | H : w_bytes _ _ _ _ |- _ => apply wp_bytes in H
       | H : w_text _ _ _ |- _ => apply wp_text in H
       | H : windows1252 (before_nul ?l) _ |- _ => apply windows1252_len in H; pose proof (before_nul_len l)
       end; unfold remote_size, text_size, bytes_size in *; lia.
Qed.
Lemma wp_unique_tail net sys : wpays (w_unique_tail net sys) unique_size.
Proof.
  intros i v o (r & m & H & l & m' & K & -> & ->). apply wp_remote in H. apply wp_uint in K.
  unfold unique_size. cbn [ui_remote_id]. lia.
Qed.
Lemma wp_unique net : wpays (w_unique net) unique_size.
Proof. intros i v o (s & m & H & K). apply wp_uint in H. apply wp_unique_tail in K. lia. Qed.

Lemma wp_product P : wpays (w_product P) product_size.
Proof.
  intros i v o (u & m & H & ob & m' & K & x & m'' & J & -> & ->). apply wp_bit in H. apply wp_int in K.
  unfold product_size. cbn [pr_value].
  assert (match x with PVTitle s => text_size s | _ => 0 end + len m'' <= len m'); [|lia].
  clear H K. unfold w_product_value in J. cbv zeta in J.
  repeat match type of J with (if ?c then _ else _) _ _ _ => destruct c end;
    first [destruct J as (s & J & ->); try apply wp_text in J; try apply wp_uint in J; try apply shr_bounded in J; lia
          |destruct J as [-> ->]; lia|idtac].
  destruct J as (c & m1 & J & -> & ->).
  assert (T : shrinks (w_opt (w_uint 31))) by shrink. apply T in J. destruct c; lia.
Qed.
Lemma wp_online P : wpays (w_online P) online_size.
Proof.
  intros i v o (n & m & H & K). apply wp_uint in H. unfold online_size.
  apply (wp_times _ (fun x => 1 + total product_size x)) in K; [lia|].
  intros i' v' o' (k & m' & H' & K'). apply wp_uint in H'. apply (wp_times _ _ _ (wp_product P)) in K'. lia.
Qed.

Lemma wp_attribute D tag : wpays (w_attribute D tag) attribute_size.
Proof.
  intros i v o H.
  assert (U : forall n, wpays (w_unique n) unique_size) by (intros; apply wp_unique).
  assert (Z0 : wpays (w_attribute D tag) (fun _ => 0) -> attribute_size v = 0 -> attribute_size v + len o <= len i).
  { intros S E. apply S in H. lia. }
  destruct tag; cbn [w_attribute] in H; cbv zeta in H.
  all: try (apply Z0; [cbn [w_attribute]; cbv zeta; solve [shrink]|]; clear Z0;
            repeat match goal with
            | H : w_bind _ _ _ _ _ |- _ => destruct H as (? & ? & ? & H)
            | H : w_ret _ _ _ _ |- _ => destruct H as [-> _]
            | H : w_map _ _ _ _ _ |- _ => destruct H as (? & H & ->)
            | H : w_none _ _ _ |- _ => destruct H
            | H : (if ?c then _ else _) _ _ _ |- _ => destruct c
            end; reflexivity); clear Z0.
  all: repeat match goal with
       | H : w_bind _ _ _ _ _ |- _ => destruct H as (? & ? & ? & H)
       | H : w_ret _ _ _ _ |- _ => destruct H as [-> ->]
       | H : w_map _ _ _ _ _ |- _ => destruct H as (? & H & ->)
       | H : (if ad_is_rl_223 ?D then _ else _) _ _ _ |- _ => destruct (ad_is_rl_223 D)
       | H : (if ?s =? 0 then _ else _) _ _ _ |- _ => destruct (s =? 0)
       | H : w_bit _ _ _ |- _ => apply wp_bit in H
       | H : w_u32 _ _ _ |- _ => apply wp_uint in H
       | H : w_uint _ _ _ _ |- _ => apply wp_uint in H
       | H : w_bytes _ _ _ _ |- _ => apply wp_bytes in H
       | H : w_text _ _ _ |- _ => apply wp_text in H
       | H : w_unique _ _ _ _ |- _ => apply wp_unique in H
       | H : w_unique_tail _ _ _ _ _ |- _ => apply wp_unique_tail in H
       | H : w_online _ _ _ _ |- _ => apply wp_online in H
       end;
       cbn [attribute_size maybe rv_unique_id rv_name pm_mutators pm_game_name pm_password lso_blue lso_orange rs_name]; try lia.
  (* reservations *)
  assert (T : shrinks (w_when (at_least (ad_version D) 868 12 0) (w_uint 6))) by shrink.
  match goal with H : w_when _ _ _ _ _ |- _ => apply T in H end.
  match goal with H : w_reservation_name ?u ?a ?s ?b |- _ =>
    assert (maybe text_size s + len b <= len a); [|lia]; clear -H; rename H into HN; unfold w_reservation_name in HN end.
  destruct (ui_system_id _ =? 0).
  - assert (Q : forall a s b, w_map Some w_local_name a s b -> maybe text_size s + len b <= len a).
    { intros a s b (x & K & ->). apply shr_local_name in K. exact K. }
    destruct (ui_remote_id _) as [? ? ?|? ?|[| |]|?|? ?|?|?|?]; try (now apply Q in HN).
    destruct HN as [-> ->]. cbn [maybe]. lia.
  - destruct HN as (x & K & ->). apply wp_text in K. exact K.
Qed.

(** ** Frames *)

Definition update_size (u : updated_attribute) : Z := 1 + attribute_size (u_attribute u).
Definition record_size (r : record) : Z :=
  match r with RNew _ => 1 | RDelete _ => 1 | RUpdate _ us => total update_size us end.

Lemma wp_many {A} (P : wire A) w : wpays P w -> wpays (w_many P) (total (fun x => 1 + w x)).
Proof.
  intros H i v o K. induction K as [o|i x m xs o Hx _ IH]; [rewrite total_nil; cbn [length]; lia|].
  apply H in Hx. rewrite total_cons. cbn [length]. lia.
Qed.

Section Grammar.
Context (e : net_env).

Lemma wp_new id : shrinks (w_new e id).
Proof.
  intros i v o (name & i1 & b & i2 & obj & i3 & cls & sp & t & H1 & H2 & H3 & _ & _ & H4 & _).
  assert (T : shrinks (w_when (e_names e) (w_int 32))) by shrink. apply T in H1. apply wp_bit in H2. apply wp_int in H3.
  assert (T' : shrinks (w_trajectory sp (e_net e))) by (destruct sp; cbn [w_trajectory]; shrink). apply T' in H4. lia.
Qed.
Lemma wp_update id cls : wpays (w_update e id cls) (fun u => attribute_size (u_attribute u)).
Proof.
  intros i v o (bound & s & i1 & p & pn & tag & a & _ & H1 & _ & _ & _ & H2 & ->).
  apply shr_bounded in H1. apply wp_attribute in H2. cbn [u_attribute]. lia.
Qed.
Lemma wp_record h : wpays (w_record e h) record_size.
Proof.
  intros i r o (id & i1 & H & K).
  assert (T : shrinks (w_actor_id e)) by (unfold w_actor_id; shrink). apply T in H.
  destruct r as [a|id'|id' us]; cbn [record_size].
  - destruct K as (i2 & -> & K). apply wp_new in K. cbn [length] in *. lia.
  - destruct K as (_ & ->). cbn [length] in *. lia.
  - destruct K as (_ & i2 & obj & cls & -> & _ & _ & K). apply (wp_many _ _ (wp_update id cls)) in K.
    cbn [length] in *. change (total update_size us + len o <= len i2) in K. lia.
Qed.
Lemma wp_records h : wpays (w_records e h) (total record_size).
Proof.
  intros i rs o H. induction H as [h o|h i r m rs o Hr _ IH]; [rewrite total_nil; cbn [length]; lia|].
  apply wp_record in Hr. rewrite total_cons. cbn [length]. lia.
Qed.

Lemma frame_of_size t d rs : frame_size (frame_of t d rs) = 1 + total record_size rs.
Proof.
  unfold frame_size, frame_of. cbn [f_new_actors f_deleted_actors f_updated_actors].
  induction rs as [|r rs IH]; [reflexivity|]. cbn [flat_map]. rewrite !app_length, total_app, total_cons.
  fold update_size in *. change (fun u => 1 + attribute_size (u_attribute u)) with update_size in *.
  destruct r as [a|id|id us]; cbn [new_of deleted_of updated_of record_size length]; rewrite ?total_nil; lia.
Qed.

Lemma wp_frames n : forall h i xs, w_frames e n h i xs -> total (fun x => frame_size (to_frame x)) xs <= len i.
Proof.
  intros h i xs H. induction H as [h i|n h|n h i t i1 d o _ _ _ _|n h i t d rs m fs H _ IH]; try (rewrite total_nil; lia).
  destruct H as (i1 & i2 & H1 & H2 & _ & _ & _ & H3). apply wp_uint in H1, H2. apply wp_records in H3.
  rewrite total_cons. cbn [to_frame]. rewrite frame_of_size. lia.
Qed.
End Grammar.

Lemma total_map {A C} (f : A -> C) w l : total w (map f l) = total (fun x => w (f x)) l.
Proof. induction l as [|x l IH]; [reflexivity|]. cbn [map]. rewrite !total_cons, IH. reflexivity. Qed.

Lemma frames_paid h b xs : frames_of h b xs -> total frame_size (map to_frame xs) <= 8 * len (b_network_data b).
Proof.
  intros (_ & count & _ & H). rewrite total_map. destruct (int_of count); [|subst xs; rewrite total_nil; lia].
  destruct H as (_ & e & _ & H). apply wp_frames in H. now rewrite enc_bytes_len in H.
Qed.

Lemma replay_paid B (HB : bitter_ok B) ho (Hho : hash_order_ok ho) c n data r :
  lenZ data < 2 ^ 31 -> parse_with B ho c n data = Ok r -> replay_size r <= 8 * lenZ data.
Proof.
  intros L E.
  assert (Q : exists h b rest, f_file data (h, b) rest /\ r = replay_of h b (r_network_frames r) /\
    maybe (total frame_size) (r_network_frames r) <= 8 * len (b_network_data (sec_value b))).
  { destruct (r_network_frames r) as [fs|] eqn:Ef.
    - destruct (parse_frames_inv B HB ho Hho _ _ _ _ _ L E Ef) as (h & b & rest & xs & F & Er & X & ->).
      exists h, b, rest. split; [exact F|]. split; [exact Er|]. apply frames_paid in X. exact X.
    - destruct (parse_ok_file B ho _ _ _ _ L E) as (h & b & rest & F & Er). rewrite Ef in Er.
      exists h, b, rest. split; [exact F|]. split; [exact Er|]. cbn [maybe]. lia. }
  destruct Q as (h & b & rest & (h' & o & Sh & b' & o' & Sb & [= -> ->] & ->) & Er & Q). rewrite Er.
  apply (fp_section _ _ fp_header) in Sh. apply (fp_section _ _ fp_body) in Sb.
  unfold replay_size. cbn [replay_of r_game_type r_properties r_network_frames r_levels r_keyframes r_debug_info
    r_tick_marks r_packages r_objects r_names r_class_indices r_net_cache].
  unfold lenZ. lia.
Qed.
