(** * How many bits the parts of a frame take at least *)

From Coq Require Import ZArith List Bool Lia ZifyBool ZifyNat.
From Verif Require Import Base F32 NetTypes Errors Core Header Body Attributes BitReader ObjectIndex Network Parser
  SpecText Wire SpecBasic SpecNet SpecFrames SpecFile SpecReplay SpecSize BitLemmas ReaderLogic LeafProofs FileFacts ParseProofs SizeProofs.
Open Scope Z_scope.

(** two for a product *)
Definition product_bits (p : product) : Z := 1 + product_size p.
Definition online_bits (l : list (list product)) : Z := total (fun x => 1 + total product_bits x) l.

Definition attribute_bits (a : attribute) : Z :=
  match a with
  | ABoolean _ => 1
  | AGameMode _ _ | APickup _ => 2
  | ARotation _ => 3
  | ALocation _ => 6
  | ATeamLoadout _ | ALoadout _ | ADemolish _ | ADemolishExtended _ | ADemolishFx _ | ARigidBody _ | ACamSettings _ | ADamageState _
  | AAppliedDamage _ | AExplosion _ | AExtendedExplosion _ | AWelded _ | ATitle _ _ _ _ _ _ _ _ | APickupInfo _ | AInt64 _ | AQWord _ => 32
  | ALoadoutOnline l => 8 + online_bits l
  | ALoadoutsOnline l => 8 + online_bits (lso_blue l) + online_bits (lso_orange l)
  | _ => 8 + attribute_size a
  end.

Lemma bits_vec net : wpays (w_vec3f net) (fun _ => 6).
Proof.
  intros i v o (a & (s & m & H & x & m1 & Hx & y & m2 & Hy & z & m3 & Hz & -> & ->) & ->).
  assert (0 <= s) by apply H. apply shr_bounded in H.
  destruct Hx as (? & Hx & _), Hy as (? & Hy & _), Hz as (? & Hz & _). apply wp_uint in Hx, Hy, Hz. lia.
Qed.
Lemma bits_velocity net : shrinks (w_velocity net).
Proof. apply shr_velocity, (wp_weaken _ _ _ (bits_vec net)). intros. lia. Qed.
Lemma bits_opt {A} (P : wire A) : shrinks P -> wpays (w_opt P) (fun _ => 1).
Proof.
  intros H i v o (b & m & Hb & K). apply wp_bit in Hb. destruct b; [destruct K as (a & K & ->); apply H in K|destruct K as [-> ->]]; lia.
Qed.
Lemma bits_when {A} c (P : wire A) : shrinks P -> shrinks (w_when c P).
Proof. intros H i v o K. unfold w_when in K. destruct c; [destruct K as (a & K & ->); apply H in K|destruct K as [-> ->]]; lia. Qed.
Lemma shr_int n : shrinks (w_int n).
Proof. apply (wp_weaken _ _ _ (wp_int n)). intros. lia. Qed.
Lemma shr_uint n : shrinks (w_uint n).
Proof. apply (wp_weaken _ _ _ (wp_uint n)). intros. lia. Qed.
Lemma bits_rotation : wpays w_rotation (fun _ => 3).
Proof.
  intros i v o (y & m & H & p & m1 & H1 & r & m2 & H2 & -> & ->).
  apply (bits_opt _ (shr_int 8)) in H, H1, H2. lia.
Qed.
Lemma bits_active : wpays w_active (fun _ => 33).
Proof. intros i v o (a & m & H & x & m1 & H1 & -> & ->). apply wp_bit in H. apply wp_int in H1. lia. Qed.
Lemma bits_explosion net : wpays (w_explosion net) (fun _ => 33).
Proof.
  intros i v o (a & m & H & x & m1 & H1 & y & m2 & H2 & -> & ->). apply wp_bit in H. apply wp_int in H1. apply bits_vec in H2. lia.
Qed.
Lemma bits_loadout : wpays w_loadout (fun _ => 40).
Proof.
  intros i v o (a & m & H & x & m1 & H1 & K). apply wp_uint in H. apply wp_uint in H1.
  assert (Q : 0 + len o <= len m1); [|lia]. revert K.
  match goal with |- ?R m1 v o -> _ => assert (S : shrinks R) by shrink; apply S end.
Qed.
Lemma bits_quat (c : bool) : wpays (if c then w_quat_new else w_quat_old) (fun _ => 48).
Proof.
  destruct c; intros i v o H; unfold w_quat_new, w_quat_old in H;
    repeat match goal with
    | H : w_bind _ _ _ _ _ |- _ => destruct H as (? & ? & ? & H)
    | H : w_ret _ _ _ _ |- _ => destruct H as [_ ->]
    | H : w_uint _ _ _ _ |- _ => apply wp_uint in H
    end; lia.
Qed.
Lemma bits_unique_tail net sys : wpays (w_unique_tail net sys) (fun u => 8 + unique_size u).
Proof.
  intros i v o (r & m & H & l & m' & K & -> & ->). apply wp_remote in H. apply wp_uint in K.
  unfold unique_size. cbn [ui_remote_id]. lia.
Qed.
Lemma bits_unique net : wpays (w_unique net) (fun u => 16 + unique_size u).
Proof. intros i v o (s & m & H & K). apply wp_uint in H. apply bits_unique_tail in K. lia. Qed.
Lemma bits_text : wpays w_text (fun s => 32 + text_size s).
Proof.
  intros i v o (n & m & H & K). apply wp_int in H.
  assert (text_size v + len o <= len m); [|lia].
  destruct (n =? 0); [destruct K as [-> ->]; cbn; lia|].
  destruct (0 <? n); [destruct (n <=? 1024)|destruct (- n <=? 512)]; try destruct K; destruct H0 as [H0 W];
    apply wp_bytes in H0; unfold text_size.
  - apply windows1252_len in W. pose proof (removelast_len x). lia.
  - apply utf16_len in W. pose proof (removelast_len x). pose proof (removelast_len (removelast x)). lia.
Qed.
Lemma bits_product P : wpays (w_product P) product_bits.
Proof.
  intros i v o H. pose proof H as H0. unfold product_bits. 
  destruct H as (u & m & H & ob & m' & K & x & m'' & J & -> & ->). apply wp_bit in H. apply wp_int in K.
  unfold product_size. cbn [pr_value].
  assert (match x with PVTitle s => text_size s | _ => 0 end + len m'' <= len m'); [|lia].
  clear H K H0. unfold w_product_value in J. cbv zeta in J.
  repeat match type of J with (if ?c then _ else _) _ _ _ => destruct c end;
    first [destruct J as (s & J & ->); try apply wp_text in J; try apply wp_uint in J; try apply shr_bounded in J; lia
          |destruct J as [-> ->]; lia|idtac].
  destruct J as (c & m1 & J & -> & ->).
  assert (T : shrinks (w_opt (w_uint 31))) by shrink. apply T in J. destruct c; lia.
Qed.
Lemma bits_online P : wpays (w_online P) (fun l => 8 + online_bits l).
Proof.
  intros i v o (n & m & H & K). apply wp_uint in H. unfold online_bits.
  apply (wp_times _ (fun x => 1 + total product_bits x)) in K; [lia|].
  intros i' v' o' (k & m' & H' & K'). apply wp_uint in H'. apply (wp_times _ _ _ (bits_product P)) in K'. lia.
Qed.

Lemma bits_attribute D tag : wpays (w_attribute D tag) attribute_bits.
Proof.
  intros i v o H. pose proof H as H0. apply wp_attribute in H0.
  destruct tag; cbn [w_attribute] in H; cbv zeta in H.
  all: repeat match goal with
       | H : w_bind _ _ _ _ _ |- _ => destruct H as (? & ? & ? & H)
       | H : w_ret _ _ _ _ |- _ => destruct H as [-> ->]
       | H : w_map _ _ _ _ _ |- _ => destruct H as (? & H & ->)
       | H : w_none _ _ _ |- _ => destruct H
       | H : (if ad_is_rl_223 ?D then _ else _) _ _ _ |- _ => destruct (ad_is_rl_223 D)
       | H : (if at_least ?a ?b ?c ?d then _ else _) _ _ _ |- _ => destruct (at_least a b c d)
       | H : (if ?s =? 0 then _ else _) _ _ _ |- _ => destruct (s =? 0)
       | H : (if 7 <=? ?n then _ else _) _ _ _ |- _ => apply bits_quat in H
       | H : w_bit _ _ _ |- _ => apply wp_bit in H
       | H : w_f32 _ _ _ |- _ => apply wp_uint in H
       | H : w_u32 _ _ _ |- _ => apply wp_uint in H
       | H : w_uint _ _ _ _ |- _ => apply wp_uint in H
       | H : w_int _ _ _ _ |- _ => apply wp_int in H
       | H : w_bytes _ _ _ _ |- _ => apply wp_bytes in H
       | H : w_text _ _ _ |- _ => apply bits_text in H
       | H : w_vec3f _ _ _ _ |- _ => apply bits_vec in H
       | H : w_velocity _ _ _ _ |- _ => apply bits_velocity in H
       | H : w_rotation _ _ _ |- _ => apply bits_rotation in H
       | H : w_active _ _ _ |- _ => apply bits_active in H
       | H : w_explosion _ _ _ _ |- _ => apply bits_explosion in H
       | H : w_loadout _ _ _ |- _ => apply bits_loadout in H
       | H : w_opt (w_int _) _ _ _ |- _ => apply (bits_opt _ (shr_int _)) in H
       | H : w_when _ (w_uint _) _ _ _ |- _ => apply (bits_when _ _ (shr_uint _)) in H
       | H : w_when _ w_f32 _ _ _ |- _ => apply (bits_when _ _ (shr_uint _)) in H
       | H : w_unique _ _ _ _ |- _ => apply bits_unique in H
       | H : w_unique_tail _ _ _ _ _ |- _ => apply bits_unique_tail in H
       | H : w_online _ _ _ _ |- _ => apply bits_online in H
       end;
       cbn [attribute_bits attribute_size maybe rv_unique_id rv_name pm_mutators pm_game_name pm_password lso_blue lso_orange rs_name] in *; try lia.
  (* rigid bodies *)
  - match goal with H : (if ?b then _ else _) _ _ _ |- _ => destruct b end;
    repeat match goal with
       | H : w_bind _ _ _ _ _ |- _ => destruct H as (? & ? & ? & H)
       | H : w_ret _ _ _ _ |- _ => destruct H as [-> ->]
       | H : w_velocity _ _ _ _ |- _ => apply bits_velocity in H
    end; cbn [attribute_bits]; lia.
  (* reservations *)
  - match goal with H : w_reservation_name ?u ?a ?s ?b |- _ =>
      assert (maybe text_size s + len b <= len a); [|lia]; clear -H; rename H into HN; unfold w_reservation_name in HN end.
    destruct (ui_system_id _ =? 0).
    + assert (Q : forall a s b, w_map Some w_local_name a s b -> maybe text_size s + len b <= len a).
      { intros a s b (x & K & ->). apply shr_local_name in K. exact K. }
      destruct (ui_remote_id _) as [? ? ?|? ?|[| |]|?|? ?|?|?|?]; try (now apply Q in HN).
      destruct HN as [-> ->]. cbn [maybe]. lia.
    + destruct HN as (x & K & ->). apply wp_text in K. exact K.
Qed.

(** ** Frames *)

Definition update_bits (u : updated_attribute) : Z := 1 + attribute_bits (u_attribute u).
Definition record_bits (r : record) : Z :=
  match r with RNew _ => 33 | RDelete _ => 1 | RUpdate _ us => total update_bits us end.
Definition frame_bits (f : frame) : Z :=
  64 + 33 * len (f_new_actors f) + len (f_deleted_actors f) + total update_bits (f_updated_actors f).

Section Grammar.
Context (e : net_env).

Lemma bits_new id : wpays (w_new e id) (fun _ => 33).
Proof.
  intros i v o (name & i1 & b & i2 & obj & i3 & cls & sp & t & H1 & H2 & H3 & _ & _ & H4 & _).
  apply (bits_when _ _ (shr_int 32)) in H1. apply wp_bit in H2. apply wp_int in H3.
  assert (T' : shrinks (w_trajectory sp (e_net e))) by (destruct sp; cbn [w_trajectory]; shrink). apply T' in H4. lia.
Qed.
Lemma bits_update id cls : wpays (w_update e id cls) (fun u => attribute_bits (u_attribute u)).
Proof.
  intros i v o (bound & s & i1 & p & pn & tag & a & _ & H1 & _ & _ & _ & H2 & ->).
  apply shr_bounded in H1. apply bits_attribute in H2. cbn [u_attribute]. lia.
Qed.
Lemma bits_record h : wpays (w_record e h) record_bits.
Proof.
  intros i r o (id & i1 & H & K).
  assert (T : shrinks (w_actor_id e)) by (unfold w_actor_id; shrink). apply T in H.
  destruct r as [a|id'|id' us]; cbn [record_bits].
  - destruct K as (i2 & -> & K). apply bits_new in K. cbn [length] in *. lia.
  - destruct K as (_ & ->). cbn [length] in *. lia.
  - destruct K as (_ & i2 & obj & cls & -> & _ & _ & K). apply (wp_many _ _ (bits_update id cls)) in K.
    cbn [length] in *. change (total update_bits us + len o <= len i2) in K. lia.
Qed.
Lemma bits_records h : wpays (w_records e h) (total record_bits).
Proof.
  intros i rs o H. induction H as [h o|h i r m rs o Hr _ IH]; [rewrite total_nil; cbn [length]; lia|].
  apply bits_record in Hr. rewrite total_cons. cbn [length]. lia.
Qed.
Lemma frame_of_bits t d rs : frame_bits (frame_of t d rs) = 64 + total record_bits rs.
Proof.
  unfold frame_bits, frame_of. cbn [f_new_actors f_deleted_actors f_updated_actors].
  induction rs as [|r rs IH]; [reflexivity|]. cbn [flat_map]. rewrite !app_length, total_app, total_cons.
  destruct r as [a|id|id us]; cbn [new_of deleted_of updated_of record_bits length]; rewrite ?total_nil; lia.
Qed.
Lemma bits_frames n : forall h i xs, w_frames e n h i xs -> total (fun x => frame_bits (to_frame x)) xs <= len i.
Proof.
  intros h i xs H. induction H as [h i|n h|n h i t i1 d o _ _ _ _|n h i t d rs m fs H _ IH]; try (rewrite total_nil; lia).
  destruct H as (i1 & i2 & H1 & H2 & _ & _ & _ & H3). apply wp_uint in H1, H2. apply bits_records in H3.
  rewrite total_cons. cbn [to_frame]. rewrite frame_of_bits. lia.
Qed.
End Grammar.

Lemma frames_bits h b xs : frames_of h b xs -> total frame_bits (map to_frame xs) <= 8 * len (b_network_data b).
Proof.
  intros (_ & count & _ & H). rewrite total_map. destruct (int_of count); [|subst xs; rewrite total_nil; lia].
  destruct H as (_ & e & _ & H). apply bits_frames in H. now rewrite enc_bytes_len in H.
Qed.
