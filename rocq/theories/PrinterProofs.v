(** * Proofs: printed texts *)

From Coq Require Import ZArith List Bool Lia.
From Verif Require Import Base F32 Text TextProofs Errors ObjectIndex BitReader Parser Json JsonNet JsonReplay JsonText SpecBasic SpecText SpecFacts
  SpecReplay SpecJson SpecAlike SpecJsonText MagnitudeProofs NumberTextProofs JsonTextProofs FloatBits AlikeProofs ReaderLogic CacheProofs.
Open Scope Z_scope.

(** ** Texts *)

Lemma escape_text b : char_text (escape b) [b].
Proof.
  unfold escape. pose proof (byteZ_range b) as R. change (byteZ b) with (Z.of_N (Byte.to_N b)) in *. set (x := Z.of_N (Byte.to_N b)) in *.
  assert (S : forall c v, In (c, v) [(x22, 34); (x5c, 92); (x2f, 47); (x62, 8); (x66, 12); (x6e, 10); (x72, 13); (x74, 9)] -> x = v -> char_text [x5c; c] [b]).
  { intros c v I E. apply (ct_short c v I). exact E. }
  destruct (Z.eqb_spec x 34); [eapply S; [|eassumption]; cbn [In]; tauto|].
  destruct (Z.eqb_spec x 92); [eapply S; [|eassumption]; cbn [In]; tauto|].
  destruct (Z.eqb_spec x 8); [eapply S; [|eassumption]; cbn [In]; tauto|].
  destruct (Z.eqb_spec x 12); [eapply S; [|eassumption]; cbn [In]; tauto|].
  destruct (Z.eqb_spec x 10); [eapply S; [|eassumption]; cbn [In]; tauto|].
  destruct (Z.eqb_spec x 13); [eapply S; [|eassumption]; cbn [In]; tauto|].
  destruct (Z.eqb_spec x 9); [eapply S; [|eassumption]; cbn [In]; tauto|].
  destruct (Z.ltb_spec x 32); [|apply ct_plain; assumption].
  apply (ct_unit x).
  - exists x30, x30, (hex_digit (x / 16)), (hex_digit (x mod 16)), 0, 0, (x / 16), (x mod 16).
    assert (H1 : 0 <= x / 16 < 2) by (split; [apply Z.div_pos; lia|apply Z.div_lt_upper_bound; lia]).
    pose proof (Z.mod_pos_bound x 16 ltac:(lia)) as H2. pose proof (Z.div_mod x 16 ltac:(lia)) as H3.
    assert (HX : forall d, 0 <= d < 16 -> hex_value (hex_digit d) d).
    { intros d Hd. unfold hex_value, hex_digit. change (fun b => Z.of_N (Byte.to_N b)) with byteZ.
      assert (E : Z.of_N (Byte.to_N (byte_of_Z (if d <? 10 then 48 + d else 87 + d))) = if d <? 10 then 48 + d else 87 + d).
      { apply byteZ_of_Z. destruct (Z.ltb_spec d 10); lia. }
      rewrite E. destruct (Z.ltb_spec d 10); lia. }
    split; [reflexivity|]. split; [left; codes; lia|]. split; [left; codes; lia|]. split; [apply HX; lia|]. split; [apply HX; lia|]. lia.
  - lia.
  - apply utf8_one_char. split; [unfold scalar, surrogate; lia|]. unfold utf8_char.
    destruct (Z.ltb_spec x 128); [|lia]. f_equal. apply byteZ_inj. rewrite byteZ_of_Z by lia. reflexivity.
Qed.

Lemma quote_text s : string_text s (quote s).
Proof.
  exists (flat_map escape s). split; [|reflexivity]. induction s as [|b s IH]; [constructor|].
  change (b :: s) with ([b] ++ s). cbn [flat_map]. apply (cs_cons (escape b) [b]); [apply escape_text|exact IH].
Qed.

(** ** Layout *)

Lemma line_spaces l d : spaces (new_line l d).
Proof.
  destruct l; [constructor|]. cbn [new_line]. constructor; [codes; tauto|].
  induction d as [|d IH]; cbn [repeat concat]; [constructor|]. apply Forall_app. split; [|exact IH].
  change (lit "  ") with [x20; x20]. repeat constructor.
Qed.
Lemma nil_spaces : spaces [].
Proof. constructor. Qed.
Lemma colon_spaces l : exists w, colon l = ":"%byte :: w /\ spaces w.
Proof. destruct l; [exists []|exists [x20]]; split; try reflexivity; repeat constructor. Qed.

Lemma items_printed w w' : spaces w -> spaces w' -> forall js j t ts, value_text j t -> Forall2 value_text js ts ->
  items_text (j :: js) (w ++ t ++ flat_map (fun q => lit "," ++ w ++ q) ts ++ w').
Proof.
  intros S S'. induction js as [|j' js IH]; intros j t ts H F; inversion F as [|x y l l' H1 H2]; subst; cbn [flat_map app].
  - now apply it_last.
  - change (lit ",") with [","%byte]. cbn [app]. rewrite <- !app_assoc. apply (it_more j t w []); [exact S|apply nil_spaces|exact H|].
    now apply IH.
Qed.
Definition entry_text (l : layout) (kv : str * json) (t : str) : Prop :=
  exists u, value_text (snd kv) u /\ t = quote (fst kv) ++ colon l ++ u.
Lemma member_printed l w w' k j u : spaces w -> spaces w' -> value_text j u -> member_text k j (w ++ (quote k ++ colon l ++ u) ++ w').
Proof.
  intros S S' H. destruct (colon_spaces l) as (v & -> & Sv).
  pose proof (mb k j (quote k) u w [] v w' S nil_spaces Sv S' (quote_text k) H) as M. cbn [app] in M.
  rewrite <- !app_assoc. cbn [app]. exact M.
Qed.
Lemma members_printed l w w' : spaces w -> spaces w' -> forall js kv t ts, entry_text l kv t -> Forall2 (entry_text l) js ts ->
  members_text (kv :: js) (w ++ t ++ flat_map (fun q => lit "," ++ w ++ q) ts ++ w').
Proof.
  intros S S'. induction js as [|kv' js IH]; intros [k j] t ts (u & H & ->) F; inversion F as [|x y l0 l' H1 H2]; subst; cbn [flat_map app fst snd] in *.
  - apply mt_last. now apply member_printed.
  - change (lit ",") with [","%byte]. cbn [app]. rewrite <- !app_assoc.
    pose proof (mt_more k j (w ++ (quote k ++ colon l ++ u) ++ []) (kv' :: js) (w ++ y ++ flat_map (fun q => lit "," ++ w ++ q) l' ++ w')
      (member_printed l w [] k j u S nil_spaces H) (IH kv' y l' H1 H2)) as M.
    change (lit ",") with [","%byte] in M. cbn [app] in M. rewrite app_nil_r, <- !app_assoc in M. exact M.
Qed.

(** ** Values *)

Section Nested.
Context (P : json -> Prop) (Hnull : P JNull) (Hbool : forall b, P (JBool b)) (Hint : forall x, P (JInt x)) (Hf32 : forall x, P (JF32 x))
  (Hstr : forall s, P (JStr s)) (Harr : forall l, Forall P l -> P (JArr l)) (Hobj : forall l, Forall (fun kv => P (snd kv)) l -> P (JObj l)).
Fixpoint json_nested (j : json) : P j :=
  match j with
  | JNull => Hnull
  | JBool b => Hbool b
  | JInt x => Hint x
  | JF32 x => Hf32 x
  | JStr s => Hstr s
  | JArr l => Harr l ((fix go (l : list json) : Forall P l :=
      match l with [] => Forall_nil _ | x :: t => Forall_cons x (json_nested x) (go t) end) l)
  | JObj l => Hobj l ((fix go (l : list (str * json)) : Forall (fun kv => P (snd kv)) l :=
      match l with [] => Forall_nil _ | x :: t => Forall_cons x (json_nested (snd x)) (go t) end) l)
  end.
End Nested.

Section Printer.
Context (show : f32 -> str) (Hshow : forall x, is_u32 x -> finite x -> float_text x (show x)).

Lemma printed_value l j : writable j -> forall d, value_text j (json_text show l d j).
Proof.
  induction j as [|b|x|x|s|a IH|o IH] using json_nested; intros W d; cbn [json_text].
  - constructor.
  - destruct b; constructor.
  - destruct (int_number x) as (neg & c & e & N & ->). eapply vt_int; exact N.
  - inversion W; subst. constructor. auto.
  - constructor. apply quote_text.
  - inversion W as [| | | | |a' Wa|]; subst. unfold bracket.
    assert (F : Forall2 value_text a (map (json_text show l (S d)) a)).
    { clear W. induction IH as [|x a H _ IHa]; [constructor|]. inversion Wa; subst. constructor; auto. }
    destruct a as [|x a]; cbn [map] in *; [apply (vt_arr0 []), nil_spaces|].
    inversion F as [|? ? ? ? H1 H2]; subst.
    pose proof (vt_arr _ _ (items_printed _ _ (line_spaces l (S d)) (line_spaces l d) a x _ _ H1 H2)) as V.
    change (lit "[") with ["["%byte]. change (lit "]") with ["]"%byte]. cbn [app]. rewrite <- !app_assoc in V. exact V.
  - inversion W as [| | | | | |o' Wo]; subst. unfold bracket.
    set (f := fun kv : str * json => match kv with (k, v) => quote k ++ colon l ++ json_text show l (S d) v end).
    assert (F : Forall2 (entry_text l) o (map f o)).
    { clear W. induction IH as [|[k x] o H _ IHo]; [constructor|]. inversion Wo; subst. constructor; auto.
      exists (json_text show l (S d) x). split; [now apply H|reflexivity]. }
    destruct o as [|x o]; cbn [map] in *; [apply (vt_obj0 []), nil_spaces|].
    inversion F as [|? ? ? ? H1 H2]; subst.
    pose proof (vt_obj _ _ (members_printed l _ _ (line_spaces l (S d)) (line_spaces l d) o x _ _ H1 H2)) as V.
    change (lit "{") with ["{"%byte]. change (lit "}") with ["}"%byte]. cbn [app]. rewrite <- !app_assoc in V. exact V.
Qed.
Lemma printed_document l j d : writable j -> json_document j (json_text show l d j).
Proof.
  intros W. exists [], (json_text show l d j), []. split; [apply nil_spaces|]. split; [apply nil_spaces|].
  split; [now apply printed_value|]. rewrite app_nil_r. reflexivity.
Qed.
End Printer.
