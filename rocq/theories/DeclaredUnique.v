(** * Proofs: the declared type and the [Debug] value determine the JSON value *)

From Coq Require Import ZArith List Bool String Lia.
From Verif Require Import Base F32 Json Debug SpecBasic SpecDecimal SpecJson SpecDeclared DisplayUnique.
Import ListNotations.
Open Scope Z_scope.

Lemma lit_inj a b : lit a = lit b -> a = b.
Proof. intros H. rewrite <- (string_of_list_byte_of_string a), <- (string_of_list_byte_of_string b). unfold lit in H. now rewrite H. Qed.

(** ** Names are declared once *)

Fixpoint distinct (l : list string) : bool := match l with [] => true | a :: t => negb (existsb (String.eqb a) t) && distinct t end.
Lemma distinct_fun {A} (l : list (string * A)) n a b : distinct (map fst l) = true -> In (n, a) l -> In (n, b) l -> a = b.
Proof.
  assert (N : forall m x t, existsb (String.eqb m) (map fst (t : list (string * A))) = false -> In (m, x) t -> False).
  { intros m x t H I. apply (in_map fst) in I. cbn [fst] in I.
    assert (existsb (String.eqb m) (map fst t) = true) by (apply existsb_exists; exists m; split; [exact I|apply String.eqb_refl]). congruence. }
  induction l as [|[k c] t IH]; cbn [map fst distinct In]; [contradiction|]. rewrite andb_true_iff, negb_true_iff.
  intros [D D'] [[= -> ->]|I] [E|J].
  - congruence.
  - exfalso. eapply N; eauto.
  - injection E as -> ->. exfalso. eapply N; eauto.
  - auto.
Qed.
Lemma declared_fun n a b : In (n, a) declared -> In (n, b) declared -> a = b.
Proof. apply distinct_fun. vm_compute. reflexivity. Qed.
Lemma variants_fun n vs v a b : In (n, Enum vs) declared \/ In (n, Untagged vs) declared -> In (v, a) vs -> In (v, b) vs -> a = b.
Proof.
  intros H. apply distinct_fun.
  assert (F : forallb (fun d => match snd d with Enum vs | Untagged vs => distinct (map fst vs) | _ => true end) declared = true) by (vm_compute; reflexivity).
  rewrite forallb_forall in F. destruct H as [H|H]; apply F in H; exact H.
Qed.

(** ** Values *)

Section Ind.
Context (P : dbg -> Prop) (Hi : forall x, P (DInt x)) (Hb : forall b, P (DBool b)) (Hf : forall x, P (DF32 x)) (Hs : forall s, P (DStr s))
  (Hn : forall n, P (DName n)) (Ht : forall n l, Forall P l -> P (DTuple n l)) (Hr : forall n l, Forall (fun kv => P (snd kv)) l -> P (DStruct n l))
  (Hl : forall l, Forall P l -> P (DList l)).
Fixpoint dbg_deep (d : dbg) : P d :=
  match d with
  | DInt x => Hi x
  | DBool b => Hb b
  | DF32 x => Hf x
  | DStr s => Hs s
  | DName n => Hn n
  | DTuple n l => Ht n l ((fix go l := match l return Forall P l with [] => Forall_nil _ | x :: t => Forall_cons x (dbg_deep x) (go t) end) l)
  | DStruct n l => Hr n l ((fix go l := match l return Forall (fun kv => P (snd kv)) l with [] => Forall_nil _ | x :: t => Forall_cons x (dbg_deep (snd x)) (go t) end) l)
  | DList l => Hl l ((fix go l := match l return Forall P l with [] => Forall_nil _ | x :: t => Forall_cons x (dbg_deep x) (go t) end) l)
  end.
End Ind.

Definition one_json (d : dbg) : Prop := forall t j j', describes t d j -> describes t d j' -> j = j'.

Lemma all_fun l : Forall one_json l -> forall ts m m', describes_all ts l m -> describes_all ts l m' -> m = m'.
Proof.
  induction 1 as [|d l H _ IH]; intros ts m m' A A'; inversion A; subst; inversion A'; subst; [reflexivity|].
  f_equal; [eapply H; eassumption|eapply IH; eassumption].
Qed.
Lemma fields_fun l : Forall (fun kv => one_json (snd kv)) l -> forall fs m m', describes_fields fs l m -> describes_fields fs l m' -> m = m'.
Proof.
  induction 1 as [|d l H _ IH]; intros fs m m' A A'; inversion A; subst; inversion A'; subst; [reflexivity|].
  f_equal; [f_equal; eapply H; eassumption|eapply IH; eassumption].
Qed.
Lemma list_fun t l : Forall one_json l -> forall m m', Forall2 (describes t) l m -> Forall2 (describes t) l m' -> m = m'.
Proof.
  induction 1 as [|d l H _ IH]; intros m m' A A'; inversion A; subst; inversion A'; subst; [reflexivity|].
  f_equal; [eapply H; eassumption|eapply IH; eassumption].
Qed.

(** of a value and of the parts of a tuple *)
Definition deep (d : dbg) : Prop := one_json d /\ match d with DTuple _ l => Forall one_json l | _ => True end.
Lemma entries_fun t l : Forall deep l -> forall m m',
  Forall2 (fun a b => exists d, a = DTuple [] [DStr (fst b); d] /\ describes t d (snd b)) l m ->
  Forall2 (fun a b => exists d, a = DTuple [] [DStr (fst b); d] /\ describes t d (snd b)) l m' -> m = m'.
Proof.
  induction 1 as [|d l [_ H] _ IH]; intros m m' A A'; inversion A as [|? [k j] ? ? (e & E & D)]; subst; inversion A' as [|? [k' j'] ? ? (e' & E' & D')]; subst; [reflexivity|].
  cbn [fst snd] in *. injection E' as <- <-. f_equal; [|eapply IH; eassumption]. f_equal.
  inversion H as [|? ? _ H']; subst. inversion H' as [|? ? H'' _]; subst. eapply H''; eassumption.
Qed.

Ltac same := repeat match goal with
  | H : lit _ = lit _ |- _ => apply lit_inj in H; subst
  | H : In (?n, ?a) declared, K : In (?n, ?b) declared |- _ =>
      lazymatch a with b => fail | _ => let E := fresh in pose proof (declared_fun _ _ _ H K) as E; try discriminate E; injection E as ->; clear K end
  | D : In (?n, Enum ?vs) declared, H : In (?v, ?a) ?vs, K : In (?v, ?b) ?vs |- _ =>
      lazymatch a with b => fail | _ => let E := fresh in pose proof (variants_fun n vs v _ _ (or_introl D) H K) as E; try discriminate E; injection E as ->; clear K end
  | D : In (?n, Untagged ?vs) declared, H : In (?v, ?a) ?vs, K : In (?v, ?b) ?vs |- _ =>
      lazymatch a with b => fail | _ => let E := fresh in pose proof (variants_fun n vs v _ _ (or_intror D) H K) as E; try discriminate E; injection E as ->; clear K end
  end.
Lemma describes_fun_deep d : deep d.
Proof.
  induction d as [x|b|x|s|n|n l IH|n l IH|l IH] using dbg_deep; (split; [|try exact Logic.I]).
  - intros t j j' D D'. inversion D; subst; inversion D'; subst; try reflexivity; try lia; f_equal; eapply decimal_fun; eauto.
  - intros t j j' D D'. inversion D; subst; inversion D'; subst. reflexivity.
  - intros t j j' D D'. inversion D; subst; inversion D'; subst; try reflexivity; contradiction.
  - intros t j j' D D'. inversion D; subst; inversion D'; subst. reflexivity.
  - intros t j j' D D'. inversion D; subst; inversion D'; subst; same; reflexivity.
  - assert (IH1 : Forall one_json l) by (eapply Forall_impl; [|exact IH]; intros a [K _]; exact K).
    intros t j j' D D'. inversion D; subst; inversion D'; subst; same;
      try (inversion IH1; subst; match goal with K : one_json ?d |- _ => first [eapply K; eassumption | f_equal; f_equal; f_equal; eapply K; eassumption] end);
      try (cbn [List.length] in *; lia).
    do 4 f_equal. eapply all_fun; eassumption.
  - eapply Forall_impl; [|exact IH]; intros a [K _]; exact K.
  - assert (IH1 : Forall (fun kv => one_json (snd kv)) l) by (eapply Forall_impl; [|exact IH]; intros a [K _]; exact K).
    intros t j j' D D'. inversion D; subst; inversion D'; subst; same; f_equal; eapply fields_fun; eassumption.
  - assert (IH1 : Forall one_json l) by (eapply Forall_impl; [|exact IH]; intros a [K _]; exact K).
    intros t j j' D D'. inversion D; subst; inversion D'; subst; f_equal; first [eapply list_fun; eassumption | eapply entries_fun; eassumption].
Qed.
Theorem describes_fun t d j j' : describes t d j -> describes t d j' -> j = j'.
Proof. apply (describes_fun_deep d). Qed.
