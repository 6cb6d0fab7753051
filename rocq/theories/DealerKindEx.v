(** Concrete considerate and inconsiderate histories. *)
From Verif Require Import Prelude Value Msg IdGen Types PathMatch Dealer DealerSpec DealerKind DealerFacts DealerEx.

Fixpoint following (rule : dtrace -> dop -> Prop) (tr : dtrace) (d : dealer) (h : dhist) : Prop :=
  match h with
  | [] => True
  | (o, op) :: h' => rule tr op
      /\ match dstep o d op with Ret d' out => following rule ((op, out) :: tr) d' h' | Crash _ => True end
  end.
Lemma following_sound rule h : following rule [] new_dealer h -> follows rule h.
Proof.
  intros Hp h1 o op h2 d outs -> Hr.
  assert (K : forall h1 d0 d outs tr, following rule tr d0 (h1 ++ (o, op) :: h2) -> drun d0 h1 = Ret d outs ->
     rule (rev (zip (map snd h1) outs) ++ tr) op).
  { clear. induction h1 as [|[o1 op1] h1 IH]; intros d0 d outs tr Hp Hr; cbn [drun app following] in *.
    - injection Hr as _ <-. apply Hp.
    - destruct Hp as [_ Hp]. destruct (dstep o1 d0 op1) as [d' r|w]; [|discriminate].
      destruct (drun d' h1) as [d2 rs|w] eqn:E; [|discriminate]. injection Hr as -> <-.
      specialize (IH _ _ _ _ Hp E). cbn [map snd zip zip_with rev]. by rewrite <- app_assoc. }
  unfold dtrace_of. specialize (K h1 new_dealer d outs [] Hp Hr). by rewrite app_nil_r in K.
Qed.
Lemma follows_any (rule : dtrace -> dop -> Prop) h : (forall tr, Forall (fun x => rule tr (snd x)) h) -> follows rule h.
Proof.
  intros H h1 o op h2 d outs -> _. specialize (H (dtrace_of h1 outs)). apply Forall_app in H as [_ H].
  by apply Forall_cons in H as [H _].
Qed.
Lemma listed_once tr sid p g : listed tr sid p g -> exists pol, once_registered tr sid p pol g.
Proof.
  induction tr as [|e tr IH]; [done|]. intros [[pol H]|[H _]].
  - exists pol, e. split; [by left|done].
  - destruct (IH H) as (pol & e' & Hin & H'). exists pol, e'. split; [by right|done].
Qed.

(** 1 and 2 share "p"; 1 gives it up while 2 holds it, 3 joins, 2 leaves; then 3
    gives it up as the last one, and 2 comes back and registers it alone. *)
Definition h_kind : dhist := hist
  [DAdd (peer 1); DAdd (peer 2); DAdd (peer 3); dreg 1 11 "p" rr; dreg 2 12 "p" rr; dunreg 1 13 1;
   dreg 3 14 "p" rr; dcall 3 15 "p" []; DRemove 2; dunreg 3 16 1; DAdd (peer 2); dreg 2 17 "p" []; dcall 1 18 "p" []].

(** One crash for every rule. *)
Definition h_rude (x : crule) : dhist :=
  match x with
  | NoRejoin => hist [DAdd (peer 1); DAdd (peer 2); DAdd (peer 3); dreg 1 10 "p" rr; dreg 2 11 "p" rr;
      dreg 1 12 "p" rr; DRemove 1; dcall 3 20 "p" []]
  | OnlyHeld => hist [DAdd (peer 1); dreg 1 10 "p" []; dunreg 1 11 99]
  | KnownCaller => hist [DAdd (peer 1); dreg 1 10 "p" []; DDisclose true; dcall 9 20 "p" []]
  end.
Ltac kind :=
  apply following_sound; vm_compute; repeat (match goal with
    | |- _ /\ _ => split
    | |- True => exact I
    | |- forall _ : crule, _ => intros []
    | |- context [match ?x with NoRejoin => _ | OnlyHeld => _ | KnownCaller => _ end] => destruct x
    | H : exists _, _ |- _ => destruct H
    | H : _ /\ _ |- _ => destruct H
    | H : _ \/ _ |- _ => destruct H
    | H : False |- _ => destruct H
    | H : ?x <> ?x |- _ => by destruct H
    | H : ?x = ?y |- _ => first [discriminate H | injection H; clear H; intros; subst | subst]
    | |- _ -> _ => intros ?
    end); try tauto; try congruence.
Lemma rude_panics x : considerate_but x (h_rude x) /\ exists w, drun new_dealer (h_rude x) = Crash w.
Proof.
  split; [|apply panicked; by destruct x; vm_compute].
  destruct x; kind.
Qed.
Lemma h_kind_considerate : considerate_history h_kind.
Proof. kind. all: left; exists "p"%string; own. Qed.
Lemma h_kind_impolite : ~ polite_history h_kind.
Proof.
  intros H. specialize (H (take 5 h_kind) e0 (dunreg 1 13 1) (drop 6 h_kind) _ _ eq_refl (ran (take 5 h_kind) eq_refl)).
  change (polite (trace (take 5 h_kind)) (dunreg 1 13 1)) in H.
  destruct H as [(p & _ & H)|H].
  - assert (K : 2 = 1); [|discriminate K]. apply (H 2 "p"%string). own.
  - apply (H "p"%string 1). own.
Qed.

(** After [h_stale], session 4 registers "s", which 1 tries to share in vain. *)
Definition never_sharedb (tr : dtrace) (p : string) : bool :=
  forallb (fun e => match e with
    | (DReceive _ (MRegister m), DMsg (MRegistered _) _) =>
        negb (String.eqb (rg_procedure m) p) || String.eqb (invoke_policy m) "" || String.eqb (invoke_policy m) "single"
    | _ => true
    end) tr.
Lemma never_sharedb_sound tr p : never_sharedb tr p = true -> never_shared tr p.
Proof.
  unfold never_sharedb. rewrite forallb_forall. intros H s m a to Hin Hp. apply elem_of_list_In, H in Hin.
  apply orb_true_iff in Hin as [Hin|Hin]; [apply orb_true_iff in Hin as [Hin|Hin]|].
  - rewrite Hp, String.eqb_refl in Hin. discriminate.
  - left. by apply String.eqb_eq.
  - right. by apply String.eqb_eq.
Qed.
Definition h_alone : dhist := (h_stale ++ hist [dreg 4 17 "s" []; dreg 1 18 "s" rr; dreg 1 19 "s" []])%list.
