(** Concrete dealer histories used by the examples and refutations. *)
From Verif Require Import Prelude Value Msg IdGen Types PathMatch Dealer DealerSpec DealerFacts.

Definition e0 : oracle := Oracle sh_id sh_id 0.
Definition e1 : oracle := Oracle sh_rev sh_rev 1.
Definition peer (n : N) : session_details :=
  new_session_details n "realm1" "john" "user" "ticket" false None None.
Definition opt (k v : string) : string * value := (k, VStr v).
Definition flag (k : string) : string * value := (k, VBool true).
Definition dreg (sid req : N) (p : string) (o : list (string * value)) : dop :=
  DReceive sid (MRegister (Register req (Some o) p)).
Definition dunreg (sid req id : N) : dop := DReceive sid (MUnregister (Unregister req id)).
Definition acall (req : N) (p : string) (o : list (string * value)) : call :=
  Call req (Some o) p (Some [VStr "hi"]) None no_bin.
Definition dcall (sid req : N) (p : string) (o : list (string * value)) : dop :=
  DReceive sid (MCall (acall req p o)).
Definition ayield (i : N) (o : list (string * value)) : yield := Yield i (Some o) (Some [VStr "yo"]) None no_bin.
Definition dyield (sid i : N) (o : list (string * value)) : dop := DReceive sid (MYield (ayield i o)).
Definition anerror (i : N) : error := Error 68 i None "app.error" None None.
Definition derr (sid i : N) : dop := DReceive sid (MError (anerror i)).

Definition hist (l : list dop) : dhist := map (pair e0) l.
Definition results (h : dhist) : list dout := match drun new_dealer h with Ret _ l => l | Crash _ => [] end.
Definition after (h : dhist) : dealer := match drun new_dealer h with Ret d _ => d | Crash _ => new_dealer end.
Definition panics (h : dhist) : bool := match drun new_dealer h with Ret _ _ => false | Crash _ => true end.
Definition trace (h : dhist) : dtrace := dtrace_of h (results h).

Lemma ran h : panics h = false -> drun new_dealer h = Ret (after h) (results h).
Proof. unfold panics, after, results. by destruct (drun new_dealer h). Qed.
Lemma panicked h : panics h = true -> exists w, drun new_dealer h = Crash w.
Proof. unfold panics. destruct (drun new_dealer h); [done|eauto]. Qed.
(** The result of one more call. *)
Definition next_result (h : dhist) (o : oracle) (op : dop) : option dout :=
  match dstep o (after h) op with Ret _ out => Some out | Crash _ => None end.
Definition next_after (h : dhist) (o : oracle) (op : dop) : dealer :=
  match dstep o (after h) op with Ret d _ => d | Crash _ => new_dealer end.
Lemma stepped h o op out : next_result h o op = Some out -> dstep o (after h) op = Ret (next_after h o op) out.
Proof. unfold next_result, next_after. by destruct (dstep o (after h) op); intros [= <-]. Qed.

(** Politeness of a concrete history. *)
Fixpoint polites (tr : dtrace) (d : dealer) (h : dhist) : Prop :=
  match h with
  | [] => True
  | (o, op) :: h' => polite tr op
      /\ match dstep o d op with Ret d' out => polites ((op, out) :: tr) d' h' | Crash _ => True end
  end.
Lemma polites_history h : polites [] new_dealer h -> polite_history h.
Proof.
  intros Hp h1 o op h2 d outs -> Hr.
  assert (K : forall h1 d0 d outs tr, polites tr d0 (h1 ++ (o, op) :: h2) -> drun d0 h1 = Ret d outs ->
     polite (rev (zip (map snd h1) outs) ++ tr) op).
  { clear. induction h1 as [|[o1 op1] h1 IH]; intros d0 d outs tr Hp Hr; cbn [drun app polites] in *.
    - injection Hr as _ <-. apply Hp.
    - destruct Hp as [_ Hp]. destruct (dstep o1 d0 op1) as [d' r|w]; [|discriminate].
      destruct (drun d' h1) as [d2 rs|w] eqn:E; [|discriminate]. injection Hr as -> <-.
      specialize (IH _ _ _ _ Hp E). cbn [map snd zip zip_with rev]. by rewrite <- app_assoc. }
  unfold dtrace_of. specialize (K h1 new_dealer d outs [] Hp Hr). by rewrite app_nil_r in K.
Qed.
Fixpoint simples (tr : dtrace) (d : dealer) (h : dhist) : Prop :=
  match h with
  | [] => True
  | (o, op) :: h' => simple tr op
      /\ match dstep o d op with Ret d' out => simples ((op, out) :: tr) d' h' | Crash _ => True end
  end.
Lemma simples_history h : simples [] new_dealer h -> simple_history h.
Proof.
  intros Hp h1 o op h2 d outs -> Hr.
  assert (K : forall h1 d0 d outs tr, simples tr d0 (h1 ++ (o, op) :: h2) -> drun d0 h1 = Ret d outs ->
     simple (rev (zip (map snd h1) outs) ++ tr) op).
  { clear. induction h1 as [|[o1 op1] h1 IH]; intros d0 d outs tr Hp Hr; cbn [drun app simples] in *.
    - injection Hr as _ <-. apply Hp.
    - destruct Hp as [_ Hp]. destruct (dstep o1 d0 op1) as [d' r|w]; [|discriminate].
      destruct (drun d' h1) as [d2 rs|w] eqn:E; [|discriminate]. injection Hr as -> <-.
      specialize (IH _ _ _ _ Hp E). cbn [map snd zip zip_with rev]. by rewrite <- app_assoc. }
  unfold dtrace_of. specialize (K h1 new_dealer d outs [] Hp Hr). by rewrite app_nil_r in K.
Qed.

(** Owns, computed. *)
Ltac crush :=
  clear; vm_compute; repeat (match goal with
    | |- _ /\ _ => split
    | |- forall _, _ => intros ?
    | H : exists _, _ |- _ => destruct H
    | H : _ /\ _ |- _ => destruct H
    | H : _ \/ _ |- _ => destruct H
    | H : False |- _ => destruct H
    | H : ?x = ?y |- _ => first [discriminate H | injection H; clear H; intros; subst | subst]
    end); try tauto; try congruence.

(** All that was registered satisfies [P]. *)
Lemma for_registered tr (P : string -> policy -> Prop) sid :
  Forall (fun e => forall p pol g, is_registered e sid p pol g -> P p pol) tr ->
  forall p pol g, once_registered tr sid p pol g -> P p pol.
Proof. intros HF p pol g (e & Hin & He). rewrite Forall_forall in HF. by eapply HF. Qed.
Ltac each :=
  match goal with |- Forall _ ?l =>
    let l' := eval vm_compute in l in
    let E := fresh in assert (E : l = l') by (vm_compute; reflexivity); rewrite E; clear E end;
  repeat (apply Forall_cons; split;
    [let He := fresh in intros ? ? ? He; cbn in He;
     repeat match goal with H : _ /\ _ |- _ => destruct H end; subst; try done|]);
  try (by apply Forall_nil).
(** A session owns. *)
Ltac own := clear; vm_compute; repeat first
  [ left; eexists; repeat split; reflexivity
  | right; split; [|solve [crush]] ].

Definition rr : list (string * value) := [opt "invoke" "roundrobin"].
Definition fst_policy : list (string * value) := [opt "invoke" "first"].
Definition prefixed : list (string * value) := [opt "match" "prefix"].

(** Three sessions share "p" in turn; session 4 serves a prefix. *)
Definition h_shared : dhist := hist
  [DAdd (peer 1); DAdd (peer 2); DAdd (peer 3); DAdd (peer 4); DAdd (peer 5);
   dreg 4 10 "a" prefixed; dreg 1 11 "p" rr; dreg 2 12 "p" rr; dreg 3 13 "p" rr;
   dcall 5 20 "p" []; dreg 5 14 "q" []; dunreg 5 15 4].
(** Sessions 1 and 2 shared "p" and gave it up; 3 took it; 1 gives it up again. *)
Definition h_stale : dhist := hist
  [DAdd (peer 1); DAdd (peer 2); DAdd (peer 3); DAdd (peer 4);
   dreg 1 11 "p" rr; dreg 2 12 "p" rr; dunreg 1 13 1; dunreg 2 14 1; dreg 3 15 "p" []; dunreg 1 16 1].
(** The same with 3's registration a prefix; then 4 takes "p"; 3 and 4 leave. *)
Definition h_ghost : dhist := hist
  [DAdd (peer 1); DAdd (peer 2); DAdd (peer 3); DAdd (peer 4);
   dreg 1 11 "p" rr; dreg 2 12 "p" rr; dunreg 1 13 1; dunreg 2 14 1; dreg 3 15 "p" prefixed; dunreg 1 16 1;
   dreg 4 17 "p" []; DRemove 3; DRemove 4].
(** One callee, one call. *)
Definition h_call (o : list (string * value)) : dhist := hist
  [DAdd (peer 1); DAdd (peer 2); DAdd (peer 3); dreg 1 10 "p" []; dcall 2 20 "p" o].

Lemma h_shared_polite : polite_history h_shared.
Proof.
  apply polites_history. crush. left. exists "q"%string. split; [own|crush].
Qed.
