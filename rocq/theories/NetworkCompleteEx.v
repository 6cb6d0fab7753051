(** Runs for the examples of C90 and C91. *)
From Verif Require Import Prelude Value Msg IdGen Types PathMatch Broker Dealer Session Network.
From Verif Require Import BrokerSpec DealerSpec NetworkSpec NetworkReplies NetworkComplete DealerEx NetworkEx NetworkRepliesEx.

Local Open Scope string_scope.
Local Open Scope N_scope.

Definition takes_leaveb (n : net) (e : nevent) : bool :=
  match e with
  | NLeave _ c =>
      match n_clients n !! c with
      | Some cl => match cl_up cl, cl_down cl with [], [] => true | _, _ => false end
      | None => true
      end
  | _ => true
  end.
Fixpoint all_take_leaveb (n : net) (es : list nevent) : bool :=
  match es with [] => true | e :: es' => takes_leaveb n e && all_take_leaveb (nstep n e) es' end.
Lemma all_take_leaveb_sound es : forall n, all_take_leaveb n es = true -> all_take_leave n es.
Proof.
  induction es as [|e es IH]; intros n; [done|]. cbn [all_take_leaveb all_take_leave]. intros [H1 H2]%andb_true_iff.
  split; [|by apply IH]. destruct e; try done. intros cl Hc. cbn in H1. rewrite Hc in H1.
  destruct (cl_up cl), (cl_down cl); done.
Qed.

(** Only who reads can owe. *)
Definition readers (es : list nevent) : list N := omap (fun e => match e with NDeliver c => Some c | _ => None end) es.
Lemma owing_reader k es : forall n, k ∉ readers es -> owing_from k [] n es = [].
Proof.
  induction es as [|e es IH]; intros n H; [done|]. cbn [owing_from].
  assert (E : owes k n e [] = []).
  { destruct e as [| |x m| |x|]; try done; cbn [owes].
    - destruct (n_clients n !! x), (ending m); try done. by destruct (_ =? _).
    - cbn [delivers]. destruct (N.eqb_spec x k) as [->|]; [|done]. exfalso. apply H. by left. }
  rewrite E. apply IH. intros Hin. apply H. unfold readers in *. cbn [omap list_omap]. destruct e; try done. by right.
Qed.
Definition none_owingb (es : list nevent) : bool := forallb (fun k => match owing k es with [] => true | _ => false end) (readers es).
Lemma none_owingb_sound es : none_owingb es = true -> forall k, owing k es = [].
Proof.
  unfold none_owingb. intros H k. rewrite forallb_forall in H. destruct (decide (k ∈ readers es)) as [Hk|Hk].
  - specialize (H k (proj1 (elem_of_list_In _ _) Hk)). by destruct (owing k es).
  - by apply owing_reader.
Qed.

Fixpoint honestlyb (log : N -> list message) (n : net) (es : list nevent) : bool :=
  match es with
  | [] => true
  | e :: es' =>
      (match e with
       | NSend c m => match n_clients n !! c, answering m with
                      | Some _, Some i => bool_decide (i ∈ inv_ids (log c))
                      | _, _ => true
                      end
       | _ => true
       end) && honestlyb (fun c => log c ++ delivers c n e)%list (nstep n e) es'
  end.
Lemma honestlyb_sound es : forall log n, honestlyb log n es = true -> honestly log n es.
Proof.
  induction es as [|e es IH]; intros log n; [done|]. cbn [honestlyb honestly]. intros [H1 H2]%andb_true_iff.
  split; [|by apply IH]. destruct e as [| |c m| | |]; try done. intros [cl Hc] i Hi. rewrite Hc, Hi in H1.
  by apply bool_decide_eq_true in H1.
Qed.

(** 1 and 3 serve a procedure each; 2 calls three times; one call is answered
    with progress first, one with an ERROR, one in the reverse order of the
    calls; 3 leaves when it is done. *)
Definition anerror (i : N) : message := MError (Error tInvocation i (Some []) "app.error" None None).
Definition run_all : list nevent :=
  (njoins [1; 2; 3] ++ nreg 1 1 "p" [] ++ nreg 3 1 "q" [] ++
   ncall 2 1 "p" [flag "receive_progress"] 1 ++ ncall 2 2 "q" [] 3 ++ ncall 2 3 "p" [] 1 ++
   nyield 1 3 [flag "progress"] 2 ++ say 3 (anerror 4) [2] ++ nyield 1 5 [] 2 ++
   [NLeave e0 3] ++ nyield 1 3 [] 2)%list.
Lemma all_example : carefully empty_net run_all /\ all_take_leave empty_net run_all
  /\ at_rest (nrun empty_net run_all) /\ (forall k, owing k run_all = [])
  /\ is_Some (n_clients (nrun empty_net run_all) !! 2)
  /\ calls_made 2 empty_net run_all = [1; 2; 3] /\ answer_ids (delivered 2 empty_net run_all) = [2; 3; 1]
  /\ honestly (fun _ => []) empty_net run_all.
Proof.
  split; [apply carefullyb_sound; by vm_compute|]. split; [apply all_take_leaveb_sound; by vm_compute|].
  split; [apply at_restb_sound; by vm_compute|]. split; [apply none_owingb_sound; by vm_compute|].
  split; [eapply bool_decide_eq_true_1; by vm_compute|]. split; [by vm_compute|]. split; [by vm_compute|].
  apply honestlyb_sound. by vm_compute.
Qed.
(** Halfway there: 1 owes two answers, the third call waits for the router. *)
Definition run_half : list nevent :=
  (njoins [1; 2] ++ nreg 1 1 "p" [] ++ ncall 2 1 "p" [] 1 ++ ncall 2 2 "p" [] 1 ++ [NSend 2 (MCall (acall 3 "p" []))])%list.
Lemma half_example : carefully empty_net run_half /\ all_take_leave empty_net run_half
  /\ (forall k, n_clients (nrun empty_net run_half) !! k = None -> owing k run_half = [])
  /\ owing 1 run_half = [2; 3] /\ calls_made 2 empty_net run_half = [1; 2; 3]
  /\ answer_ids (delivered 2 empty_net run_half) = [].
Proof.
  split; [apply carefullyb_sound; by vm_compute|]. split; [apply all_take_leaveb_sound; by vm_compute|].
  split; [|by vm_compute].
  intros k Hk. apply owing_reader. intros Hin. cbv in Hin.
  repeat (apply elem_of_cons in Hin as [->|Hin]; [revert Hk; apply not_eq_None_Some; eapply bool_decide_eq_true_1; by vm_compute|]).
  by apply elem_of_nil in Hin.
Qed.

(** 1 leaves with an INVOCATION on the way to it. *)
Definition run_left : list nevent :=
  (njoins [1; 2; 3] ++ nreg 1 1 "p" [] ++ ncall 2 1 "p" [] 2 ++ [NLeave e0 1])%list.
Lemma left_unanswered : exists es c r, carefully empty_net es /\ honestly (fun _ => []) empty_net es
  /\ at_rest (nrun empty_net es) /\ (forall k, owing k es = [])
  /\ is_Some (n_clients (nrun empty_net es) !! c)
  /\ r ∈ calls_made c empty_net es /\ r ∉ answer_ids (delivered c empty_net es).
Proof.
  exists run_left, 2, 1. split; [apply carefullyb_sound; by vm_compute|]. split; [apply honestlyb_sound; by vm_compute|].
  split; [apply at_restb_sound; by vm_compute|]. split; [apply none_owingb_sound; by vm_compute|].
  split; [eapply bool_decide_eq_true_1; by vm_compute|]. split; eapply bool_decide_eq_true_1; by vm_compute.
Qed.

(** 1 read its INVOCATION and left. *)
Definition run_gone : list nevent :=
  (njoins [1; 2; 3] ++ nreg 1 1 "p" [] ++ ncall 2 1 "p" [] 1 ++ [NLeave e0 1])%list.
Definition gone_entry : dop * dout :=
  (DReceive 2 (MCall (acall 1 "p" [])), DMsg (MInvocation (Invocation 2 1 (Some []) (Some [VStr "hi"]) None no_bin)) 1).
Lemma gone_example : carefully empty_net run_gone /\ honestly (fun _ => []) empty_net run_gone
  /\ gone_entry ∈ dtr (nrun empty_net run_gone)
  /\ n_clients (nrun empty_net run_gone) !! 1 = None /\ 2 ∉ answers_sent 1 empty_net run_gone
  /\ owing 1 run_gone = [2].
Proof.
  split; [apply carefullyb_sound; by vm_compute|]. split; [apply honestlyb_sound; by vm_compute|].
  split; [|split; [eapply bool_decide_eq_true_1; by vm_compute|split; [eapply bool_decide_eq_true_1|]; by vm_compute]].
  apply elem_of_list_In. vm_compute. right. left. reflexivity.
Qed.
(** Then 3 answers in its place. *)
Lemma stranger_answers : exists es es' c call v k, carefully empty_net (es ++ es')
  /\ (DReceive c (MCall call), DMsg (MInvocation v) k) ∈ dtr (nrun empty_net es)
  /\ n_clients (nrun empty_net es) !! k = None /\ in_request v ∉ answers_sent k empty_net es
  /\ ca_request call ∈ answer_ids (delivered c empty_net (es ++ es')).
Proof.
  exists run_gone, (nyield 3 2 [] 2), 2, (acall 1 "p" []), (Invocation 2 1 (Some []) (Some [VStr "hi"]) None no_bin), 1.
  split; [apply carefullyb_sound; by vm_compute|]. split; [apply gone_example|]. split; [apply gone_example|].
  split; [apply gone_example|]. eapply bool_decide_eq_true_1. by vm_compute.
Qed.
