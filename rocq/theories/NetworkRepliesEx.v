(** Runs for the examples of C88. *)
From Verif Require Import Prelude Value Msg IdGen Types PathMatch Broker Dealer Session Network.
From Verif Require Import BrokerSpec DealerSpec NetworkSpec NetworkReplies DealerEx NetworkEx.

Local Open Scope string_scope.
Local Open Scope N_scope.

Definition considerateb (n : net) (e : nevent) : bool :=
  carefulb None n e &&
  match e with
  | NSend c (MUnsubscribe u) =>
      match n_clients n !! c with
      | None => true
      | Some cl => bool_decide (us_subscription u ∉ map snd (map_to_list (cs_unsubscribes (cl_session cl))))
      end
  | _ => true
  end.
Fixpoint consideratelyb (n : net) (es : list nevent) : bool :=
  match es with [] => true | e :: es' => considerateb n e && consideratelyb (nstep n e) es' end.
Lemma considerateb_sound n e : considerateb n e = true -> considerate n e.
Proof.
  unfold considerateb, considerate. intros [H1 H2]%andb_true_iff. split; [by apply carefulb_sound|].
  destruct e as [d|o c|c m|o c|c|p c]; try done. destruct m; try done.
  intros cl Hc. rewrite Hc in H2. apply bool_decide_eq_true in H2. by apply not_asked.
Qed.
Lemma consideratelyb_sound es : forall n, consideratelyb n es = true -> considerately n es.
Proof.
  induction es as [|e es IH]; intros n; [done|]. cbn [consideratelyb considerately]. intros [H1 H2]%andb_true_iff.
  split; [by apply considerateb_sound|by apply IH].
Qed.
Definition at_restb (n : net) : bool :=
  bool_decide (map_Forall (fun _ cl => cl_up cl = [] /\ cl_down cl = []) (n_clients n)).
Lemma at_restb_sound n : at_restb n = true -> at_rest n.
Proof. unfold at_restb. intros H%bool_decide_eq_true. exact H. Qed.

(** 1 asks for all kinds of things; 2 registered the procedure 1 wants later. *)
Definition run_asks : list nevent :=
  (njoins [1; 2] ++ nreg 1 1 "p" [] ++ nreg 2 1 "q" [] ++ nsub 1 2 "t" ++ npub 1 3 "u" [flag "acknowledge"] [1] ++
   npub 1 4 "u" [] [] ++
   [NSend 1 (MRegister (Register 5 None "q")); NSend 1 (MUnsubscribe (Unsubscribe 6 1));
    NSend 1 (MUnregister (Unregister 7 1)); NRoute e0 1; NRoute e0 1])%list.
Lemma asks_example : considerately empty_net run_asks
  /\ requests_made 1 empty_net run_asks
     = [(tRegister, 1); (tSubscribe, 2); (tPublish, 3); (tRegister, 5); (tUnsubscribe, 6); (tUnregister, 7)]
  /\ flat_map replies (delivered 1 empty_net run_asks) = [(tRegister, 1); (tSubscribe, 2); (tPublish, 3)]
  /\ exists cl, n_clients (nrun empty_net run_asks) !! 1 = Some cl
       /\ bool_decide (flat_map replies (cl_down cl) = [(tRegister, 5); (tUnsubscribe, 6)]
                       /\ flat_map asks (cl_up cl) = [(tUnregister, 7)]) = true.
Proof.
  split; [apply consideratelyb_sound; by vm_compute|]. split; [by vm_compute|]. split; [by vm_compute|].
  apply client_is. by vm_compute.
Qed.

(** 1 asks to be unsubscribed twice before reading the first answer. *)
Definition run_twice : list nevent :=
  (njoins [1] ++ nsub 1 1 "t" ++
   [NSend 1 (MUnsubscribe (Unsubscribe 2 1)); NSend 1 (MUnsubscribe (Unsubscribe 3 1));
    NRoute e0 1; NRoute e0 1; NDeliver 1])%list.
Lemma unsubscribe_unanswered : exists es r, carefully empty_net es /\ at_rest (nrun empty_net es)
  /\ (tUnsubscribe, r) ∈ requests_made 1 empty_net es
  /\ is_Some (n_clients (nrun empty_net es) !! 1)
  /\ (tUnsubscribe, r) ∉ flat_map replies (delivered 1 empty_net es).
Proof.
  exists run_twice, 3. split; [apply carefullyb_sound; by vm_compute|].
  split; [apply at_restb_sound; by vm_compute|]. split; [|split].
  - eapply bool_decide_eq_true_1. by vm_compute.
  - eapply bool_decide_eq_true_1. by vm_compute.
  - eapply bool_decide_eq_true_1. by vm_compute.
Qed.
