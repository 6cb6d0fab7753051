(** C82-C86: clients and router together. *)
From Verif Require Import Prelude Value Msg IdGen Types PathMatch Broker Dealer Session Network.
From Verif Require Import BrokerSpec DealerSpec NetworkSpec NetworkLocal NetworkFinal DealerEx NetworkEx.

Local Open Scope string_scope.
Local Open Scope N_scope.

(** ** C82: clients and router never fall out of step *)
Theorem C82_in_step : forall es, N.of_nat (length es) <= two53 -> follows empty_net es ->
  n_rejected (nrun empty_net es) = [] /\ n_crashed (nrun empty_net es) = [].
Proof. exact nothing_rejected. Qed.
(** The rules can be kept by each client on its own. *)
Theorem C82_careful_clients : forall es, N.of_nat (length es) <= two53 -> carefully empty_net es ->
  follows empty_net es.
Proof. exact careful_follows. Qed.
(** None of them can be left out. *)
Theorem C82_rules_needed : forall x, exists es, carefully_but x empty_net es
  /\ (n_rejected (nrun empty_net es) <> [] \/ n_crashed (nrun empty_net es) <> []).
Proof. exact every_rule_needed. Qed.
Example C82_ex : carefully empty_net run_ok /\ length (delivered 2 empty_net run_ok) = 6%nat
  /\ length (delivered 1 empty_net run_ok) = 5%nat.
Proof.
  split; [apply carefullyb_sound; by vm_compute|]. by vm_compute.
Qed.

(** ** C83: when a client has read everything, it and the router agree *)
Theorem C83_agreement : forall es c cl, N.of_nat (length es) <= two53 -> follows empty_net es ->
  let n := nrun empty_net es in
  n_clients n !! c = Some cl -> cl_down cl = [] ->
  (forall g, g ∈ cs_subscriptions (cl_session cl) <-> exists t, holds (btr n) c t g)
  /\ (forall g, g ∈ cs_registrations (cl_session cl) <-> exists p, owns (dtr n) c p g)
  /\ (forall r, r ∈ cs_calls (cl_session cl) <->
        r ∈ call_ids (cl_up cl) \/ exists i rp, open_inv (dtr n) i c r rp).
Proof. exact agreement. Qed.
Example C83_ex : carefully empty_net run_mid
  /\ (exists cl, n_clients (nrun empty_net run_mid) !! 1 = Some cl
        /\ bool_decide (cl_down cl = [] /\ 1 ∈ cs_registrations (cl_session cl)) = true)
  /\ exists cl, n_clients (nrun empty_net run_ok) !! 2 = Some cl
        /\ bool_decide (cl_down cl = [] /\ 1 ∈ cs_subscriptions (cl_session cl)) = true.
Proof.
  split; [apply carefullyb_sound; by vm_compute|]. split; apply client_is; by vm_compute.
Qed.

(** ** C84: every call is in exactly one place, and is answered at most once *)
Theorem C84_accounted : forall es c cl r, N.of_nat (length es) <= two53 -> follows empty_net es ->
  let n := nrun empty_net es in
  n_clients n !! c = Some cl -> r ∈ calls_made c empty_net es ->
  exactly_one [ r ∈ call_ids (cl_up cl);
                exists i rp, open_inv (dtr n) i c r rp;
                r ∈ answer_ids (cl_down cl);
                r ∈ answer_ids (delivered c empty_net es) ].
Proof. exact accounted. Qed.
Theorem C84_one_invocation : forall es c cl r i i' rp rp', N.of_nat (length es) <= two53 -> follows empty_net es ->
  let n := nrun empty_net es in
  n_clients n !! c = Some cl -> open_inv (dtr n) i c r rp -> open_inv (dtr n) i' c r rp' -> i' = i.
Proof. exact one_invocation. Qed.
Theorem C84_answered_once : forall es c, N.of_nat (length es) <= two53 -> follows empty_net es ->
  NoDup (calls_made c empty_net es) /\ NoDup (answer_ids (delivered c empty_net es))
  /\ forall r, r ∈ answer_ids (delivered c empty_net es) -> r ∈ calls_made c empty_net es.
Proof. exact answered_once. Qed.
(** Four calls, one in each place. *)
Example C84_ex : carefully empty_net run_mid
  /\ calls_made 2 empty_net run_mid = [2; 3; 4; 5]
  /\ answer_ids (delivered 2 empty_net run_mid) = [2]
  /\ (exists cl, n_clients (nrun empty_net run_mid) !! 2 = Some cl
        /\ bool_decide (answer_ids (cl_down cl) = [3] /\ call_ids (cl_up cl) = [5]) = true)
  /\ open_inv (dtr (nrun empty_net run_mid)) 4 2 4 false.
Proof.
  split; [apply carefullyb_sound; by vm_compute|]. split; [by vm_compute|]. split; [by vm_compute|].
  split; [apply client_is; by vm_compute|].
  match goal with |- open_inv ?t _ _ _ _ => let t' := eval vm_compute in t in change (open_inv t' 4 2 4 false) end.
  cbn. right. split; [by left|]. intros [? _]. discriminate.
Qed.

(** ** C85: every message a client gets goes back to what was sent *)
Theorem C85_provenance : forall es c a, N.of_nat (length es) <= two53 -> follows empty_net es ->
  a ∈ delivered c empty_net es -> explained (nrun empty_net es) es c a.
Proof. exact provenance. Qed.
Example C85_ex : carefully empty_net run_ok
  /\ exists e, MEvent e ∈ delivered 2 empty_net run_ok /\ ev_args e = Some [VStr "news"].
Proof.
  split; [apply carefullyb_sound; by vm_compute|]. eexists. split.
  - match goal with |- _ ∈ ?t => let t' := eval vm_compute in t in change t with t' end.
    do 4 (apply elem_of_cons; right). apply elem_of_cons; left. reflexivity.
  - done.
Qed.

(** ** C86: a publication reaches exactly the subscribers of its topic *)
Theorem C86_event_reaches : forall es o c cl p rest y g, N.of_nat (length es) < two53 -> follows empty_net es ->
  let n := nrun empty_net es in
  n_clients n !! c = Some cl -> cl_up cl = MPublish p :: rest -> holds (btr n) y (pu_topic p) g ->
  exists e pid, ev_subscription e = g /\ ev_args e = pu_args p /\ ev_kwargs e = pu_kwargs p /\
  forall x clx, n_clients n !! x = Some clx ->
  exists cl', n_clients (nstep n (NRoute o c)) !! x = Some cl' /\
    let ack := if (x =? c) && says (pu_options p) "acknowledge"
               then [MPublished (Published (pu_request p) pid)] else [] in
    (holds (btr n) x (pu_topic p) g -> cl_down cl' = (cl_down clx ++ MEvent e :: ack)%list)
    /\ (~ holds (btr n) x (pu_topic p) g -> cl_down cl' = (cl_down clx ++ ack)%list).
Proof. exact event_reaches. Qed.
Definition run_pub : list nevent :=
  (njoins [1; 2; 3] ++ nsub 2 1 "t" ++ nsub 3 1 "u" ++
   [NSend 1 (MPublish (Publish 1 (Some [flag "acknowledge"]) "t" (Some [VStr "news"]) None))])%list.
Example C86_ex : carefully empty_net run_pub
  /\ (exists cl, n_clients (nrun empty_net run_pub) !! 1 = Some cl /\ bool_decide (length (cl_up cl) = 1%nat) = true)
  /\ holds (btr (nrun empty_net run_pub)) 2 "t" 1 /\ ~ holds (btr (nrun empty_net run_pub)) 3 "t" 1.
Proof.
  split; [apply carefullyb_sound; by vm_compute|]. split; [apply client_is; by vm_compute|].
  match goal with |- context [btr ?n] => let t := eval vm_compute in (btr n) in change (btr n) with t end.
  cbn. split; [right; split; [by left|tauto]|].
  intros H. repeat match type of H with _ \/ _ => destruct H as [H|[H _]] end; try done.
  all: destruct H as (? & ? & ?); discriminate.
Qed.

(** * Assumptions *)
Print Assumptions C82_in_step.
Print Assumptions C82_careful_clients.
Print Assumptions C82_rules_needed.
Print Assumptions C83_agreement.
Print Assumptions C84_accounted.
Print Assumptions C84_one_invocation.
Print Assumptions C84_answered_once.
Print Assumptions C85_provenance.
Print Assumptions C86_event_reaches.
