(** C88: requests are answered. *)
From Verif Require Import Prelude Value Msg IdGen Types PathMatch Broker Dealer Session Network.
From Verif Require Import BrokerSpec DealerSpec NetworkSpec NetworkReplies NetworkRest NetworkAnswers DealerEx NetworkEx NetworkRepliesEx.

Local Open Scope string_scope.
Local Open Scope N_scope.

(** ** C88: every request is answered once, in the order of the requests *)
Theorem C88_in_order : forall es c cl, N.of_nat (length es) <= two53 ->
  follows empty_net es -> all_timely empty_net es ->
  n_clients (nrun empty_net es) !! c = Some cl ->
  requests_made c empty_net es
  = (flat_map replies (delivered c empty_net es) ++ flat_map replies (cl_down cl) ++ flat_map asks (cl_up cl))%list
  /\ NoDup (map snd (requests_made c empty_net es)).
Proof. exact answers_in_order. Qed.
(** Each client can see to it by looking at its own session only. *)
Theorem C88_considerate_clients : forall es, N.of_nat (length es) <= two53 -> considerately empty_net es ->
  follows empty_net es /\ all_timely empty_net es.
Proof. exact considerate_timely. Qed.
(** Moving messages cannot go on for ever without new ones being sent. *)
Theorem C88_no_endless_moving : forall n (f : nat -> nevent), exists k, ~ moves (nrun n (map f (seq 0 k))) (f k).
Proof. exact no_endless_moving. Qed.
(** So everything that was asked can be, and then has been, answered. *)
Theorem C88_all_answered : forall es, considerately empty_net es ->
  exists es', all_moves (nrun empty_net es) es' /\ at_rest (nrun empty_net (es ++ es')) /\
    (N.of_nat (length (es ++ es')) <= two53 ->
     forall c, is_Some (n_clients (nrun empty_net (es ++ es')) !! c) ->
     flat_map replies (delivered c empty_net (es ++ es')) = requests_made c empty_net es).
Proof. exact all_answered. Qed.
(** Without the rule about UNSUBSCRIBE: nothing is answered twice or unasked,
    and answers keep the order of the requests... *)
Theorem C88_at_most_once : forall es c cl, N.of_nat (length es) <= two53 -> follows empty_net es ->
  n_clients (nrun empty_net es) !! c = Some cl ->
  (flat_map replies (delivered c empty_net es) ++ flat_map replies (cl_down cl) ++ flat_map asks (cl_up cl))%list
    `sublist_of` requests_made c empty_net es
  /\ NoDup (map snd (requests_made c empty_net es)).
Proof. exact answers_at_most_once. Qed.
(** ...but an UNSUBSCRIBE may stay unanswered with everything at rest. *)
Theorem C88_rule_needed : exists es r, carefully empty_net es /\ at_rest (nrun empty_net es)
  /\ (tUnsubscribe, r) ∈ requests_made 1 empty_net es
  /\ is_Some (n_clients (nrun empty_net es) !! 1)
  /\ (tUnsubscribe, r) ∉ flat_map replies (delivered 1 empty_net es).
Proof. exact unsubscribe_unanswered. Qed.
(** Answers to five kinds of requests, one of them an ERROR, in every place. *)
Example C88_ex : considerately empty_net run_asks
  /\ requests_made 1 empty_net run_asks
     = [(tRegister, 1); (tSubscribe, 2); (tPublish, 3); (tRegister, 5); (tUnsubscribe, 6); (tUnregister, 7)]
  /\ flat_map replies (delivered 1 empty_net run_asks) = [(tRegister, 1); (tSubscribe, 2); (tPublish, 3)]
  /\ exists cl, n_clients (nrun empty_net run_asks) !! 1 = Some cl
       /\ bool_decide (flat_map replies (cl_down cl) = [(tRegister, 5); (tUnsubscribe, 6)]
                       /\ flat_map asks (cl_up cl) = [(tUnregister, 7)]) = true.
Proof. exact asks_example. Qed.

(** * Assumptions *)
Print Assumptions C88_in_order.
Print Assumptions C88_considerate_clients.
Print Assumptions C88_no_endless_moving.
Print Assumptions C88_all_answered.
Print Assumptions C88_at_most_once.
Print Assumptions C88_rule_needed.
