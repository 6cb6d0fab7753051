(** C90, C91: what becomes of calls. *)
From Verif Require Import Prelude Value Msg IdGen Types PathMatch Broker Dealer Session Network.
From Verif Require Import BrokerSpec DealerSpec NetworkSpec NetworkReplies NetworkComplete NetworkCompletion NetworkHung.
From Verif Require Import DealerEx NetworkEx NetworkRepliesEx NetworkCompleteEx.

Local Open Scope string_scope.
Local Open Scope N_scope.

(** ** C90: every call is answered once the callees have done their part *)
Theorem C90_calls_complete : forall es c, N.of_nat (length es) <= two53 -> follows empty_net es ->
  all_take_leave empty_net es -> at_rest (nrun empty_net es) -> (forall k, owing k es = []) ->
  is_Some (n_clients (nrun empty_net es) !! c) ->
  answer_ids (delivered c empty_net es) ≡ₚ calls_made c empty_net es.
Proof. exact calls_complete. Qed.
(** However far things have gone, moving messages and ending invocations can
    bring every call to its answer, as long as nobody left owing an answer. *)
Theorem C90_completable : forall es, carefully empty_net es -> all_take_leave empty_net es ->
  (forall k, n_clients (nrun empty_net es) !! k = None -> owing k es = []) ->
  exists es', all_finish (nrun empty_net es) es' /\ at_rest (nrun empty_net (es ++ es')) /\
    (N.of_nat (length (es ++ es')) <= two53 ->
     forall c, is_Some (n_clients (nrun empty_net (es ++ es')) !! c) ->
     answer_ids (delivered c empty_net (es ++ es')) ≡ₚ calls_made c empty_net es).
Proof. exact completable. Qed.
(** A callee that leaves with an INVOCATION on the way to it leaves the caller
    without an answer: the router does not step in. *)
Theorem C90_rule_needed : exists es c r, carefully empty_net es /\ honestly (fun _ => []) empty_net es
  /\ at_rest (nrun empty_net es) /\ (forall k, owing k es = [])
  /\ is_Some (n_clients (nrun empty_net es) !! c)
  /\ r ∈ calls_made c empty_net es /\ r ∉ answer_ids (delivered c empty_net es).
Proof. exact left_unanswered. Qed.
(** Three calls, answered by a RESULT, an ERROR, and progress and a RESULT. *)
Example C90_ex : carefully empty_net run_all /\ all_take_leave empty_net run_all
  /\ at_rest (nrun empty_net run_all) /\ (forall k, owing k run_all = [])
  /\ is_Some (n_clients (nrun empty_net run_all) !! 2)
  /\ calls_made 2 empty_net run_all = [1; 2; 3] /\ answer_ids (delivered 2 empty_net run_all) = [2; 3; 1]
  /\ honestly (fun _ => []) empty_net run_all.
Proof. exact all_example. Qed.
Example C90_ex2 : carefully empty_net run_half /\ all_take_leave empty_net run_half
  /\ (forall k, n_clients (nrun empty_net run_half) !! k = None -> owing k run_half = [])
  /\ owing 1 run_half = [2; 3] /\ calls_made 2 empty_net run_half = [1; 2; 3]
  /\ answer_ids (delivered 2 empty_net run_half) = [].
Proof. exact half_example. Qed.

(** ** C91: a call is answered by the callee it went to, or by nobody *)
Theorem C91_only_callee : forall es c call v k, N.of_nat (length es) <= two53 -> follows empty_net es ->
  honestly (fun _ => []) empty_net es ->
  (DReceive c (MCall call), DMsg (MInvocation v) k) ∈ dtr (nrun empty_net es) ->
  ca_request call ∈ answer_ids (delivered c empty_net es) -> in_request v ∈ answers_sent k empty_net es.
Proof. exact only_callee. Qed.
(** When the callee has gone without answering, the call hangs for good. *)
Theorem C91_never_answered : forall es es' c call v k, N.of_nat (length (es ++ es')) <= two53 ->
  follows empty_net (es ++ es') -> honestly (fun _ => []) empty_net (es ++ es') ->
  (DReceive c (MCall call), DMsg (MInvocation v) k) ∈ dtr (nrun empty_net es) ->
  n_clients (nrun empty_net es) !! k = None -> in_request v ∉ answers_sent k empty_net es ->
  ca_request call ∉ answer_ids (delivered c empty_net (es ++ es')).
Proof. exact never_answered. Qed.
(** The router does not see to it that answers come from the callee. *)
Theorem C91_rule_needed : exists es es' c call v k, carefully empty_net (es ++ es')
  /\ (DReceive c (MCall call), DMsg (MInvocation v) k) ∈ dtr (nrun empty_net es)
  /\ n_clients (nrun empty_net es) !! k = None /\ in_request v ∉ answers_sent k empty_net es
  /\ ca_request call ∈ answer_ids (delivered c empty_net (es ++ es')).
Proof. exact stranger_answers. Qed.
Example C91_ex : carefully empty_net run_gone /\ honestly (fun _ => []) empty_net run_gone
  /\ gone_entry ∈ dtr (nrun empty_net run_gone)
  /\ n_clients (nrun empty_net run_gone) !! 1 = None /\ 2 ∉ answers_sent 1 empty_net run_gone
  /\ owing 1 run_gone = [2].
Proof. exact gone_example. Qed.

(** * Assumptions *)
Print Assumptions C90_calls_complete.
Print Assumptions C90_completable.
Print Assumptions C90_rule_needed.
Print Assumptions C91_only_callee.
Print Assumptions C91_never_answered.
Print Assumptions C91_rule_needed.
