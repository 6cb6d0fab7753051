(** C137: messages stay in order. *)
From Verif Require Import Prelude Value Msg IdGen Types PathMatch Broker Dealer Session Network.
From Verif Require Import BrokerSpec DealerSpec NetworkSpec Hostile HostileOrderSpec HostileOrder.
From Verif Require Import DealerEx NetworkEx HostileEx HostileOrderEx.

Local Open Scope string_scope.
Local Open Scope N_scope.

(** ** C137: messages stay in order, and none is lost or doubled

    Session ids are not used twice ([decently]); others may send what they
    like.  What a client has read is, for each of broker and dealer, a beginning
    of what was handed out for it; what is missing is still on its way. *)
Theorem C137_reads : forall honest es c, N.of_nat (length es) <= two53 -> decently honest empty_net es ->
  let n := hrun empty_net es in let log := hread c empty_net es in
  List.filter from_broker log `prefix_of` in_turn (b_out c) (btr n)
  /\ List.filter (fun a => negb (from_broker a)) log `prefix_of` in_turn (d_out c) (dtr n)
  /\ forall cl, n_clients n !! c = Some cl ->
       List.filter from_broker (log ++ cl_down cl)%list = in_turn (b_out c) (btr n)
       /\ List.filter (fun a => negb (from_broker a)) (log ++ cl_down cl)%list = in_turn (d_out c) (dtr n).
Proof. exact reads_in_order. Qed.
(** Broker and dealer get what a well-behaved client sends, in that order. *)
Theorem C137_sends : forall honest es c, N.of_nat (length es) <= two53 -> decently honest empty_net es -> honest c ->
  let n := hrun empty_net es in let msgs := sent c empty_net es in
  in_turn (b_in c) (btr n) `prefix_of` List.filter for_broker msgs
  /\ (n_crashed n = [] -> in_turn (d_in c) (dtr n) `prefix_of` List.filter for_dealer msgs)
  /\ forall cl, n_clients n !! c = Some cl ->
       List.filter for_broker msgs = (in_turn (b_in c) (btr n) ++ List.filter for_broker (cl_up cl))%list
       /\ (n_crashed n = [] ->
           List.filter for_dealer msgs = (in_turn (d_in c) (dtr n) ++ List.filter for_dealer (cl_up cl))%list).
Proof. exact sent_in_order. Qed.
(** Events of one publisher are read in the order of its publications. *)
Theorem C137_events : forall honest es s c, N.of_nat (length es) <= two53 -> decently honest empty_net es -> honest s ->
  let n := hrun empty_net es in let l := in_turn (passes s c) (btr n) in
  sublist (map fst l) (publishes (sent s empty_net es))
  /\ forall cl, n_clients n !! c = Some cl -> sublist (map snd l) (events (hread c empty_net es ++ cl_down cl)%list).
Proof. exact published_order. Qed.
Theorem C137_payloads : forall honest es s c p e, N.of_nat (length es) <= two53 -> decently honest empty_net es ->
  (p, e) ∈ in_turn (passes s c) (btr (hrun empty_net es)) -> ev_args e = pu_args p /\ ev_kwargs e = pu_kwargs p.
Proof. exact passed_payload. Qed.
(** What [c] has read are the events of the publications the broker passed on
    to it; those of each well-behaved publisher are in the order in which it
    sent them. *)
Theorem C137_matched : forall honest es c, N.of_nat (length es) <= two53 -> decently honest empty_net es ->
  exists l, l `prefix_of` in_turn (passed c) (btr (hrun empty_net es)) /\ map snd l = events (hread c empty_net es)
    /\ (forall s p e, (s, p, e) ∈ l -> ev_args e = pu_args p /\ ev_kwargs e = pu_kwargs p)
    /\ forall s, honest s -> sublist (of_publisher s l) (publishes (sent s empty_net es)).
Proof. exact matched. Qed.
(** Invocations made for one caller are read in the order of its calls. *)
Theorem C137_calls : forall honest es s c, N.of_nat (length es) <= two53 -> decently honest empty_net es -> honest s ->
  let n := hrun empty_net es in let l := in_turn (invokes s c) (dtr n) in
  (n_crashed n = [] -> sublist (map fst l) (calls (sent s empty_net es)))
  /\ forall cl, n_clients n !! c = Some cl -> sublist (map snd l) (invocations (hread c empty_net es ++ cl_down cl)%list).
Proof. exact called_order. Qed.
(** Results of one callee, progressive ones too, are read in the order of its
    YIELDs. *)
Theorem C137_results : forall honest es s c, N.of_nat (length es) <= two53 -> decently honest empty_net es -> honest s ->
  let n := hrun empty_net es in let l := in_turn (answers s c) (dtr n) in
  (n_crashed n = [] -> sublist (map fst l) (yields (sent s empty_net es)))
  /\ forall cl, n_clients n !! c = Some cl -> sublist (map snd l) (results_in (hread c empty_net es ++ cl_down cl)%list).
Proof. exact yielded_order. Qed.
(** The publication ids a client reads grow. *)
Theorem C137_ids : forall honest es c, N.of_nat (length es) <= two53 -> decently honest empty_net es ->
  StronglySorted N.lt (map ev_publication (events (hread c empty_net es))).
Proof. exact read_ids. Qed.

Example C137_ex : decently (fun c => c ∈ [1; 2]) empty_net run_order /\ n_crashed (hrun empty_net run_order) = []
  /\ words (events (hread 2 empty_net run_order)) = [Some [VStr "a"]]
  /\ option_map (fun cl => words (events (cl_down cl))) (n_clients (hrun empty_net run_order) !! 2)
     = Some [Some [VStr "x"]; Some [VStr "b"]]
  /\ option_map (fun cl => map in_request (invocations (cl_down cl))) (n_clients (hrun empty_net run_order) !! 2) = Some [2; 3]
  /\ option_map cl_up (n_clients (hrun empty_net run_order) !! 1) = Some [apub 5 "c"]
  /\ map (fun x => (pu_request (fst x), ev_publication (snd x)))
       (in_turn (passes 1 2) (btr (hrun empty_net run_order))) = [(1, 2); (3, 4)]
  /\ map (fun x => (ca_request (fst x), in_request (snd x)))
       (in_turn (invokes 1 2) (dtr (hrun empty_net run_order))) = [(2, 2); (4, 3)].
Proof. split; [apply decentlyb_sound; by vm_compute|]. repeat (split; [by vm_compute|]). by vm_compute. Qed.

Example C137_ex_results : decently (fun c => c ∈ [1; 2]) empty_net (map HNet run_ok)
  /\ n_crashed (hrun empty_net (map HNet run_ok)) = []
  /\ map (fun x => (yi_request (fst x), says (yi_options (fst x)) "progress", re_request (snd x)))
       (in_turn (answers 1 2) (dtr (hrun empty_net (map HNet run_ok)))) = [(2, true, 2); (2, false, 2); (3, false, 3)].
Proof. split; [apply decentlyb_sound; by vm_compute|]. split; by vm_compute. Qed.

(** * Assumptions *)
Print Assumptions C137_reads.
Print Assumptions C137_sends.
Print Assumptions C137_events.
Print Assumptions C137_payloads.
Print Assumptions C137_matched.
Print Assumptions C137_calls.
Print Assumptions C137_results.
Print Assumptions C137_ids.
