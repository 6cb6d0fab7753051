(** C138: the network comes to rest. *)
From Verif Require Import Prelude Value Msg IdGen Types PathMatch Broker Dealer Session Network.
From Verif Require Import BrokerSpec DealerSpec NetworkSpec Hostile HostileOrderSpec HostileRestSpec HostileRest.
From Verif Require Import DealerEx NetworkEx HostileEx HostileOrderEx HostileRestEx.

Local Open Scope string_scope.
Local Open Scope N_scope.

(** ** C138: without new messages everything arrives

    No rule is imposed on what was sent before.  Whatever is moved, and in
    whatever order, there is an end to it. *)
Theorem C138_ends : forall es more, let n := hrun empty_net es in
  N.of_nat (length es + work (ids n) n) < two53 -> moving n more -> (length more <= work (ids n) n)%nat.
Proof. exact comes_to_end. Qed.
(** Whatever has been moved, it can be continued until nothing is on its way. *)
Theorem C138_rests : forall es more, let n := hrun empty_net es in
  N.of_nat (length es + work (ids n) n) < two53 -> moving n more ->
  exists more', moving n (more ++ more')%list /\ at_rest (nrun n (more ++ more')%list).
Proof. exact comes_to_rest. Qed.
(** A network in which nothing can be moved is at rest. *)
Theorem C138_stuck : forall n, at_rest n \/ exists e, moves n e.
Proof. exact can_move. Qed.
(** Then every client has read all that was given out for it, and broker and
    dealer have got all that well-behaved clients sent. *)
Theorem C138_arrived : forall honest es c cl, N.of_nat (length es) <= two53 -> decently honest empty_net es ->
  let n := hrun empty_net es in at_rest n -> n_clients n !! c = Some cl ->
  List.filter from_broker (hread c empty_net es) = in_turn (b_out c) (btr n)
  /\ List.filter (fun a => negb (from_broker a)) (hread c empty_net es) = in_turn (d_out c) (dtr n)
  /\ (honest c -> List.filter for_broker (sent c empty_net es) = in_turn (b_in c) (btr n)
       /\ (n_crashed n = [] -> List.filter for_dealer (sent c empty_net es) = in_turn (d_in c) (dtr n))).
Proof. exact arrived. Qed.

Example C138_ex : let n := hrun empty_net run_order in
  work (ids n) n = 11%nat /\ moving n drain /\ at_rest (nrun n drain)
  /\ decently (fun c => c ∈ [1; 2]) empty_net (run_order ++ map HNet drain)%list
  /\ is_Some (n_clients (nrun n drain) !! 2)
  /\ words (events (hread 2 empty_net (run_order ++ map HNet drain)%list))
     = [Some [VStr "a"]; Some [VStr "x"]; Some [VStr "b"]; Some [VStr "c"]].
Proof.
  cbv zeta. split; [by vm_compute|]. split; [apply movingb_sound; by vm_compute|]. split; [apply restb_sound; by vm_compute|].
  split; [apply decentlyb_sound; by vm_compute|]. split; [|by vm_compute].
  match goal with |- is_Some ?t => destruct t eqn:Ht; [by eexists|exfalso] end.
  assert (K : match n_clients (nrun (hrun empty_net run_order) drain) !! 2 with Some _ => true | None => false end = true) by (by vm_compute).
  by rewrite Ht in K.
Qed.

(** * Assumptions *)
Print Assumptions C138_ends.
Print Assumptions C138_rests.
Print Assumptions C138_stuck.
Print Assumptions C138_arrived.
