(** C94: the network with serializers. *)
From Verif Require Import Prelude Value Msg IdGen Types PathMatch Broker Dealer Session Network.
From Verif Require Import BrokerSpec DealerSpec WireSpec MsgSpec NetworkSpec NetworkWire NetworkWireSim NetworkWireGo.
From Verif Require Import NetworkFinal NetworkLocal NetworkWireRun DealerEx NetworkEx NetworkWireEx.

Local Open Scope string_scope.
Local Open Scope list_scope.
Local Open Scope N_scope.

(** ** C94: behind serializers everything goes as without them *)
Theorem C94_same : forall (PL : Platform) es w, Forall ordinary_event es -> wrun empty_wnet es w ->
  net_like (nrun empty_net es) w
  /\ forall c, Forall2 msg_like (delivered c empty_net es) (read_by c (w_read w)).
Proof. exact (@same_through_serializers). Qed.
(** And it goes: there is no message that a codec could not encode or a reader
    not decode, if the clients send none that cannot be encoded. *)
Theorem C94_goes_on : forall (PL : Platform) es, Forall ordinary_event es -> Forall encodable_event es ->
  exists w, wrun empty_wnet es w.
Proof. exact (@never_stuck). Qed.
(** So clients that keep the rules of C82 are in step behind serializers, too. *)
Theorem C94_in_step : forall (PL : Platform) es w, Forall ordinary_event es -> wrun empty_wnet es w ->
  N.of_nat (length es) <= two53 -> carefully empty_net es ->
  w_rejected w = [] /\ w_crashed w = [] /\ w_unread w = [].
Proof. exact (@wired_in_step). Qed.
(** None of the three rules for messages can be left out. *)
Theorem C94_rules_needed : forall (PL : Platform) x, exists es w, Forall (ordinary_but x) es /\ wrun empty_wnet es w
  /\ ~ net_like (nrun empty_net es) w.
Proof. exact (@every_wire_rule_needed). Qed.
(** A run with a codec that changes the kinds of numbers: 1 and 2 read nine
    messages, among them an EVENT whose arguments changed kind. *)
Example C94_ex : forall (PL : Platform), let w := xrun empty_wnet run_wire in
  Forall ordinary_event run_wire /\ wrun empty_wnet run_wire w /\ carefully empty_net run_wire
  /\ length (read_by 1 (w_read w)) = 4%nat /\ length (read_by 2 (w_read w)) = 5%nat
  /\ (exists e, MEvent e ∈ read_by 2 (w_read w)
       /\ ev_args e = Some [VNil; VBool true; VInt KInt64 (-5); VInt KUint64 18446744073709551615; VF32 (FFin 1 (-1));
            VStr "x"; VBytes "yz"; VNil;
            VMap (Some [("a", VSlice (Some [VInt KInt64 7])); ("b", VSlice (Some [VStr "c"; VStr "d"]))]);
            VStr "ticket"]).
Proof.
  intros PL w. subst w. split; [apply ordinary_events_sound; by vm_compute|].
  split; [refine (xrun_sound _ _ _); by vm_compute|]. split; [apply carefullyb_sound; by vm_compute|].
  split; [by vm_compute|]. split; [by vm_compute|].
  assert (read_by 2 (w_read (xrun empty_wnet run_wire)) !! 3%nat = Some (MEvent (Event 1 2
    (Some [("topic", VStr "t.u"); ("publisher", VInt KInt64 1); ("publisher_authid", VStr "john");
           ("publisher_authrole", VStr "user")])
    (Some [VNil; VBool true; VInt KInt64 (-5); VInt KUint64 18446744073709551615; VF32 (FFin 1 (-1));
            VStr "x"; VBytes "yz"; VNil;
            VMap (Some [("a", VSlice (Some [VInt KInt64 7])); ("b", VSlice (Some [VStr "c"; VStr "d"]))]);
            VStr "ticket"]) None))) as H by by vm_compute.
  eexists. split; [by eapply elem_of_list_lookup_2|reflexivity].
Qed.

(** * Assumptions *)
Print Assumptions C94_same.
Print Assumptions C94_goes_on.
Print Assumptions C94_in_step.
Print Assumptions C94_rules_needed.
