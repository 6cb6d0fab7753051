(** C141: what a client reads comes in an order that makes sense. *)
From Verif Require Import Prelude Value Msg IdGen Types PathMatch Broker Dealer Session Network.
From Verif Require Import BrokerSpec DealerSpec NetworkSpec Hostile HostileReadSpec HostileRead.
From Verif Require Import DealerEx NetworkEx HostileEx HostileReadEx.

Local Open Scope string_scope.
Local Open Scope N_scope.

(** ** C141: nothing is read too early or too late

    After the last answer to a call, no reply to it is read, not even a
    progressive result. *)
Theorem C141_last_word : forall honest es c a b r, N.of_nat (length es) <= two53 -> decently honest empty_net es ->
  n_crashed (hrun empty_net es) = [] -> honest c -> hread c empty_net es = (a ++ b)%list ->
  r ∈ answer_ids a -> r ∉ reply_ids b.
Proof. exact last_word. Qed.
(** Replies are read only to calls that were made. *)
Theorem C141_reply_called : forall honest es c r, N.of_nat (length es) <= two53 -> decently honest empty_net es ->
  n_crashed (hrun empty_net es) = [] -> honest c ->
  r ∈ reply_ids (hread c empty_net es) -> r ∈ hcalled c empty_net es.
Proof. exact reply_called. Qed.
(** Before an event, the acknowledgement of its subscription is read. *)
Theorem C141_event_known : forall honest es c a e b, N.of_nat (length es) <= two53 -> decently honest empty_net es ->
  n_crashed (hrun empty_net es) = [] -> honest c -> hread c empty_net es = (a ++ MEvent e :: b)%list ->
  exists x, MSubscribed x ∈ a /\ sd_subscription x = ev_subscription e.
Proof. exact event_known. Qed.
(** Before an invocation, the acknowledgement of its registration is read. *)
Theorem C141_invocation_known : forall honest es c a v b, N.of_nat (length es) <= two53 -> decently honest empty_net es ->
  n_crashed (hrun empty_net es) = [] -> honest c -> hread c empty_net es = (a ++ MInvocation v :: b)%list ->
  exists x, MRegistered x ∈ a /\ rd_registration x = in_registration v.
Proof. exact invocation_known. Qed.

Example C141_ex : let n := hrun empty_net run_read in
  decently (fun c => c ∈ [1; 2]) empty_net run_read /\ n_crashed n = []
  /\ (exists x e p q, hread 2 empty_net run_read = [MSubscribed x; MEvent e; MResult p; MResult q] /\ sd_subscription x = ev_subscription e)
  /\ reply_ids (hread 2 empty_net run_read) = [2; 2] /\ answer_ids (hread 2 empty_net run_read) = [2]
  /\ hcalled 2 empty_net run_read = [2]
  /\ (exists x v, hread 1 empty_net run_read = [MRegistered x; MInvocation v] /\ rd_registration x = in_registration v).
Proof.
  cbv zeta. split; [apply decentlyb_sound; by vm_compute|]. split; [by vm_compute|].
  split; [eexists _, _, _, _; split; [vm_compute; reflexivity|by vm_compute]|].
  split; [by vm_compute|]. split; [by vm_compute|]. split; [by vm_compute|].
  eexists _, _; split; [vm_compute; reflexivity|by vm_compute].
Qed.

(** * Assumptions *)
Print Assumptions C141_last_word.
Print Assumptions C141_reply_called.
Print Assumptions C141_event_known.
Print Assumptions C141_invocation_known.
