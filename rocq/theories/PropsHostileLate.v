(** C142: what was given up stays given up. *)
From Verif Require Import Prelude Value Msg IdGen Types PathMatch Broker Dealer Session Network.
From Verif Require Import BrokerSpec DealerSpec NetworkSpec Hostile HostileOrderSpec HostileLate.
From Verif Require Import DealerEx NetworkEx HostileEx HostileLateEx.

Local Open Scope string_scope.
Local Open Scope N_scope.

(** ** C142: nothing arrives under what was given up

    [c] sent UNSUBSCRIBE [x] and reads its acknowledgement [u].  An event under
    that subscription is read later only if [c] was subscribed anew between. *)
Theorem C142_no_late_event : forall honest es c a u b e d x, N.of_nat (length es) <= two53 -> decently honest empty_net es ->
  n_crashed (hrun empty_net es) = [] -> honest c ->
  hread c empty_net es = (a ++ MUnsubscribed u :: b ++ MEvent e :: d)%list ->
  MUnsubscribe x ∈ sent c empty_net es -> us_request x = ud_request u -> us_subscription x = ev_subscription e ->
  exists y, MSubscribed y ∈ b /\ sd_subscription y = ev_subscription e.
Proof. exact no_late_event. Qed.
(** The same for a registration, and for all that is read afterwards. *)
Theorem C142_no_late_invocation : forall honest es c a u b x, N.of_nat (length es) <= two53 -> decently honest empty_net es ->
  n_crashed (hrun empty_net es) = [] -> honest c ->
  hread c empty_net es = (a ++ MUnregistered u :: b)%list ->
  MUnregister x ∈ sent c empty_net es -> ur_request x = un_request u ->
  (forall y, MRegistered y ∈ b -> rd_registration y <> ur_registration x) ->
  forall v, MInvocation v ∈ b -> in_registration v <> ur_registration x.
Proof. exact not_invoked. Qed.

Example C142_ex_event : decently (fun c => c ∈ [2]) empty_net run_back /\ n_crashed (hrun empty_net run_back) = []
  /\ exists a u y e, hread 2 empty_net run_back = (a ++ MUnsubscribed u :: [MSubscribed y] ++ MEvent e :: [])%list
     /\ MUnsubscribe (Unsubscribe 2 1) ∈ sent 2 empty_net run_back /\ ud_request u = 2 /\ ev_subscription e = 1.
Proof.
  split; [apply decentlyb_sound; by vm_compute|]. split; [by vm_compute|].
  exists (take 2 (hread 2 empty_net run_back)), (Unsubscribed 2), (Subscribed 3 1), (Event 1 4 (Some []) (Some [VStr "c"]) None).
  split; [vm_compute; reflexivity|]. split; [|done]. vm_compute. right. by left.
Qed.
Example C142_ex_invocation : decently (fun c => c ∈ [1]) empty_net run_gone /\ n_crashed (hrun empty_net run_gone) = []
  /\ exists a u y v, hread 1 empty_net run_gone = (a ++ MUnregistered u :: [MRegistered y; MInvocation v])%list
     /\ MUnregister (Unregister 2 1) ∈ sent 1 empty_net run_gone /\ un_request u = 2
     /\ rd_registration y <> 1 /\ in_registration v = rd_registration y.
Proof.
  split; [apply decentlyb_sound; by vm_compute|]. split; [by vm_compute|].
  exists (take 1 (hread 1 empty_net run_gone)), (Unregistered 2), (Registered 3 2), (Invocation 3 2 (Some []) (Some [VStr "hi"]) None no_bin).
  split; [vm_compute; reflexivity|]. split; [vm_compute; right; by left|]. done.
Qed.

(** * Assumptions *)
Print Assumptions C142_no_late_event.
Print Assumptions C142_no_late_invocation.
