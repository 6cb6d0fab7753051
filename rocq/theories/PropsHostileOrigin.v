(** C136: where messages come from when anybody may send anything. *)
From Verif Require Import Prelude Value Msg IdGen Types PathMatch Broker Dealer Session Network.
From Verif Require Import BrokerSpec DealerSpec NetworkSpec Hostile HostileOriginSpec HostileOrigin.
From Verif Require Import DealerEx NetworkEx HostileEx HostileOriginEx.

Local Open Scope string_scope.
Local Open Scope N_scope.

(** ** C136: nothing is made up, and nobody speaks for another

    No rule is imposed on anybody: sessions may share ids, leave and come back,
    forge answers; a call on the router that panics gives nothing. *)
Theorem C136_traced : forall es c a, N.of_nat (length es) <= two53 ->
  a ∈ hread c empty_net es -> traced (hrun empty_net es) es c a.
Proof. exact all_traced. Qed.
Theorem C136_on_the_way : forall es c cl a, N.of_nat (length es) <= two53 ->
  n_clients (hrun empty_net es) !! c = Some cl -> a ∈ cl_down cl -> traced (hrun empty_net es) es c a.
Proof. exact all_traced_down. Qed.
(** An EVENT that names a well-behaved publisher was published by that client
    through its Session; the identity is the one it joined with. *)
Theorem C136_publisher : forall honest es c e s, N.of_nat (length es) <= two53 -> decently honest empty_net es -> honest s ->
  MEvent e ∈ hread c empty_net es -> mget (ev_details e) "publisher" = VInt KUint64 (Z.of_N s) ->
  exists p d, HNet (NSend s (MPublish p)) ∈ es /\ HNet (NJoin d) ∈ es /\ se_id d = s
    /\ mget (ev_details e) "publisher_authid" = VStr (se_authid d)
    /\ mget (ev_details e) "publisher_authrole" = VStr (se_authrole d)
    /\ mget (ev_details e) "topic" = VStr (pu_topic p) /\ ev_args e = pu_args p /\ ev_kwargs e = pu_kwargs p.
Proof. exact publisher_said. Qed.
(** The same for the caller an INVOCATION names. *)
Theorem C136_caller : forall honest es c v s, N.of_nat (length es) <= two53 -> decently honest empty_net es -> honest s ->
  MInvocation v ∈ hread c empty_net es -> mget (in_details v) "caller" = VInt KUint64 (Z.of_N s) ->
  exists call d to, HNet (NSend s (MCall call)) ∈ es /\ HNet (NJoin d) ∈ es /\ se_id d = s
    /\ HNet (NJoin to) ∈ es /\ se_id to = c
    /\ mget (in_details v) "procedure" = VStr (ca_procedure call)
    /\ mget (in_details v) "caller_authid" = VStr (se_authid d)
    /\ mget (in_details v) "caller_authrole" = VStr (se_authrole d)
    /\ (if bp_binary (ca_bin call) && se_static to then bp_payload (in_bin v) = bp_payload (ca_bin call)
        else in_args v = ca_args call /\ in_kwargs v = ca_kwargs call).
Proof. exact caller_said. Qed.

(** In the run 3 names 1 as the source of what it sends and yields to the
    invocation made for 2. *)
Example C136_ex : decently (fun c => c ∈ [1; 2]) empty_net run_pose /\ n_crashed (hrun empty_net run_pose) = []
  /\ omap from (hread 2 empty_net run_pose) = [VInt KUint64 3; VInt KUint64 1]
  /\ omap from (hread 1 empty_net run_pose) = [VInt KUint64 3; VInt KUint64 2]
  /\ answer_ids (hread 2 empty_net run_pose) = [2]
  /\ (exists call y before a, said run_pose 2 (MCall call) /\ ca_request call = 2
        /\ MResult a ∈ hread 2 empty_net run_pose
        /\ dealt (hrun empty_net run_pose) before 3 (MYield y) (MResult a) 2
        /\ open_inv before 3 2 2 false).
Proof.
  split; [apply decentlyb_sound; by vm_compute|]. split; [by vm_compute|]. split; [by vm_compute|].
  split; [by vm_compute|]. split; [by vm_compute|].
  exists (acall 2 "p" []), (ayield 3 []), (tail (dtr (hrun empty_net run_pose))),
    (Result 2 (Some []) (Some [VStr "yo"]) None no_bin).
  split; [left; apply (elem_of_list_lookup_2 _ 17%nat); by vm_compute|]. split; [done|].
  split; [apply (elem_of_list_lookup_2 _ 3%nat); by vm_compute|].
  split; [exists []; by vm_compute|].
  match goal with |- open_inv ?t _ _ _ _ => let t' := eval vm_compute in t in change (open_inv t' 3 2 2 false) end.
  cbn. by left.
Qed.

(** * Assumptions *)
Print Assumptions C136_traced.
Print Assumptions C136_on_the_way.
Print Assumptions C136_publisher.
Print Assumptions C136_caller.
