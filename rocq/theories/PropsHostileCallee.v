(** C140: calls that are not answered. *)
From Verif Require Import Prelude Value Msg IdGen Types PathMatch Broker Dealer Session Network.
From Verif Require Import BrokerSpec DealerSpec DealerKind NetworkSpec Hostile HostileOriginSpec HostileOrderSpec HostileRestSpec HostileRest.
From Verif Require Import HostileCalleeSpec HostileCallee DealerEx NetworkEx HostileEx HostileOrderEx HostileRestEx HostileCalleeEx.

Local Open Scope string_scope.
Local Open Scope N_scope.

(** ** C140: a call that stays unanswered is with a callee

    False: two hostile clients can have a call vanish.  Nobody is invoked, the
    caller gets no answer, and nothing is on its way. *)
Theorem C140_lost_refuted : exists honest es c r, let n := hrun empty_net es in
  decently honest empty_net es /\ n_crashed n = [] /\ at_rest n /\ honest c /\ is_Some (n_clients n !! c)
  /\ r ∈ hcalled c empty_net es /\ r ∉ answer_ids (hread c empty_net es)
  /\ forall op v k, (op, DMsg (MInvocation v) k) ∉ dtr n.
Proof.
  exists (fun c => c ∈ [2]), run_lost, 2, 1. cbv zeta. split; [apply decentlyb_sound; by vm_compute|]. split; [by vm_compute|].
  split; [apply restb_sound; by vm_compute|]. split; [by left|]. split; [apply isb_sound; by vm_compute|].
  split; [by apply (bool_decide_eq_true_1 _)|]. split; [by apply (bool_decide_eq_true_1 _)|]. apply no_invocation. by vm_compute.
Qed.
(** When nothing is on its way: a call of a well-behaved client was answered,
    or given to a callee that has read it, if it is still there, and nobody has
    answered; or the dealer returned an error. *)
Theorem C140_unanswered_partial : forall honest es c cl r, N.of_nat (length es) <= two53 -> decently honest empty_net es ->
  let n := hrun empty_net es in
  n_crashed n = [] -> at_rest n -> honest c -> n_clients n !! c = Some cl -> r ∈ hcalled c empty_net es ->
  r ∈ answer_ids (hread c empty_net es)
  \/ exists call out, (DReceive c (MCall call), out) ∈ dtr n /\ ca_request call = r
     /\ match out with
        | DMsg (MInvocation v) k =>
            open_inv (dtr n) (in_request v) c r (says (ca_options call) "receive_progress")
            /\ (is_Some (n_clients n !! k) -> MInvocation v ∈ hread k empty_net es)
        | DErr _ => True
        | _ => False
        end.
Proof. exact unanswered. Qed.
(** It takes a shared procedure to lose a call: if nobody registered one to be
    shared, there is no such error. *)
Theorem C140_unshared_partial : forall honest es c cl r, N.of_nat (length es) <= two53 -> decently honest empty_net es ->
  let n := hrun empty_net es in
  n_crashed n = [] -> at_rest n -> honest c -> n_clients n !! c = Some cl -> r ∈ hcalled c empty_net es ->
  (forall p, never_shared (dtr n) p) ->
  r ∈ answer_ids (hread c empty_net es)
  \/ exists call v k, (DReceive c (MCall call), DMsg (MInvocation v) k) ∈ dtr n /\ ca_request call = r
     /\ open_inv (dtr n) (in_request v) c r (says (ca_options call) "receive_progress")
     /\ (is_Some (n_clients n !! k) -> MInvocation v ∈ hread k empty_net es).
Proof. exact unanswered_unshared. Qed.
(** It is enough that a well-behaved callee answers: [k] has been given the
    invocation for [call] of [c], and then sends [m]. *)
Theorem C140_callee_suffices : forall honest es1 k m es2 c cl call v before,
  let es := (es1 ++ HNet (NSend k m) :: es2)%list in let n := hrun empty_net es in
  N.of_nat (length es) <= two53 -> decently honest empty_net es -> n_crashed n = [] -> at_rest n ->
  honest c -> n_clients n !! c = Some cl -> honest k -> is_Some (n_clients (hrun empty_net es1) !! k) -> is_Some (n_clients n !! k) ->
  dealt (hrun empty_net es1) before c (MCall call) (MInvocation v) k -> last_answer m (in_request v) ->
  ca_request call ∈ answer_ids (hread c empty_net es).
Proof. exact callee_suffices. Qed.

Example C140_ex_asked : let n := hrun empty_net run_asked in
  decently (fun c => c ∈ [1; 2]) empty_net run_asked /\ n_crashed n = [] /\ at_rest n
  /\ is_Some (n_clients n !! 2) /\ hcalled 2 empty_net run_asked = [1] /\ answer_ids (hread 2 empty_net run_asked) = []
  /\ map in_request (invocations (hread 1 empty_net run_asked)) = [2]
  /\ forall p, never_shared (dtr n) p.
Proof.
  cbv zeta. split; [apply decentlyb_sound; by vm_compute|]. split; [by vm_compute|].
  split; [apply restb_sound; by vm_compute|]. split; [apply isb_sound; by vm_compute|]. split; [by vm_compute|]. split; [by vm_compute|]. split; [by vm_compute|]. apply nobody_shares_sound. by vm_compute.
Qed.
Example C140_ex_served : let n := hrun empty_net run_served in
  decently (fun c => c ∈ [1; 2]) empty_net run_served /\ n_crashed n = [] /\ at_rest n
  /\ is_Some (n_clients n !! 2) /\ is_Some (n_clients (hrun empty_net run_asked) !! 1) /\ is_Some (n_clients n !! 1)
  /\ (exists before v, dealt (hrun empty_net run_asked) before 2 (MCall (acall 1 "p" [])) (MInvocation v) 1 /\ last_answer its_answer (in_request v))
  /\ answer_ids (hread 2 empty_net run_served) = [1].
Proof.
  cbv zeta. split; [apply decentlyb_sound; by vm_compute|]. split; [by vm_compute|].
  split; [apply restb_sound; by vm_compute|]. split; [apply isb_sound; by vm_compute|]. split; [apply isb_sound; by vm_compute|].
  split; [apply isb_sound; by vm_compute|]. split; [|by vm_compute].
  eexists _, (Invocation 2 1 (Some []) (Some [VStr "hi"]) None no_bin). split; [|by vm_compute].
  exists (take 1 (dtr (hrun empty_net run_asked))). vm_compute. reflexivity.
Qed.

(** * Assumptions *)
Print Assumptions C140_lost_refuted.
Print Assumptions C140_unanswered_partial.
Print Assumptions C140_unshared_partial.
Print Assumptions C140_callee_suffices.
