(** C134: what a client session remembers. *)
From Verif Require Import Prelude Value Msg Mutex Session SessionSpec SessionLeftSpec SessionProofs SessionEx SessionLeft.

Local Open Scope N_scope.

(** ** C134: a client session remembers what is open and nothing else *)

(** Calls, REGISTERs and PUBLISHes without an answer, invocations it has not
    answered, registrations and subscriptions not given up: exactly these. *)
Theorem C134_open_partial : forall h s outs, srun new_session h = (s, outs) -> let tr := strace_of h outs in
  (forall r, r ∈ cs_calls s <-> call_open tr r)
  /\ (forall r, r ∈ cs_registers s <-> register_open tr r)
  /\ (forall r, r ∈ cs_publishes s <-> publish_open tr r)
  /\ (forall i, i ∈ cs_invocations s <-> invocation_open tr i)
  /\ (forall g, g ∈ cs_registrations s <-> registered_at tr g)
  /\ (forall g, g ∈ cs_subscriptions s <-> subscribed_at tr g).
Proof. exact left_open. Qed.
(** With nothing open a session that sent no SUBSCRIBE, UNREGISTER or
    UNSUBSCRIBE is like a new one... *)
Theorem C134_new_partial : forall h s outs, srun new_session h = (s, outs) -> let tr := strace_of h outs in
  nothing_open tr -> (forall m, Sent m ∈ tr -> ~ kept_request m) -> s = new_session.
Proof. exact left_none. Qed.
(** ...but of these three it remembers all that were not refused, though they
    were answered: with nothing open it may hold any number of each. *)
Theorem C134_asked : forall h s outs, srun new_session h = (s, outs) -> let tr := strace_of h outs in
  (forall r, r ∈ cs_subscribes s <-> subscribe_asked tr r)
  /\ (forall r g, cs_unregisters s !! r = Some g <-> unregister_asked tr r g)
  /\ (forall r g, cs_unsubscribes s !! r = Some g <-> unsubscribe_asked tr r g).
Proof. exact left_asked. Qed.
Theorem C134_grows_refuted : forall n, exists h s outs,
  srun new_session h = (s, outs) /\ nothing_open (strace_of h outs)
  /\ size (cs_subscribes s) = n /\ size (cs_unregisters s) = n /\ size (cs_unsubscribes s) = n.
Proof. exact left_growing. Qed.

(** A call, a registered procedure and its invocations, answered or not. *)
Definition busy : list sop :=
  [send (c_call 1); send (c_call 2); recv (c_result 2 []); send (c_register 3); recv (c_registered 3 5);
   recv (c_invocation 8 5); recv (c_invocation 9 5); send (c_yield 8); send (c_publish 4 [("acknowledge"%string, ctrue)])].
(** Everything answered. *)
Definition finished : list sop :=
  [send (c_call 1); recv (c_error 48 1); send (c_publish 2 [("acknowledge"%string, ctrue)]); recv (c_published 2);
   send (c_register 3); recv (c_error 64 3)].
Example C134_ex :
  verdicts busy = [true; true; true; true; true; true; true; true; true]
  /\ elements (cs_calls (after busy)) = [1] /\ elements (cs_invocations (after busy)) = [9]
  /\ elements (cs_registrations (after busy)) = [5] /\ elements (cs_publishes (after busy)) = [4]
  /\ elements (cs_registers (after busy)) = []
  /\ verdicts finished = [true; true; true; true; true; true]
  /\ elements (cs_calls (after finished)) = [] /\ elements (cs_publishes (after finished)) = []
  /\ verdicts (cycle 0) = [true; true; true; true; true; true; true; true]
  /\ elements (cs_subscribes (after (cycle 0))) = [1]
  /\ map_to_list (cs_unsubscribes (after (cycle 0))) = [(2, 7)]
  /\ map_to_list (cs_unregisters (after (cycle 0))) = [(4, 9)]
  /\ elements (cs_subscriptions (after (cycle 0))) = [].
Proof. repeat split; vm_compute; reflexivity. Qed.

(** * Assumptions *)
Print Assumptions C134_open_partial.
Print Assumptions C134_new_partial.
Print Assumptions C134_asked.
Print Assumptions C134_grows_refuted.
