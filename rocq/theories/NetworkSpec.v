(** The rules for the clients of a router, and what they can then rely on. *)
From Verif Require Import Prelude Value Msg IdGen Types PathMatch Broker Dealer Session Network.
From Verif Require Import BrokerSpec DealerSpec.

(** The calls made on broker and dealer so far, with their results. *)
Definition btr (n : net) : btrace := trace_of (n_bh n) (n_bouts n).
Definition dtr (n : net) : dtrace := dtrace_of (n_dh n) (n_douts n).

(** Session ids are not reused; a client uses each request id once; and when
    the router comes to a message, it is polite
    (DealerSpec.v: nobody joins a shared procedure twice, and nobody gives up a
    registration it does not hold or that others share). *)
Definition rules (n : net) (e : nevent) : Prop :=
  match e with
  | NJoin d => se_id d ∉ n_ever n
  | NSend c m => forall cl, n_clients n !! c = Some cl ->
      forall r, request_of m = Some r -> r ∉ cl_used cl
  | NRoute o c => forall cl m rest, n_clients n !! c = Some cl -> cl_up cl = m :: rest ->
      polite (dtr n) (DReceive c m)
  | _ => True
  end.
Fixpoint follows (n : net) (es : list nevent) : Prop :=
  match es with [] => True | e :: es' => rules n e /\ follows (nstep n e) es' end.

(** The request ids of the CALLs in a queue; of the messages in a queue that
    end a call. *)
Definition call_ids (q : list message) : list N :=
  omap (fun m => match m with MCall x => Some (ca_request x) | _ => None end) q.
Definition answer_ids (q : list message) : list N :=
  omap (fun m => match m with
                 | MResult x => if says (re_details x) "progress" then None else Some (re_request x)
                 | MError x => if er_type x =? tCall then Some (er_request x) else None
                 | _ => None
                 end) q.

(** Rules a client can keep by looking at nothing but its own session: every
    request id is used once; procedures are registered for oneself (not to be
    shared); and a registration is given up only if the session knows it, and
    only once. *)
Definition careful (n : net) (e : nevent) : Prop :=
  match e with
  | NJoin d => se_id d ∉ n_ever n
  | NSend c m => forall cl, n_clients n !! c = Some cl ->
      (forall r, request_of m = Some r -> r ∉ cl_used cl)
      /\ match m with
         | MRegister x => invoke_policy x = "" \/ invoke_policy x = "single"
         | MUnregister x => ur_registration x ∈ cs_registrations (cl_session cl)
             /\ forall r, cs_unregisters (cl_session cl) !! r <> Some (ur_registration x)
         | _ => True
         end
  | _ => True
  end.
Fixpoint carefully (n : net) (es : list nevent) : Prop :=
  match es with [] => True | e :: es' => careful n e /\ carefully (nstep n e) es' end.

(** The messages client [c] gets from its session in an event, and the request
    id of the CALL it makes; and in a whole run. *)
Definition delivers (c : N) (n : net) (e : nevent) : list message :=
  match e with
  | NDeliver x =>
      if x =? c then match n_clients n !! x with Some (Client _ _ (m :: _) _) => [m] | _ => [] end else []
  | _ => []
  end.
Definition makes_call (c : N) (n : net) (e : nevent) : list N :=
  match e with
  | NSend x (MCall m) => if (x =? c) && bool_decide (is_Some (n_clients n !! x)) then [ca_request m] else []
  | _ => []
  end.
Fixpoint delivered (c : N) (n : net) (es : list nevent) : list message :=
  match es with [] => [] | e :: es' => delivers c n e ++ delivered c (nstep n e) es' end%list.
Fixpoint calls_made (c : N) (n : net) (es : list nevent) : list N :=
  match es with [] => [] | e :: es' => makes_call c n e ++ calls_made c (nstep n e) es' end%list.

Fixpoint exactly_one (l : list Prop) : Prop :=
  match l with [] => False | P :: l' => (P /\ Forall not l') \/ (~ P /\ exactly_one l') end.

(** What message [a] for client [c] goes back to, [es] being all that
    happened: who sent what, and that nothing was altered on the way.  A RESULT
    or ERROR for a call comes from a YIELD or ERROR for the invocation made for
    that very call. *)
Definition explained (n : net) (es : list nevent) (c : N) (a : message) : Prop :=
  match a with
  | MSubscribed x => exists m, NSend c (MSubscribe m) ∈ es /\ sd_request x = su_request m
  | MUnsubscribed x => exists m, NSend c (MUnsubscribe m) ∈ es /\ ud_request x = us_request m
  | MPublished x => exists m, NSend c (MPublish m) ∈ es /\ pd_request x = pu_request m
                              /\ says (pu_options m) "acknowledge" = true
  | MRegistered x => exists m, NSend c (MRegister m) ∈ es /\ rd_request x = rg_request m
  | MUnregistered x => exists m, NSend c (MUnregister m) ∈ es /\ un_request x = ur_request m
  | MEvent e => exists s p, NSend s (MPublish p) ∈ es /\ ev_args e = pu_args p /\ ev_kwargs e = pu_kwargs p
  | MInvocation v => exists s call d who,
      NSend s (MCall call) ∈ es /\ NJoin d ∈ es /\ se_id d = c
      /\ (who = None \/ exists w, who = Some w /\ NJoin w ∈ es /\ se_id w = s)
      /\ v = invocation_for call (in_request v) (in_registration v) (invocation_details call s who) d
      /\ (DReceive s (MCall call), DMsg a c) ∈ dtr n
  | MResult x => exists call v callee s y d,
      NSend c (MCall call) ∈ es /\ (DReceive c (MCall call), DMsg (MInvocation v) callee) ∈ dtr n
      /\ NSend s (MYield y) ∈ es /\ (DReceive s (MYield y), DMsg a c) ∈ dtr n /\ yi_request y = in_request v
      /\ NJoin d ∈ es /\ se_id d = c
      /\ x = result_for y (ca_request call)
               (says (ca_options call) "receive_progress" && says (yi_options y) "progress") d
  | MError x =>
      (exists call, NSend c (MCall call) ∈ es /\ (DReceive c (MCall call), DMsg a c) ∈ dtr n
         /\ a = refusal 48 (ca_request call) "wamp.error.no_such_procedure")
      \/ (exists reg, NSend c (MRegister reg) ∈ es /\ (DReceive c (MRegister reg), DMsg a c) ∈ dtr n
         /\ a = refusal 64 (rg_request reg) "wamp.error.procedure_already_exists")
      \/ exists call v callee s y,
         NSend c (MCall call) ∈ es /\ (DReceive c (MCall call), DMsg (MInvocation v) callee) ∈ dtr n
         /\ NSend s (MError y) ∈ es /\ (DReceive s (MError y), DMsg a c) ∈ dtr n /\ er_type y = 68 /\ er_request y = in_request v
         /\ x = Error 48 (ca_request call) (or_empty (er_details y)) (er_uri y) (er_args y) (er_kwargs y)
  | _ => False
  end.

(** [careful] with one of its rules left out. *)
Inductive rule : Type := FreshSession | FreshRequest | NotShared | GiveUpOwn | GiveUpOnce.
Definition careful_but (x : rule) (n : net) (e : nevent) : Prop :=
  match e with
  | NJoin d => x = FreshSession \/ se_id d ∉ n_ever n
  | NSend c m => forall cl, n_clients n !! c = Some cl ->
      (x = FreshRequest \/ forall r, request_of m = Some r -> r ∉ cl_used cl)
      /\ match m with
         | MRegister m => x = NotShared \/ invoke_policy m = "" \/ invoke_policy m = "single"
         | MUnregister m =>
             (x = GiveUpOwn \/ ur_registration m ∈ cs_registrations (cl_session cl))
             /\ (x = GiveUpOnce \/ forall r, cs_unregisters (cl_session cl) !! r <> Some (ur_registration m))
         | _ => True
         end
  | _ => True
  end.
Fixpoint carefully_but (x : rule) (n : net) (es : list nevent) : Prop :=
  match es with [] => True | e :: es' => careful_but x n e /\ carefully_but x (nstep n e) es' end.
