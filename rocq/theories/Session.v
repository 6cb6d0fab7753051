(** /repo/session.go: the client side of an established session.

    internal.Map (internal/map.go) is sync.Map with types: each of its methods
    is one atomic access, so SendMessage and ReceiveMessage are written as
    programs of such accesses ([prog] of Mutex.v); calling a method alone is
    [run_prog]. *)
From Verif Require Import Prelude Value Msg Mutex.

(** Session, session.go:11-26.  A Map[uint64, struct{}] is a set. *)
Record session : Type := Session {
  cs_calls : gset N;           (* callRequests *)
  cs_registers : gset N;       (* registerRequests *)
  cs_registrations : gset N;   (* registrations *)
  cs_invocations : gset N;     (* invocationRequests *)
  cs_unregisters : gmap N N;   (* unregisterRequests *)
  cs_publishes : gset N;       (* publishRequests *)
  cs_subscribes : gset N;      (* subscribeRequests *)
  cs_subscriptions : gset N;   (* subscriptions *)
  cs_unsubscribes : gmap N N   (* unsubscribeRequests *) }.

(** NewSession, session.go:28-47. *)
Definition new_session : session := Session ∅ ∅ ∅ ∅ ∅ ∅ ∅ ∅ ∅.

Definition cset_calls x s := Session x (cs_registers s) (cs_registrations s) (cs_invocations s) (cs_unregisters s) (cs_publishes s) (cs_subscribes s) (cs_subscriptions s) (cs_unsubscribes s).
Definition cset_registers x s := Session (cs_calls s) x (cs_registrations s) (cs_invocations s) (cs_unregisters s) (cs_publishes s) (cs_subscribes s) (cs_subscriptions s) (cs_unsubscribes s).
Definition cset_registrations x s := Session (cs_calls s) (cs_registers s) x (cs_invocations s) (cs_unregisters s) (cs_publishes s) (cs_subscribes s) (cs_subscriptions s) (cs_unsubscribes s).
Definition cset_invocations x s := Session (cs_calls s) (cs_registers s) (cs_registrations s) x (cs_unregisters s) (cs_publishes s) (cs_subscribes s) (cs_subscriptions s) (cs_unsubscribes s).
Definition cset_unregisters x s := Session (cs_calls s) (cs_registers s) (cs_registrations s) (cs_invocations s) x (cs_publishes s) (cs_subscribes s) (cs_subscriptions s) (cs_unsubscribes s).
Definition cset_publishes x s := Session (cs_calls s) (cs_registers s) (cs_registrations s) (cs_invocations s) (cs_unregisters s) x (cs_subscribes s) (cs_subscriptions s) (cs_unsubscribes s).
Definition cset_subscribes x s := Session (cs_calls s) (cs_registers s) (cs_registrations s) (cs_invocations s) (cs_unregisters s) (cs_publishes s) x (cs_subscriptions s) (cs_unsubscribes s).
Definition cset_subscriptions x s := Session (cs_calls s) (cs_registers s) (cs_registrations s) (cs_invocations s) (cs_unregisters s) (cs_publishes s) (cs_subscribes s) x (cs_unsubscribes s).
Definition cset_unsubscribes x s := Session (cs_calls s) (cs_registers s) (cs_registrations s) (cs_invocations s) (cs_unregisters s) (cs_publishes s) (cs_subscribes s) (cs_subscriptions s) x.

(** What a method returns: bytes (SendMessage), a message (ReceiveMessage), or
    an error; a panic of the serializer passes through. *)
Inductive sout : Type := SData (b : string) | SMessage (m : message).
Notation sprog := (prog session (res sout)).

(** internal.Map: Store and Delete (internal/map.go:9-11, 43-45) are one write. *)
Definition write (f : session -> session) (k : sprog) : sprog := PAct (fun s => (f s, k)).
(** Load (internal/map.go:13-20) is one read. *)
Definition load {V} (get : session -> V) (k : V -> sprog) : sprog :=
  PAct (fun s => (s, k (get s))).
(** LoadAndDelete (internal/map.go:22-29) reads and deletes in one access. *)
Definition load_and_delete {V} (get : session -> V) (del : session -> session)
  (k : V -> sprog) : sprog := PAct (fun s => (del s, k (get s))).

(** v, _ := options[key].(bool). *)
Definition flag (m : gomap) (key : string) : bool := to_bool (mget m key).

(** SendMessage after serialization, session.go:55-116; [data] is what
    Serialize returned. *)
Definition send_prog (data : string) (m : message) : sprog :=
  let ok : sprog := PRet (Ok (SData data)) in
  match m with
  | MCall c => write (fun s => cset_calls ({[ca_request c]} ∪ cs_calls s) s) ok
  | MYield y =>
      if flag (yi_options y) "progress" then ok
      else write (fun s => cset_invocations (cs_invocations s ∖ {[yi_request y]}) s) ok
  | MRegister r => write (fun s => cset_registers ({[rg_request r]} ∪ cs_registers s) s) ok
  | MUnregister u =>
      write (fun s => cset_unregisters (<[ur_request u := ur_registration u]> (cs_unregisters s)) s) ok
  | MPublish p =>
      if flag (pu_options p) "acknowledge"
      then write (fun s => cset_publishes ({[pu_request p]} ∪ cs_publishes s) s) ok
      else ok
  | MSubscribe u => write (fun s => cset_subscribes ({[su_request u]} ∪ cs_subscribes s) s) ok
  | MUnsubscribe u =>
      load (fun s => bool_decide (us_subscription u ∈ cs_subscriptions s)) (fun found =>
        if found
        then write (fun s => cset_unsubscribes
                               (<[us_request u := us_subscription u]> (cs_unsubscribes s)) s) ok
        else PRet (Err "unsubscribe request for non existent subscription"))
  | MError e =>
      if negb (er_type e =? tInvocation) then PRet (Err "send only supported for invocation error")
      else write (fun s => cset_invocations (cs_invocations s ∖ {[er_request e]}) s) ok
  | MGoodbye _ => ok
  | _ => PRet (Err "send not supported")
  end.

(** ReceiveMessage, session.go:128-268. *)
Definition receive_prog (m : message) : sprog :=
  let ok : sprog := PRet (Ok (SMessage m)) in
  let invalid : sprog := PRet (Err "invalid request id") in
  match m with
  | MResult r =>
      load (fun s => bool_decide (re_request r ∈ cs_calls s)) (fun found =>
        if found then
          if flag (re_details r) "progress" then ok
          else write (fun s => cset_calls (cs_calls s ∖ {[re_request r]}) s) ok
        else invalid)
  | MRegistered r =>
      load_and_delete (fun s => bool_decide (rd_request r ∈ cs_registers s))
        (fun s => cset_registers (cs_registers s ∖ {[rd_request r]}) s) (fun found =>
        if found
        then write (fun s => cset_registrations ({[rd_registration r]} ∪ cs_registrations s) s) ok
        else invalid)
  | MUnregistered u =>
      load (fun s => cs_unregisters s !! un_request u) (fun found =>
        match found with
        | None => invalid
        | Some g =>
            load_and_delete (fun s => bool_decide (g ∈ cs_registrations s))
              (fun s => cset_registrations (cs_registrations s ∖ {[g]}) s) (fun found =>
              if found then ok else invalid)
        end)
  | MInvocation i =>
      load (fun s => bool_decide (in_registration i ∈ cs_registrations s)) (fun found =>
        if found
        then write (fun s => cset_invocations ({[in_request i]} ∪ cs_invocations s) s) ok
        else invalid)
  | MPublished p =>
      load_and_delete (fun s => bool_decide (pd_request p ∈ cs_publishes s))
        (fun s => cset_publishes (cs_publishes s ∖ {[pd_request p]}) s) (fun found =>
        if found then ok else invalid)
  | MSubscribed u =>
      load (fun s => bool_decide (sd_request u ∈ cs_subscribes s)) (fun found =>
        if found
        then write (fun s => cset_subscriptions ({[sd_subscription u]} ∪ cs_subscriptions s) s) ok
        else invalid)
  | MUnsubscribed u =>
      load (fun s => cs_unsubscribes s !! ud_request u) (fun found =>
        match found with
        | None => invalid
        | Some g =>
            load_and_delete (fun s => bool_decide (g ∈ cs_subscriptions s))
              (fun s => cset_subscriptions (cs_subscriptions s ∖ {[g]}) s) (fun found =>
              if found then ok else invalid)
        end)
  | MEvent e =>
      load (fun s => bool_decide (ev_subscription e ∈ cs_subscriptions s)) (fun found =>
        if found then ok else invalid)
  | MError e =>
      let r := er_request e in
      if er_type e =? tCall then
        load_and_delete (fun s => bool_decide (r ∈ cs_calls s))
          (fun s => cset_calls (cs_calls s ∖ {[r]}) s) (fun found => if found then ok else invalid)
      else if er_type e =? tRegister then
        load_and_delete (fun s => bool_decide (r ∈ cs_registers s))
          (fun s => cset_registers (cs_registers s ∖ {[r]}) s) (fun found => if found then ok else invalid)
      else if er_type e =? tUnregister then
        load_and_delete (fun s => bool_decide (is_Some (cs_unregisters s !! r)))
          (fun s => cset_unregisters (delete r (cs_unregisters s)) s) (fun found => if found then ok else invalid)
      else if er_type e =? tSubscribe then
        load_and_delete (fun s => bool_decide (r ∈ cs_subscribes s))
          (fun s => cset_subscribes (cs_subscribes s ∖ {[r]}) s) (fun found => if found then ok else invalid)
      else if er_type e =? tUnsubscribe then
        load_and_delete (fun s => bool_decide (is_Some (cs_unsubscribes s !! r)))
          (fun s => cset_unsubscribes (delete r (cs_unsubscribes s)) s) (fun found => if found then ok else invalid)
      else if er_type e =? tPublish then
        load_and_delete (fun s => bool_decide (r ∈ cs_publishes s))
          (fun s => cset_publishes (cs_publishes s ∖ {[r]}) s) (fun found => if found then ok else invalid)
      else PRet (Err "unknown error message type")
  | MGoodbye _ => ok
  | MAbort _ => ok
  | _ => PRet (Err "unknown message type")
  end.

(** The methods.  The serializer is any: an operation carries what Serialize
    or Deserialize returned (bytes or a message, an error, or a panic). *)
Inductive sop : Type :=
| SSend (data : res string) (m : message)      (* SendMessage *)
| SReceive (decoded : res message)             (* Receive *)
| SReceiveMessage (m : message).               (* ReceiveMessage *)

(** SendMessage (session.go:49-117), Receive (119-126), ReceiveMessage. *)
Definition sop_prog (op : sop) : sprog :=
  match op with
  | SSend (Ok data) m => send_prog data m
  | SSend (Err e) _ => PRet (Err e)
  | SSend (Panic w) _ => PRet (Panic w)
  | SReceive (Ok m) => receive_prog m
  | SReceive (Err e) => PRet (Err e)
  | SReceive (Panic w) => PRet (Panic w)
  | SReceiveMessage m => receive_prog m
  end.

(** One call with nobody else using the session; and a history of calls. *)
Definition sstep (s : session) (op : sop) : session * res sout := run_prog (sop_prog op) s.
Fixpoint srun (s : session) (h : list sop) : session * list (res sout) :=
  match h with
  | [] => (s, [])
  | op :: h' =>
      let (s1, r) := sstep s op in
      let (s2, rs) := srun s1 h' in (s2, r :: rs)
  end.

(** Goroutines using one session without any lock: every access may be
    followed by one of any other goroutine.  [g_log] is a history variable:
    the calls begun and the calls returned, latest first. *)
Inductive gevent : Type := GBegin (op : sop) | GEnd (op : sop) (r : res sout).
Record gothread : Type := GoThread { gt_todo : list sop; gt_now : option (sop * sprog) }.
Record gconfig : Type := GConfig { g_state : session; g_threads : list gothread; g_log : list gevent }.

Inductive gstep : gconfig -> gconfig -> Prop :=
| gstep_begin t op todo s th log :
    th !! t = Some (GoThread (op :: todo) None) ->
    gstep (GConfig s th log)
          (GConfig s (<[t := GoThread todo (Some (op, sop_prog op))]> th) (GBegin op :: log))
| gstep_access t op f todo s s' p' th log :
    th !! t = Some (GoThread todo (Some (op, PAct f))) -> f s = (s', p') ->
    gstep (GConfig s th log) (GConfig s' (<[t := GoThread todo (Some (op, p'))]> th) log)
| gstep_end t op r todo s th log :
    th !! t = Some (GoThread todo (Some (op, PRet r))) ->
    gstep (GConfig s th log) (GConfig s (<[t := GoThread todo None]> th) (GEnd op r :: log)).

Inductive greach (c0 : gconfig) : gconfig -> Prop :=
| greach_refl : greach c0 c0
| greach_step c c' : greach c0 c -> gstep c c' -> greach c0 c'.

(** The start: a new session, goroutine [t] about to make the calls [work !! t]. *)
Definition ginit (work : list (list sop)) : gconfig :=
  GConfig new_session (map (fun w => GoThread w None) work) [].
