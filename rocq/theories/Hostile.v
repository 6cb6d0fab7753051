(** The network of Network.v with clients that do not use a Session.

    /repo's broker and dealer take messages from whoever the transports hand
    over (broker.go:102,178, dealer.go:161) and cannot see whether a Session
    (session.go) made them.  Besides everything that may happen in Network.v, a
    session may therefore have the router read any message at any time. *)
From Verif Require Import Prelude Value Msg IdGen Types PathMatch Broker Dealer Session Network NetworkSpec.

Inductive hevent : Type :=
| HNet (e : nevent)
| HForge (o : oracle) (c : N) (m : message).

Definition hstep (n : net) (e : hevent) : net :=
  match e with
  | HNet e => nstep n e
  | HForge o c m => match n_clients n !! c with Some _ => handle o c m n | None => n end
  end.
Fixpoint hrun (n : net) (es : list hevent) : net :=
  match es with [] => n | e :: es' => hrun (hstep n e) es' end.

(** Nobody gets a session id that was used before; the sessions [honest] send
    through their Session and keep the rules of C82 ([careful]).  The others do
    what they like. *)
Definition decent (honest : N -> Prop) (n : net) (e : hevent) : Prop :=
  match e with
  | HNet (NSend c m) => honest c -> careful n (NSend c m)
  | HNet e => careful n e
  | HForge _ c _ => ~ honest c
  end.
Fixpoint decently (honest : N -> Prop) (n : net) (es : list hevent) : Prop :=
  match es with [] => True | e :: es' => decent honest n e /\ decently honest (hstep n e) es' end.

(** What client [c] reads, and the request ids of the CALLs it makes. *)
Definition hreads (c : N) (n : net) (e : hevent) : list message :=
  match e with HNet e => delivers c n e | HForge _ _ _ => [] end.
Definition hcalls (c : N) (n : net) (e : hevent) : list N :=
  match e with HNet e => makes_call c n e | HForge _ _ _ => [] end.
Fixpoint hread (c : N) (n : net) (es : list hevent) : list message :=
  match es with [] => [] | e :: es' => hreads c n e ++ hread c (hstep n e) es' end%list.
Fixpoint hcalled (c : N) (n : net) (es : list hevent) : list N :=
  match es with [] => [] | e :: es' => hcalls c n e ++ hcalled c (hstep n e) es' end%list.
