(** What the users of a router may expect of subscriptions and events, in
    terms of its log (latest first), whatever anybody sends. *)
From Verif Require Import Prelude Value Msg Types PathMatch Broker BrokerSpec Acceptor Realm RealmSpec.

Local Open Scope string_scope.
Local Open Scope list_scope.

(** Connection [i] was just told that it has subscription [id] to [t]; it was
    just told that subscription [id] is no more, or its session was removed. *)
Definition starts (e : revent) (past : list revent) (i : nat) (t : string) (id : N) : Prop :=
  match e, past with
  | RGave j (MSubscribed a), RTook k (MSubscribe m) :: _ =>
      j = i /\ k = i /\ su_topic m = t /\ sd_subscription a = id
  | _, _ => False
  end.
Definition ends (e : revent) (past : list revent) (i : nat) (id : N) : Prop :=
  match e, past with
  | RGave j (MUnsubscribed _), RTook k (MUnsubscribe m) :: _ => j = i /\ k = i /\ us_subscription m = id
  | RDetached j, _ => j = i
  | _, _ => False
  end.
(** Connection [i] has subscription [id] to topic [t]. *)
Fixpoint has (log : list revent) (i : nat) (t : string) (id : N) : Prop :=
  match log with
  | [] => False
  | e :: past => starts e past i t id \/ (has past i t id /\ ~ ends e past i id)
  end.

(** What was given in reaction to a message: [new] is what happened after it
    (latest first), and the router handles one message at a time. *)
Fixpoint given_first (l : list revent) : list (nat * message) :=
  match l with RGave j m :: l' => (j, m) :: given_first l' | _ => [] end.
Definition reaction (new : list revent) : list (nat * message) := given_first (rev new).

(** The SUBSCRIBE asks for a pattern, and the topic matches it. *)
Definition pattern_for (s : subscribe) (topic : string) : Prop :=
  match requested_policy (su_options s) with
  | PExact => False
  | PPrefix => is_prefix (su_topic s) topic
  | PWildcard => wildcard_match topic (su_topic s) = true
  end.

(** What a PUBLISH of [i] leads to: PUBLISHED for [i] if it asked for that, and
    before it at most one event, for exactly the connections that have one
    subscription, once each, with the payload published; if anybody has a
    subscription to this very topic it is that one, and otherwise it is one to
    a pattern that somebody asked for and that the topic matches. *)
Definition published_to (past : list revent) (i : nat) (p : publish) (out : list (nat * message)) : Prop :=
  exists pid ack,
    ack = match mget (pu_options p) "acknowledge" with
          | VBool true => [(i, MPublished (Published (pu_request p) pid))]
          | _ => []
          end
    /\ ((out = ack /\ forall j id, ~ has past j (pu_topic p) id)
        \/ exists e js t, out = map (fun j => (j, MEvent e)) js ++ ack
             /\ ev_publication e = pid /\ ev_args e = pu_args p /\ ev_kwargs e = pu_kwargs p
             /\ js <> [] /\ NoDup js
             /\ (forall j, j ∈ js <-> has past j t (ev_subscription e))
             /\ (t = pu_topic p
                 \/ ((forall j id, ~ has past j (pu_topic p) id)
                     /\ exists k s, RTook k (MSubscribe s) ∈ past /\ su_topic s = t /\ pattern_for s (pu_topic p)))).

(** What may be given in reaction to message [m] of connection [i]: requests
    are answered to the one who asked, under the request's id, or not at all;
    a call reaches one callee, a YIELD or ERROR one caller; any other message
    has no effect. *)
Definition answered (past : list revent) (i : nat) (m : message) (out : list (nat * message)) : Prop :=
  match m with
  | MSubscribe s => exists id, out = [(i, MSubscribed (Subscribed (su_request s) id))]
      /\ (forall j id', has past j (su_topic s) id' -> id' = id)
      /\ (forall j t, has past j t id -> t = su_topic s)
  | MUnsubscribe u =>
      ((exists t, has past i t (us_subscription u)) /\ out = [(i, MUnsubscribed (Unsubscribed (us_request u)))])
      \/ ((forall t, ~ has past i t (us_subscription u)) /\ out = [])
  | MPublish p => published_to past i p out
  | MRegister g =>
      (exists id, out = [(i, MRegistered (Registered (rg_request g) id))])
      \/ exists x, out = [(i, MError x)] /\ er_type x = 64 /\ er_request x = rg_request g
  | MUnregister u => out = [] \/ out = [(i, MUnregistered (Unregistered (ur_request u)))]
  | MCall c => out = []
      \/ (exists j v, out = [(j, MInvocation v)])
      \/ exists x, out = [(i, MError x)] /\ er_type x = 48 /\ er_request x = ca_request c
  | MYield _ => out = [] \/ exists j x, out = [(j, MResult x)]
  | MError _ => out = [] \/ exists j x, out = [(j, MError x)] /\ er_type x = 48
  | _ => out = []
  end.
