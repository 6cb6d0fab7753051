(** Property C103: subscriptions, events and answers at a router put together
    from Acceptor, Broker and Dealer (Realm.v), whatever its clients send; the
    words used are defined in RealmSpec.v and RealmTopics.v. *)
From Verif Require Import Prelude Value Msg IdGen Types PathMatch Auth Acceptor AuthSpec AuthEx Broker BrokerSpec Dealer DealerSpec DealerEx
  Realm RealmSpec RealmEx RealmTopics RealmTopicsProofs.

Local Open Scope string_scope.
Local Open Scope list_scope.

(** ** C103 *)
(** What the router gives in reaction to each message it takes. *)
Theorem C103_answered : forall (CR : Crypto) statics ops r u new i m past, N.of_nat (length ops) <= two53 ->
  rrun ops (new_realm statics) = Ret r u -> rl_log r = new ++ RTook i m :: past ->
  answered past i m (reaction new).
Proof. exact @all_answered. Qed.
(** It gives nothing otherwise. *)
Theorem C103_nothing_unasked : forall (CR : Crypto) statics ops r u new j a past, N.of_nat (length ops) <= two53 ->
  rrun ops (new_realm statics) = Ret r u -> rl_log r = new ++ RGave j a :: past ->
  exists new' i m old, rl_log r = new' ++ RTook i m :: old /\ (j, a) ∈ reaction new'
    /\ answered old i m (reaction new').
Proof. exact @nothing_unasked. Qed.
(** So an EVENT is for a connection that has the subscription it names. *)
Theorem C103_event_wanted : forall (CR : Crypto) statics ops r u new j e past, N.of_nat (length ops) <= two53 ->
  rrun ops (new_realm statics) = Ret r u -> rl_log r = new ++ RGave j (MEvent e) :: past ->
  exists gs i p old t, past = gs ++ RTook i (MPublish p) :: old
    /\ Forall (fun g => exists k, g = RGave k (MEvent e)) gs
    /\ ev_args e = pu_args p /\ ev_kwargs e = pu_kwargs p /\ has old j t (ev_subscription e)
    /\ (t = pu_topic p \/ exists k s, RTook k (MSubscribe s) ∈ old /\ su_topic s = t /\ pattern_for s (pu_topic p)).
Proof. exact @event_wanted. Qed.

(** Connections 1 and 2 subscribe, one to a topic, one to a prefix.  2 tries to
    end 1's subscription in vain.  1 leaves, and its session id is drawn again
    for connection 3, which is given nothing. *)
Definition pub (q : N) (t : string) : message :=
  MPublish (Publish q (Some [("acknowledge", VBool true)]) t (Some [VStr t]) None).
Definition ops_topics : list rop :=
  join_alice 0 11 ++ join_anon 1 12 ++ join_anon 2 13 ++
  [rmsg 1 (MSubscribe (Subscribe 1 (Some []) "a.t"));
   rmsg 2 (MSubscribe (Subscribe 1 (Some [("match", VStr "prefix")]) "a."));
   rmsg 2 (MUnsubscribe (Unsubscribe 2 1));
   rmsg 0 (pub 1 "a.t"); rmsg 0 (pub 2 "a.b"); RClose 1 e0] ++
  join_anon 3 12 ++ [rmsg 0 (pub 3 "a.t"); rmsg 3 (MGoodbye (Goodbye (Some []) "bye"))].
Example C103_ex : forall CR : Crypto, exists e1 e2 e3,
  gaves ops_topics = [RGave 0 (MPublished (Published 3 5)); RGave 2 (MEvent e3);
     RGave 0 (MPublished (Published 2 4)); RGave 2 (MEvent e2);
     RGave 0 (MPublished (Published 1 3)); RGave 1 (MEvent e1);
     RGave 2 (MSubscribed (Subscribed 1 2)); RGave 1 (MSubscribed (Subscribed 1 1))]
  /\ ev_subscription e1 = 1 /\ ev_args e1 = Some [VStr "a.t"]
  /\ ev_subscription e2 = 2 /\ ev_subscription e3 = 2 /\ ev_args e3 = Some [VStr "a.t"]
  /\ is_Some (on (rlog ops_topics) 3).
Proof. intros CR. do 3 eexists. split; [vm_compute; reflexivity|]. repeat split; vm_compute; by eauto. Qed.
(** The first publication in this log. *)
Example C103_ex_publish : forall CR : Crypto, exists new p past e,
  rlog ops_topics = new ++ RTook 0 (MPublish p) :: past /\ pu_topic p = "a.t"
  /\ reaction new = [(1%nat, MEvent e); (0%nat, MPublished (Published 1 3))]
  /\ has past 1 "a.t" 1 /\ has past 2 "a." 2 /\ ~ has past 2 "a." 1.
Proof.
  intros CR. exists (take 15 (rlog ops_topics)), (Publish 1 (Some [("acknowledge", VBool true)]) "a.t" (Some [VStr "a.t"]) None),
    (drop 16 (rlog ops_topics)). eexists.
  split; [vm_compute; reflexivity|]. split; [done|]. split; [vm_compute; reflexivity|].
  split; [vm_compute; tauto|]. split; [vm_compute; intuition congruence|]. vm_compute. intuition congruence.
Qed.

(** * Assumptions *)
Print Assumptions C103_answered.
Print Assumptions C103_nothing_unasked.
Print Assumptions C103_event_wanted.
