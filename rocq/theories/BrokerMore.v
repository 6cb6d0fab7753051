(** More about pattern subscriptions. *)
From Verif Require Import Prelude Value Msg IdGen Types PathMatch Broker BrokerSpec BrokerFacts BrokerProofs.

Definition matches (t : string) (pol : policy) (topic : string) : Prop :=
  match pol with
  | PExact => False | PPrefix => is_prefix t topic | PWildcard => wildcard_match topic t = true
  end.

(** The only pattern that matches is served to all its subscribers. *)
Lemma single_pattern h o sid p b outs ev rs ack t pol id :
  N.of_nat (length h) < two53 ->
  brun new_broker (h ++ [(o, BPublish sid p)]) = Ret b (outs ++ [BPubl ev rs ack]) ->
  (forall x i, ~ holds (trace_of h outs) x (pu_topic p) i) ->
  searchable (trace_of h outs) t pol id -> matches t pol (pu_topic p) ->
  (forall t' pol' id', searchable (trace_of h outs) t' pol' id' -> matches t' pol' (pu_topic p) ->
     t' = t /\ pol' = pol /\ id' = id) ->
  (exists e, ev = Some e /\ ev_subscription e = id)
  /\ NoDup rs /\ forall x, x ∈ rs <-> exists t', holds (trace_of h outs) x t' id.
Proof.
  intros Hl R Hno Hs Hm Honly.
  assert (E : exists e, ev = Some e /\ ev_subscription e = id).
  { destruct pol; [done| |].
    - eapply pub_prefix; [exact Hl|exact R|exact Hno|exact Hs|exact Hm|].
      intros t' id' H1 H2. by destruct (Honly t' PPrefix id' H1 H2) as (-> & _).
    - pose proof (pub_wildcard _ _ _ _ _ _ _ _ _ Hl R Hno) as H.
      destruct ev as [e|].
      + exists e. split; [done|]. destruct H as (t' & H1 & H2).
        { intros t' i H1 H2. destruct (Honly t' PPrefix i H1 H2) as (_ & [=] & _). }
        by destruct (Honly t' PWildcard _ H1 H2) as (_ & _ & ->).
      + exfalso. cbn [matches] in Hm. assert (K : wildcard_match (pu_topic p) t = false); [|congruence].
        eapply H; [|exact Hs]. intros t' i H1 H2. destruct (Honly t' PPrefix i H1 H2) as (_ & [=] & _). }
  destruct E as (e & -> & <-). split; [eauto|].
  destruct (pub_recipients _ _ _ _ _ _ _ _ _ Hl R e eq_refl) as (H1 & _ & H2). done.
Qed.

Lemma searchable_persists tr2 tr1 t pol id : searchable tr1 t pol id ->
  (forall newer c older y, tr2 = newer ++ c :: older -> holds (older ++ tr1) y t id -> ~ is_ended c y id) ->
  searchable (tr2 ++ tr1) t pol id.
Proof.
  intros Hs. induction tr2 as [|c tr2 IH]; cbn [app searchable]; intros H; [done|]. right. split.
  - apply IH. intros newer c' older y -> . eapply (H (c :: newer)). done.
  - intros y. by apply (H []).
Qed.

Lemma prefix_delivery_persists h1 h2 outs1 outs2 o sid p b ev rs ack x t id :
  N.of_nat (length (h1 ++ h2)) < two53 -> length outs1 = length h1 ->
  brun new_broker ((h1 ++ h2) ++ [(o, BPublish sid p)]) = Ret b ((outs1 ++ outs2) ++ [BPubl ev rs ack]) ->
  let tr := trace_of (h1 ++ h2) (outs1 ++ outs2) in
  holds (trace_of h1 outs1) x t id -> searchable (trace_of h1 outs1) t PPrefix id -> is_prefix t (pu_topic p) ->
  (forall newer c older y, trace_of h2 outs2 = newer ++ c :: older ->
     holds (older ++ trace_of h1 outs1) y t id -> ~ is_ended c y id) ->
  (forall y i, ~ holds tr y (pu_topic p) i) ->
  (forall t' i, searchable tr t' PPrefix i -> is_prefix t' (pu_topic p) -> (String.length t' <= String.length t)%nat) ->
  x ∈ rs /\ exists e, ev = Some e /\ ev_subscription e = id.
Proof.
  intros Hl Ho R tr Hh Hs Hp Hstay Hno Hlong.
  assert (Es : searchable tr t PPrefix id).
  { unfold tr. rewrite trace_of_app by done. by apply searchable_persists. }
  assert (Eh : holds tr x t id).
  { unfold tr. rewrite trace_of_app by done. clear -Hstay Hh. revert Hstay. generalize (trace_of h2 outs2). intros tr2.
    induction tr2 as [|c tr2 IH]; cbn [app holds]; intros H; [done|]. right.
    assert (K : holds (tr2 ++ trace_of h1 outs1) x t id).
    { apply IH. intros newer c' older y ->. eapply (H (c :: newer)). done. }
    split; [done|]. by apply (H [] c tr2 x eq_refl). }
  destruct (pub_prefix _ _ _ _ _ _ _ _ _ Hl R t id Hno Es Hp Hlong) as (e & -> & <-).
  split; [|eauto]. destruct (pub_recipients _ _ _ _ _ _ _ _ _ Hl R e eq_refl) as (_ & _ & H). apply H. eauto.
Qed.
