(** Properties C21-C34: the broker.  [brun new_broker h = Ret b outs] says that
    the calls of [h], in order, on a new broker return the results [outs]. *)
From Verif Require Import BrokerMore.
From Verif Require Import Prelude Value Msg IdGen Types PathMatch Broker BrokerSpec BrokerSafe BrokerProofs BrokerEx.

(** ** C21: the broker behaves like the topic table of BrokerSpec.v. *)
Theorem C21_refines_table : forall h, N.of_nat (length h) <= two53 ->
  exists b outs s, brun new_broker h = Ret b outs /\ truns empty_table (map snd h) outs s.
Proof. exact broker_refines_table. Qed.
Example C21_ex : outs_of (h_two ++ [(o1, bunsub 2 14 1); (o0, BPublish 3 (pub "a.b" [])); (o0, BHasSub "x.*"); (o0, BRemove 9)])
  = [BOk; BOk; BOk; BMsg (MSubscribed (Subscribed 10 1)) 1; BMsg (MSubscribed (Subscribed 11 1)) 2;
     BMsg (MSubscribed (Subscribed 12 2)) 3; BMsg (MSubscribed (Subscribed 13 3)) 3;
     BMsg (MUnsubscribed (Unsubscribed 14)) 2;
     BPubl (Some (Event 1 4 (Some []) (Some [VStr "hi"]) None)) [1] None; BHas true; BErr "session doesn't exist"].
Proof. vm_compute. reflexivity. Qed.

(** ** C22: no history makes a broker method panic (no bound on its length). *)
Theorem C22_never_panics : forall h, exists b outs,
  brun new_broker h = Ret b outs /\ length outs = length h.
Proof. exact broker_never_panics. Qed.

(** ** C23 *)
Theorem C23_exact_delivery : forall h o sid p b outs ev rs ack,
  N.of_nat (length h) < two53 -> no_patterns (map snd h) ->
  brun new_broker (h ++ [(o, BPublish sid p)]) = Ret b (outs ++ [BPubl ev rs ack]) ->
  NoDup rs /\ (forall x, x ∈ rs <-> exists id, holds (trace_of h outs) x (pu_topic p) id)
  /\ (ev = None <-> forall x id, ~ holds (trace_of h outs) x (pu_topic p) id).
Proof. exact exact_delivery. Qed.
(** With patterns around, publications to a literally subscribed topic still
    reach exactly its subscribers. *)
Theorem C23_literal_delivery : forall h o sid p b outs ev rs ack,
  N.of_nat (length h) < two53 ->
  brun new_broker (h ++ [(o, BPublish sid p)]) = Ret b (outs ++ [BPubl ev rs ack]) ->
  forall x id, holds (trace_of h outs) x (pu_topic p) id ->
  (exists e, ev = Some e /\ ev_subscription e = id)
  /\ NoDup rs /\ forall y, y ∈ rs <-> exists i, holds (trace_of h outs) y (pu_topic p) i.
Proof. exact pub_literal. Qed.
(** Every event, also one found through a pattern, reaches exactly the holders
    of the subscription it names. *)
Theorem C23_recipients_hold : forall h o sid p b outs ev rs ack,
  N.of_nat (length h) < two53 ->
  brun new_broker (h ++ [(o, BPublish sid p)]) = Ret b (outs ++ [BPubl ev rs ack]) ->
  forall e, ev = Some e ->
  NoDup rs /\ rs <> [] /\ forall x, x ∈ rs <-> exists t, holds (trace_of h outs) x t (ev_subscription e).
Proof. exact pub_recipients. Qed.
Example C23_ex :
  let h := history [BAdd (sess 1); BAdd (sess 2); bsub 1 10 "a" []; bsub 2 11 "a" []; bsub 2 12 "a" []; bunsub 1 13 1; bsub 1 14 "a" []] in
  no_patterns (map snd h)
  /\ brun new_broker (h ++ [(o1, BPublish 2 (pub "a" []))])
     = Ret (final (h ++ [(o1, BPublish 2 (pub "a" []))]))
         (outs_of h ++ [BPubl (Some (Event 1 2 (Some []) (Some [VStr "hi"]) None)) [2; 1] None])
  /\ holds (trace_of h (outs_of h)) 1 "a" 1.
Proof.
  split; [|split].
  - intros sid m Hin. repeat (apply elem_of_cons in Hin as [Hin|Hin]; [try discriminate Hin; injection Hin as -> ->; reflexivity|]).
    by apply elem_of_nil in Hin.
  - apply run_is. vm_compute. reflexivity.
  - vm_compute. tauto.
Qed.

(** ** C24 *)
Theorem C24_no_event_after_end : forall h1 h2 o op out outs1 outs2 o' sid p b e rs ack x id,
  N.of_nat (length (h1 ++ (o, op) :: h2)) < two53 ->
  brun new_broker ((h1 ++ (o, op) :: h2) ++ [(o', BPublish sid p)])
    = Ret b ((outs1 ++ out :: outs2) ++ [BPubl (Some e) rs ack]) ->
  length outs1 = length h1 ->
  is_ended (op, out) x id ->
  (forall c t, c ∈ trace_of h2 outs2 -> ~ is_subscribed c x t id) ->
  ev_subscription e = id -> x ∉ rs.
Proof. exact no_event_after_end. Qed.
Example C24_ex : exists b e,
  brun new_broker ((h_two ++ [(o0, bunsub 2 14 1)]) ++ [(o0, BPublish 3 (pub "a.b" []))])
    = Ret b ((outs_of h_two ++ [BMsg (MUnsubscribed (Unsubscribed 14)) 2]) ++ [BPubl (Some e) [1] None])
  /\ ev_subscription e = 1 /\ is_ended (bunsub 2 14 1, BMsg (MUnsubscribed (Unsubscribed 14)) 2) 2 1.
Proof. eexists _, (Event 1 4 (Some []) (Some [VStr "hi"]) None). split; [apply run_is; vm_compute; reflexivity|]. split; [reflexivity|]. by split. Qed.
(** Which UNSUBSCRIBEs are answered by UNSUBSCRIBED: exactly those of a
    subscription the session holds; the others are errors. *)
Theorem C24_unsubscribe_answer : forall h o sid m b outs out, N.of_nat (length h) < two53 ->
  brun new_broker (h ++ [(o, BReceive sid (MUnsubscribe m))]) = Ret b (outs ++ [out]) ->
  (out = BMsg (MUnsubscribed (Unsubscribed (us_request m))) sid
   <-> exists t, holds (trace_of h outs) sid t (us_subscription m))
  /\ ((exists e, out = BErr e) <-> forall t, ~ holds (trace_of h outs) sid t (us_subscription m)).
Proof. exact unsubscribe_answer. Qed.

(** ** C25 *)
Theorem C25_subscription_ids_distinct : forall h b outs op1 out1 op2 out2 x1 x2 t1 t2 id,
  N.of_nat (length h) <= two53 -> brun new_broker h = Ret b outs ->
  (op1, out1) ∈ trace_of h outs -> (op2, out2) ∈ trace_of h outs ->
  is_subscribed (op1, out1) x1 t1 id -> is_subscribed (op2, out2) x2 t2 id -> t1 = t2.
Proof. exact sub_ids_distinct. Qed.
Theorem C25_publication_not_subscription : forall h b outs op out c pid x t,
  N.of_nat (length h) <= two53 -> brun new_broker h = Ret b outs ->
  (op, out) ∈ trace_of h outs -> shows_publication out pid ->
  c ∈ trace_of h outs -> ~ is_subscribed c x t pid.
Proof. exact pub_not_sub. Qed.
Theorem C25_publication_ids_increase : forall h b outs i j oi oj p q,
  N.of_nat (length h) <= two53 -> brun new_broker h = Ret b outs ->
  (i < j)%nat -> outs !! i = Some oi -> outs !! j = Some oj ->
  shows_publication oi p -> shows_publication oj q -> p < q.
Proof. exact pub_ids_increase. Qed.
(** SUBSCRIBE of an attached session is answered; with the id the topic's
    subscribers hold if there are any, else with one never used before. *)
Theorem C25_subscribe_answer : forall h o sid m b outs out, N.of_nat (length h) < two53 ->
  brun new_broker (h ++ [(o, BReceive sid (MSubscribe m))]) = Ret b (outs ++ [out]) ->
  attached (trace_of h outs) sid ->
  exists id, out = BMsg (MSubscribed (Subscribed (su_request m) id)) sid
    /\ (forall x i, holds (trace_of h outs) x (su_topic m) i -> i = id)
    /\ ((forall x i, ~ holds (trace_of h outs) x (su_topic m) i) ->
        (forall c x t, c ∈ trace_of h outs -> ~ is_subscribed c x t id)
        /\ forall op o' , (op, o') ∈ trace_of h outs -> ~ shows_publication o' id).
Proof. exact subscribe_answer. Qed.
Example C25_ex : let h := h_two ++ [(o0, BPublish 3 (pub "a.b" [])); (o0, BPublish 3 (pub "q" [("acknowledge", VBool true)]%string))] in
  exists o7 o8, outs_of h !! 7%nat = Some o7 /\ outs_of h !! 8%nat = Some o8
  /\ shows_publication o7 4 /\ shows_publication o8 5
  /\ is_subscribed (bsub 1 10 "a.b" [], BMsg (MSubscribed (Subscribed 10 1)) 1) 1 "a.b" 1.
Proof.
  eexists _, _. split; [vm_compute; reflexivity|]. split; [vm_compute; reflexivity|]. cbn. split; [left; by eexists|].
  split; [right; by eexists _, _|]. done.
Qed.

(** ** C26 *)
Theorem C26_acknowledgement : forall h o sid p b outs ev rs ack, N.of_nat (length h) < two53 ->
  brun new_broker (h ++ [(o, BPublish sid p)]) = Ret b (outs ++ [BPubl ev rs ack]) ->
  attached (trace_of h outs) sid /\ exists pid,
    ack = match mget (pu_options p) "acknowledge" with
          | VBool true => Some (MPublished (Published (pu_request p) pid), sid)
          | _ => None
          end
    /\ forall e, ev = Some e -> ev_publication e = pid.
Proof. exact pub_ack. Qed.
Theorem C26_published_iff_attached : forall h o sid p b outs out, N.of_nat (length h) < two53 ->
  brun new_broker (h ++ [(o, BPublish sid p)]) = Ret b (outs ++ [out]) ->
  (exists ev rs ack, out = BPubl ev rs ack) <-> attached (trace_of h outs) sid.
Proof. exact publish_error_iff. Qed.
Example C26_ex : exists b,
  brun new_broker (h_two ++ [(o0, BPublish 1 (pub "nobody" [("acknowledge", VBool true)]%string))])
  = Ret b (outs_of h_two ++ [BPubl None [] (Some (MPublished (Published 77 4), 1))]).
Proof. eexists. apply run_is. vm_compute. reflexivity. Qed.

(** ** C27 *)
Theorem C27_exact_first : forall h o sid p b outs ev rs ack,
  N.of_nat (length h) < two53 ->
  brun new_broker (h ++ [(o, BPublish sid p)]) = Ret b (outs ++ [BPubl ev rs ack]) ->
  forall x id, holds (trace_of h outs) x (pu_topic p) id ->
  (exists e, ev = Some e /\ ev_subscription e = id)
  /\ NoDup rs /\ forall y, y ∈ rs <-> exists i, holds (trace_of h outs) y (pu_topic p) i.
Proof. exact pub_literal. Qed.
Theorem C27_longest_prefix_second : forall h o sid p b outs ev rs ack,
  N.of_nat (length h) < two53 ->
  brun new_broker (h ++ [(o, BPublish sid p)]) = Ret b (outs ++ [BPubl ev rs ack]) ->
  forall t id,
  (forall x i, ~ holds (trace_of h outs) x (pu_topic p) i) ->
  searchable (trace_of h outs) t PPrefix id -> is_prefix t (pu_topic p) ->
  (forall t' id', searchable (trace_of h outs) t' PPrefix id' -> is_prefix t' (pu_topic p) ->
     (String.length t' <= String.length t)%nat) ->
  exists e, ev = Some e /\ ev_subscription e = id.
Proof. exact pub_prefix. Qed.
Theorem C27_wildcard_last : forall h o sid p b outs ev rs ack,
  N.of_nat (length h) < two53 ->
  brun new_broker (h ++ [(o, BPublish sid p)]) = Ret b (outs ++ [BPubl ev rs ack]) ->
  (forall x i, ~ holds (trace_of h outs) x (pu_topic p) i) ->
  (forall t id, searchable (trace_of h outs) t PPrefix id -> ~ is_prefix t (pu_topic p)) ->
  match ev with
  | Some e => exists t, searchable (trace_of h outs) t PWildcard (ev_subscription e)
                /\ wildcard_match (pu_topic p) t = true
  | None => forall t id, searchable (trace_of h outs) t PWildcard id -> wildcard_match (pu_topic p) t = false
  end.
Proof. exact pub_wildcard. Qed.
Example C27_ex : 
  map (fun t => match outs_of (h_two ++ [(o0, BPublish 1 (pub t []))]) !! 7%nat with
                | Some (BPubl (Some e) rs _) => (ev_subscription e, rs) | _ => (0, []) end)
      ["a.b"; "a.bc"; "x.y"; "x.y/z"]%string
  = [(1, [1; 2]); (2, [3]); (3, [3]); (0, [])]
  /\ searchable (trace_of h_two (outs_of h_two)) "a" PPrefix 2
  /\ searchable (trace_of h_two (outs_of h_two)) "x.*" PWildcard 3.
Proof.
  split; [vm_compute; reflexivity|]. unfold h_two.
  split; vm_compute; repeat (first [left; split; [by repeat split|intros x i H; decompose [or and] H; done]
    | right; split; [|intros x _ H; exact H]]).
Qed.

(** ** C28 *)
Theorem C28_payload_and_disclosure : forall h o sid p b outs ev rs ack,
  N.of_nat (length h) < two53 ->
  brun new_broker (h ++ [(o, BPublish sid p)]) = Ret b (outs ++ [BPubl ev rs ack]) ->
  forall e, ev = Some e ->
  ev_args e = pu_args p /\ ev_kwargs e = pu_kwargs p
  /\ exists d, added (trace_of h outs) sid d
     /\ ev_details e = Some (event_details (disclosing (trace_of h outs)) (pu_topic p) d sid).
Proof. exact pub_payload. Qed.
Example C28_ex : exists b,
  brun new_broker ((h_two ++ [(o0, BDisclose true)]) ++ [(o0, BPublish 1 (pub "a.bc" []))])
  = Ret b ((outs_of h_two ++ [BOk]) ++ [BPubl (Some (Event 2 4
       (Some [("topic", VStr "a.bc"); ("publisher", VInt KUint64 1); ("publisher_authid", VStr "john");
              ("publisher_authrole", VStr "user")]%string) (Some [VStr "hi"]) None)) [3] None]).
Proof. eexists. apply run_is. vm_compute. reflexivity. Qed.

(** ** C29: what others do does not stop delivery to a literal subscriber … *)
Theorem C29_literal_partial : forall h1 h2 outs1 outs2 o sid p b ev rs ack x id,
  N.of_nat (length (h1 ++ h2)) < two53 ->
  length outs1 = length h1 ->
  brun new_broker ((h1 ++ h2) ++ [(o, BPublish sid p)]) = Ret b ((outs1 ++ outs2) ++ [BPubl ev rs ack]) ->
  holds (trace_of h1 outs1) x (pu_topic p) id ->
  (forall c, c ∈ trace_of h2 outs2 -> ~ is_ended c x id) ->
  x ∈ rs /\ exists e, ev = Some e /\ ev_subscription e = id.
Proof. exact literal_delivery_persists. Qed.
(** … nor to a subscriber of the longest prefix that serves a topic, unless another
    subscriber of that prefix leaves it, or the topic itself or a longer prefix
    gets subscribers … *)
Theorem C29_prefix_partial : forall h1 h2 outs1 outs2 o sid p b ev rs ack x t id,
  N.of_nat (length (h1 ++ h2)) < two53 -> length outs1 = length h1 ->
  brun new_broker ((h1 ++ h2) ++ [(o, BPublish sid p)]) = Ret b ((outs1 ++ outs2) ++ [BPubl ev rs ack]) ->
  let tr := trace_of (h1 ++ h2) (outs1 ++ outs2) in
  holds (trace_of h1 outs1) x t id -> searchable (trace_of h1 outs1) t PPrefix id -> is_prefix t (pu_topic p) ->
  (forall newer c older y, trace_of h2 outs2 = newer ++ c :: older ->
     holds (older ++ trace_of h1 outs1) y t id -> ~ is_ended c y id) ->
  (forall y i, ~ holds tr y (pu_topic p) i) ->
  (forall t' i, searchable tr t' PPrefix i -> is_prefix t' (pu_topic p) -> (String.length t' <= String.length t)%nat) ->
  x ∈ rs /\ exists e, ev = Some e /\ ev_subscription e = id.
Proof. exact prefix_delivery_persists. Qed.
(** Session 3 leaves the longer prefix "a.b", which hid the prefix "a" of 1 and
    2, and goes. *)
Definition h_other : bhist := history [BAdd (sess 1); BAdd (sess 2); BAdd (sess 3);
  bsub 1 10 "a" as_prefix; bsub 2 11 "a" as_prefix; bsub 3 12 "a.b" as_prefix; bsub 3 13 "x" []].
Example C29_ex_prefix : let h2 := history [bunsub 3 14 2; BRemove 3] in
  (exists b, brun new_broker ((h_other ++ h2) ++ [(o0, BPublish 1 (pub "a.bc" []))])
     = Ret b ((outs_of h_other ++ [BMsg (MUnsubscribed (Unsubscribed 14)) 3; BOk])
         ++ [BPubl (Some (Event 1 4 (Some []) (Some [VStr "hi"]) None)) [1; 2] None]))
  /\ holds (trace_of h_other (outs_of h_other)) 2 "a" 1
  /\ searchable (trace_of h_other (outs_of h_other)) "a" PPrefix 1
  /\ Forall (fun c => forall y, is_ended c y 1 -> y = 3) (trace_of h2 [BMsg (MUnsubscribed (Unsubscribed 14)) 3; BOk])
  /\ Forall (fun c => forall y, is_subscribed c y "a" 1 -> y <> 3) (trace_of h_other (outs_of h_other)).
Proof.
  cbv zeta. split; [eexists; apply run_is; vm_compute; reflexivity|]. split; [vm_compute; tauto|]. split.
  { vm_compute. do 3 (right; split; [|intros x _ H; exact H]). left. split; [by repeat split|].
    intros x i H. by decompose [or and] H. }
  split; vm_compute; repeat (constructor; [by (intros y H; decompose [and] H; subst)|]); constructor.
Qed.
(** … but one prefix subscriber's departure silences the others. *)
Theorem C29_isolation_refuted : exists h y req id x o p e rs b1 b2,
  x <> y
  /\ brun new_broker (h ++ [(o, BPublish y p)]) = Ret b1 (outs_of h ++ [BPubl (Some e) rs None]) /\ x ∈ rs
  /\ brun new_broker (h ++ [(o, bunsub y req id); (o, BPublish y p)])
     = Ret b2 (outs_of h ++ [BMsg (MUnsubscribed (Unsubscribed req)) y; BPubl None [] None]).
Proof.
  exists h_prefix, 1, 50, 1, 2, o0, (pub "a.b" []), (Event 1 2 (Some []) (Some [VStr "hi"]) None), [1; 2].
  eexists _, _. split; [done|]. split; [apply run_is; vm_compute; reflexivity|]. split; [set_solver|].
  apply run_is. vm_compute. reflexivity.
Qed.
(** In general: once somebody has left a pattern, events never carry it again
    except for publications to its literal text, until it is created anew. *)
Theorem C29_dead_pattern : forall h o sid p b outs e rs ack x t id, N.of_nat (length h) < two53 ->
  brun new_broker (h ++ [(o, BPublish sid p)]) = Ret b (outs ++ [BPubl (Some e) rs ack]) ->
  holds (trace_of h outs) x t id -> pu_topic p <> t ->
  (forall pol, ~ searchable (trace_of h outs) t pol id) -> ev_subscription e <> id.
Proof. exact dead_pattern. Qed.

(** ** C30: only one subscription is served. *)
Theorem C30_all_matching_refuted : exists h x t id o p e rs b,
  brun new_broker (h ++ [(o, BPublish 1 p)]) = Ret b (outs_of h ++ [BPubl (Some e) rs None])
  /\ searchable (trace_of h (outs_of h)) t PPrefix id /\ holds (trace_of h (outs_of h)) x t id
  /\ is_prefix t (pu_topic p) /\ x ∉ rs.
Proof.
  exists (history [BAdd (sess 1); BAdd (sess 2); bsub 2 10 "a" as_prefix; bsub 1 11 "a.b" []]), 2, "a"%string, 1, o0,
    (pub "a.b" []), (Event 2 3 (Some []) (Some [VStr "hi"]) None), [1].
  eexists. split; [apply run_is; vm_compute; reflexivity|]. split; [|split; [vm_compute; tauto|split]].
  - vm_compute. right. split; [|intros x _ H; exact H]. left. split; [by repeat split|].
    intros x i H. decompose [or and] H; done.
  - by exists ".b"%string.
  - set_solver.
Qed.
Theorem C30_literal_partial : forall h o sid p b outs ev rs ack,
  N.of_nat (length h) < two53 ->
  brun new_broker (h ++ [(o, BPublish sid p)]) = Ret b (outs ++ [BPubl ev rs ack]) ->
  forall x id, holds (trace_of h outs) x (pu_topic p) id ->
  (exists e, ev = Some e /\ ev_subscription e = id)
  /\ NoDup rs /\ forall y, y ∈ rs <-> exists i, holds (trace_of h outs) y (pu_topic p) i.
Proof. exact pub_literal. Qed.

(** And if nobody is subscribed to the literal topic and only one pattern that
    matches it can be found, all its subscribers are served. *)
Theorem C30_single_pattern_partial : forall h o sid p b outs ev rs ack t pol id,
  N.of_nat (length h) < two53 ->
  brun new_broker (h ++ [(o, BPublish sid p)]) = Ret b (outs ++ [BPubl ev rs ack]) ->
  (forall x i, ~ holds (trace_of h outs) x (pu_topic p) i) ->
  searchable (trace_of h outs) t pol id -> matches t pol (pu_topic p) ->
  (forall t' pol' id', searchable (trace_of h outs) t' pol' id' -> matches t' pol' (pu_topic p) ->
     t' = t /\ pol' = pol /\ id' = id) ->
  (exists e, ev = Some e /\ ev_subscription e = id)
  /\ NoDup rs /\ forall x, x ∈ rs <-> exists t', holds (trace_of h outs) x t' id.
Proof. exact single_pattern. Qed.
Example C30_ex : 
  map (fun t => match outs_of (h_two ++ [(o0, BPublish 1 (pub t []))]) !! 7%nat with
                | Some (BPubl (Some e) rs _) => (ev_subscription e, rs) | _ => (0, []) end)
      ["a.bc"; "x.y"]%string = [(2, [3]); (3, [3])]
  /\ matches "a" PPrefix "a.bc" /\ matches "x.*" PWildcard "x.y".
Proof. split; [vm_compute; reflexivity|]. split; [by exists ".bc"%string|by vm_compute]. Qed.

(** ** C31: a subscribed publisher always receives its own event, whatever the
    options (the broker never reads exclude_me). *)
Theorem C31_publisher_included : forall h o sid p b outs ev rs ack id, N.of_nat (length h) < two53 ->
  brun new_broker (h ++ [(o, BPublish sid p)]) = Ret b (outs ++ [BPubl ev rs ack]) ->
  holds (trace_of h outs) sid (pu_topic p) id -> sid ∈ rs.
Proof. exact publisher_included. Qed.
Theorem C31_exclusion_refuted : exists h sid o p b e rs,
  brun new_broker (h ++ [(o, BPublish sid p)]) = Ret b (outs_of h ++ [BPubl (Some e) rs None])
  /\ mget (pu_options p) "exclude_me" = VBool true /\ sid ∈ rs.
Proof.
  exists h_two, 1, o0, (pub "a.b" [("exclude_me", VBool true)]%string).
  eexists _, (Event 1 4 (Some []) (Some [VStr "hi"]) None), [1; 2]. split; [apply run_is; vm_compute; reflexivity|]. split; [reflexivity|]. set_solver.
Qed.

(** ** C32 *)
Theorem C32_rejected_no_effect : forall h1 o op b1 outs1 e,
  brun new_broker (h1 ++ [(o, op)]) = Ret b1 (outs1 ++ [BErr e]) ->
  forall h2, exists b outs2, brun new_broker (h1 ++ h2) = Ret b (outs1 ++ outs2)
    /\ brun new_broker (h1 ++ (o, op) :: h2) = Ret b (outs1 ++ BErr e :: outs2).
Proof. exact rejected_no_effect. Qed.
Example C32_ex : forall op, op ∈ [bunsub 3 9 1; bunsub 9 9 1; BAdd (sess 2); BRemove 8; BPublish 9 (pub "a.b" []); bsub 9 1 "a" []; BReceive 1 (MGoodbye (Goodbye None "x"))] ->
  exists b e, brun new_broker (h_two ++ [(o0, op)]) = Ret b (outs_of h_two ++ [BErr e]).
Proof.
  intros op Hin. repeat (apply elem_of_cons in Hin as [->|Hin]; [eexists _, _; apply run_is; vm_compute; reflexivity|]).
  by apply elem_of_nil in Hin.
Qed.

(** ** C33 *)
Theorem C33_nothing_left : forall h b outs, N.of_nat (length h) <= two53 -> brun new_broker h = Ret b outs ->
  (forall sid, ~ attached (trace_of h outs) sid) ->
  b_sessions b = ∅ /\ b_by_session b = ∅ /\ b_by_topic b = ∅ /\ b_prefix b = ∅ /\ b_wildcard b = ∅.
Proof. exact nothing_left. Qed.
(** HasSubscription tells exactly whether somebody holds the topic. *)
Theorem C33_has_subscription : forall h o t b outs out, N.of_nat (length h) < two53 ->
  brun new_broker (h ++ [(o, BHasSub t)]) = Ret b (outs ++ [out]) ->
  exists x, out = BHas x /\ (x = true <-> exists sid id, holds (trace_of h outs) sid t id).
Proof. exact has_subscription_iff. Qed.
Example C33_ex : let h := h_two ++ history [BRemove 1; BRemove 3; BRemove 2] in
  (forall sid, ~ attached (trace_of h (outs_of h)) sid)
  /\ attached (trace_of h_two (outs_of h_two)) 3.
Proof. split; [|vm_compute; tauto]. intros sid. vm_compute. intuition congruence. Qed.

(** ** C34 *)
Theorem C34_first_subscriber_partial : forall h o1 o2 sid m pub p b outs a to ev rs ack,
  N.of_nat (length h) + 1 < two53 ->
  brun new_broker (h ++ [(o1, BReceive sid (MSubscribe m)); (o2, BPublish pub p)])
    = Ret b (outs ++ [BMsg (MSubscribed a) to; BPubl ev rs ack]) ->
  requested_policy (su_options m) = PPrefix -> is_prefix (su_topic m) (pu_topic p) ->
  (forall x i, ~ holds (trace_of h outs) x (su_topic m) i) ->
  (forall x i, ~ holds (trace_of h outs) x (pu_topic p) i) ->
  (forall t i, searchable (trace_of h outs) t PPrefix i -> is_prefix t (pu_topic p) ->
     (String.length t <= String.length (su_topic m))%nat) ->
  rs = [sid] /\ exists e, ev = Some e /\ ev_subscription e = sd_subscription a.
Proof. exact first_prefix_subscriber. Qed.
Example C34_ex : exists b, brun new_broker ((history [BAdd (sess 1); BAdd (sess 2); bsub 1 10 "a" as_prefix])
    ++ [(o0, bsub 2 11 "a.b" as_prefix); (o0, BPublish 1 (pub "a.b.c" []))])
  = Ret b ([BOk; BOk; BMsg (MSubscribed (Subscribed 10 1)) 1] ++ [BMsg (MSubscribed (Subscribed 11 2)) 2;
       BPubl (Some (Event 2 3 (Some []) (Some [VStr "hi"]) None)) [2] None]).
Proof. eexists. apply run_is. vm_compute. reflexivity. Qed.
(** A prefix SUBSCRIBE for a topic that already has an exact subscriber is
    answered, but extensions of the topic are never delivered. *)
Theorem C34_policy_honoured_refuted : exists h o sid req p b,
  brun new_broker (h ++ [(o, bsub sid req "a" as_prefix); (o, BPublish sid p)])
    = Ret b (outs_of h ++ [BMsg (MSubscribed (Subscribed req 1)) sid; BPubl None [] None])
  /\ is_prefix "a" (pu_topic p) /\ pu_topic p <> "a"%string.
Proof.
  exists (history [BAdd (sess 1); BAdd (sess 2); bsub 1 10 "a" []]), o0, 2, 11, (pub "a.b" []). eexists.
  split; [apply run_is; vm_compute; reflexivity|]. split; [by exists ".b"%string|done].
Qed.

(** * Assumptions *)
Print Assumptions C21_refines_table.
Print Assumptions C22_never_panics.
Print Assumptions C23_exact_delivery.
Print Assumptions C23_literal_delivery.
Print Assumptions C23_recipients_hold.
Print Assumptions C24_no_event_after_end.
Print Assumptions C24_unsubscribe_answer.
Print Assumptions C25_subscription_ids_distinct.
Print Assumptions C25_publication_not_subscription.
Print Assumptions C25_publication_ids_increase.
Print Assumptions C25_subscribe_answer.
Print Assumptions C26_acknowledgement.
Print Assumptions C26_published_iff_attached.
Print Assumptions C27_exact_first.
Print Assumptions C27_longest_prefix_second.
Print Assumptions C27_wildcard_last.
Print Assumptions C28_payload_and_disclosure.
Print Assumptions C29_literal_partial.
Print Assumptions C29_prefix_partial.
Print Assumptions C29_isolation_refuted.
Print Assumptions C29_dead_pattern.
Print Assumptions C30_all_matching_refuted.
Print Assumptions C30_literal_partial.
Print Assumptions C30_single_pattern_partial.
Print Assumptions C31_publisher_included.
Print Assumptions C31_exclusion_refuted.
Print Assumptions C32_rejected_no_effect.
Print Assumptions C33_nothing_left.
Print Assumptions C33_has_subscription.
Print Assumptions C34_first_subscriber_partial.
Print Assumptions C34_policy_honoured_refuted.
