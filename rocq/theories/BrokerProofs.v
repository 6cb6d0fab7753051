(** The broker properties, from the refinement and the trace invariant. *)
From Verif Require Import Prelude Value Msg IdGen Types PathMatch Broker BrokerSpec BaseFacts TypesFacts BrokerFacts BrokerSim BrokerTrace BrokerSafe.

Lemma brun_app b h1 h2 : brun b (h1 ++ h2) =
  match brun b h1 with
  | Ret b1 o1 => match brun b1 h2 with Ret b2 o2 => Ret b2 (o1 ++ o2) | Crash w => Crash w end
  | Crash w => Crash w
  end.
Proof.
  revert b. induction h1 as [|[o op] h1 IH]; intros b; cbn [brun app].
  - by destruct (brun b h2).
  - destruct (bstep o b op) as [b1 r|w]; [|done]. rewrite IH.
    destruct (brun b1 h1) as [b2 rs|w]; [|done]. by destruct (brun b2 h2).
Qed.
Lemma brun_length b h b' outs : brun b h = Ret b' outs -> length outs = length h.
Proof.
  revert b outs. induction h as [|[o op] h IH]; intros b outs; cbn [brun].
  - by intros [= <- <-].
  - destruct (bstep o b op) as [b1 r|w]; [|done]. destruct (brun b1 h) as [b2 rs|w] eqn:E; [|done].
    intros [= <- <-]. cbn. by erewrite IH.
Qed.

Lemma run_refines h b s : refines b s -> tb_ids s + N.of_nat (length h) <= two53 ->
  exists b' outs s', brun b h = Ret b' outs /\ truns s (map snd h) outs s' /\ refines b' s'
    /\ tb_ids s' <= tb_ids s + N.of_nat (length h).
Proof.
  revert b s. induction h as [|[o op] h IH]; intros b s R Hl; cbn [brun map snd].
  - eexists _, _, _. split; [done|]. split; [constructor|]. split; [done|]. cbn. lia.
  - cbn [length] in *. destruct (step_refines o b s op R) as (b1 & out & s1 & -> & T & R1 & H1); [lia|].
    destruct (IH b1 s1 R1) as (b2 & outs & s2 & -> & TT & R2 & H2); [lia|].
    eexists _, _, _. split; [done|]. split; [by econstructor|]. split; [done|]. lia.
Qed.

Lemma truns_tinv s ops outs s' tr : truns s ops outs s' -> tinv tr s -> tinv (rev (zip ops outs) ++ tr) s'.
Proof.
  intros T. revert tr. induction T as [s|s op out s1 ops outs s2 T1 T2 IH]; intros tr I; [done|].
  cbn [zip zip_with rev]. rewrite <- app_assoc. apply IH. by eapply tinv_step.
Qed.

Lemma broker_refines_table h : N.of_nat (length h) <= two53 ->
  exists b outs s, brun new_broker h = Ret b outs /\ truns empty_table (map snd h) outs s.
Proof.
  intros H. destruct (run_refines h new_broker empty_table refines_empty) as (b & outs & s & ? & ? & _); [done|eauto].
Qed.

Lemma reach h b outs : N.of_nat (length h) <= two53 -> brun new_broker h = Ret b outs ->
  exists s, truns empty_table (map snd h) outs s /\ refines b s /\ tinv (trace_of h outs) s
    /\ tb_ids s <= N.of_nat (length h).
Proof.
  intros Hl Hr. destruct (run_refines h new_broker empty_table refines_empty) as (b' & outs' & s & E & T & R & Hi); [done|].
  rewrite E in Hr. injection Hr as <- <-. exists s. split; [done|]. split; [done|]. split; [|done].
  pose proof (truns_tinv _ _ _ _ [] T tinv_empty) as I. by rewrite app_nil_r in I.
Qed.

Lemma next_step h o op b outs out : N.of_nat (length h) < two53 ->
  brun new_broker (h ++ [(o, op)]) = Ret b (outs ++ [out]) ->
  exists b0 s s', brun new_broker h = Ret b0 outs /\ bstep o b0 op = Ret b out
    /\ refines b0 s /\ tinv (trace_of h outs) s /\ tstep s op out s' /\ refines b s'.
Proof.
  intros Hl Hr. rewrite brun_app in Hr. destruct (brun new_broker h) as [b0 outs0|w] eqn:E; [|done].
  cbn [brun] in Hr. destruct (bstep o b0 op) as [b1 out1|w] eqn:Es; [|done].
  injection Hr as <- Ho. apply app_inj_tail in Ho as [<- <-].
  destruct (reach h b0 outs0) as (s & _ & R & I & Hi); [lia|done|].
  destruct (step_refines o b0 s op R) as (b2 & out2 & s2 & E2 & T & R2 & _); [lia|].
  rewrite Es in E2. injection E2 as <- <-. exists b0, s, s2. done.
Qed.

Section publish.
  Context (h : bhist) (o : oracle) (sid : N) (p : publish) (b : broker) (outs : list bout)
    (ev : option event) (rs : list N) (ack : option outmsg).
  Context (Hl : N.of_nat (length h) < two53)
    (Hr : brun new_broker (h ++ [(o, BPublish sid p)]) = Ret b (outs ++ [BPubl ev rs ack])).
  Let tr := trace_of h outs.

  (** Recipients of an event are exactly those who hold its subscription. *)
  Lemma pub_recipients e : ev = Some e ->
    NoDup rs /\ rs <> [] /\ forall x, x ∈ rs <-> exists t, holds tr x t (ev_subscription e).
  Proof.
    intros ->. destruct (next_step _ _ _ _ _ _ Hl Hr) as (b0 & s & s' & _ & _ & R & I & T & _). fold tr in I.
    inversion T as [| | | | | | | | | | | |? ? pub t r ? Hs Hsv Hnd Hrs]; subst. cbn.
    assert (Hrow : tb_rows s !! t = Some r) by (by destruct Hsv as [|? ? ? []|? ? ? ? []]).
    split; [done|]. split.
    - destruct (ti_row _ _ I _ _ Hrow) as [Hne _]. destruct (set_choose_L _ Hne) as [x Hx].
      apply Hrs in Hx. intros ->. by apply elem_of_nil in Hx.
    - intros x. rewrite Hrs. setoid_rewrite (ti_hold _ _ I). split.
      + intros Hx. eauto 10.
      + intros (t' & r' & Hr' & Hi & Hx). assert (t' = t) as -> by (by eapply (ti_inj _ _ I)). congruence.
  Qed.

  Lemma pub_none : ev = None -> rs = [].
  Proof. intros ->. destruct (next_step _ _ _ _ _ _ Hl Hr) as (b0 & s & s' & _ & _ & R & I & T & _). by inversion T. Qed.

  Lemma pub_literal x id : holds tr x (pu_topic p) id ->
    (exists e, ev = Some e /\ ev_subscription e = id)
    /\ NoDup rs /\ forall y, y ∈ rs <-> exists i, holds tr y (pu_topic p) i.
  Proof.
    intros Hx. destruct (next_step _ _ _ _ _ _ Hl Hr) as (b0 & s & s' & _ & _ & R & I & T & _). fold tr in I.
    apply (ti_hold _ _ I) in Hx as (r0 & Hr0 & Hi0 & Hx).
    inversion T as [| | | | | | | | | | |? ? Hs Hf|? ? pub t r ? Hs Hsv Hnd Hrs]; subst.
    - destruct (Hf (pu_topic p) r0). by constructor.
    - assert (t = pu_topic p /\ r = r0) as [-> ->] by (destruct Hsv; split; congruence).
      split; [by eexists|]. split; [done|]. intros y. rewrite Hrs. setoid_rewrite (ti_hold _ _ I). split.
      + intros. eauto 10.
      + intros (i & r & Hr' & _ & ?). congruence.
  Qed.

  Lemma pub_prefix t id :
    (forall x i, ~ holds tr x (pu_topic p) i) ->
    searchable tr t PPrefix id -> is_prefix t (pu_topic p) ->
    (forall t' id', searchable tr t' PPrefix id' -> is_prefix t' (pu_topic p) ->
       (String.length t' <= String.length t)%nat) ->
    exists e, ev = Some e /\ ev_subscription e = id.
  Proof.
    intros Hno Hse Hpre Hmax. destruct (next_step _ _ _ _ _ _ Hl Hr) as (b0 & s & s' & _ & _ & R & I & T & _). fold tr in I.
    apply (ti_search _ _ I) in Hse as (r0 & Hr0 & Hi0 & Hp0 & Hx0).
    assert (Hnone : tb_rows s !! pu_topic p = None).
    { destruct (tb_rows s !! pu_topic p) as [r|] eqn:E; [|done]. exfalso.
      destruct (ti_row _ _ I _ _ E) as [Hne _]. destruct (set_choose_L _ Hne) as [x Hx].
      apply (Hno x (t_id r)). apply (ti_hold _ _ I). eauto. }
    assert (Hc0 : prefix_candidate (tb_rows s) (pu_topic p) t r0) by done.
    assert (Hm0 : forall t' r', prefix_candidate (tb_rows s) (pu_topic p) t' r' -> (String.length t' <= String.length t)%nat).
    { intros t' r' (H1 & H2 & H3 & H4). apply (Hmax t' (t_id r')); [|done]. apply (ti_search _ _ I). eauto. }
    inversion T as [| | | | | | | | | | |? ? Hs Hf|? ? pub t1 r1 ? Hs Hsv Hnd Hrs]; subst.
    - destruct (Hf t r0). by apply serves_prefix.
    - eexists. split; [done|]. cbn. destruct Hsv as [r1 H1|t1 r1 _ Hc Hm|t1 r1 _ Hn _]; [congruence| |by apply Hn in Hc0].
      assert (t1 = t) as ->; [|destruct Hc as [Hc _]; destruct Hc0 as [Hc0 _]; congruence].
      apply (sprefix_same _ _ (pu_topic p)); [apply Hc|apply Hpre|].
      pose proof (Hm _ _ Hc0). pose proof (Hm0 _ _ Hc). lia.
  Qed.

  Lemma pub_wildcard :
    (forall x i, ~ holds tr x (pu_topic p) i) ->
    (forall t id, searchable tr t PPrefix id -> ~ is_prefix t (pu_topic p)) ->
    match ev with
    | Some e => exists t, searchable tr t PWildcard (ev_subscription e) /\ wildcard_match (pu_topic p) t = true
    | None => forall t id, searchable tr t PWildcard id -> wildcard_match (pu_topic p) t = false
    end.
  Proof.
    intros Hno Hnp. destruct (next_step _ _ _ _ _ _ Hl Hr) as (b0 & s & s' & _ & _ & R & I & T & _). fold tr in I.
    assert (Hnone : tb_rows s !! pu_topic p = None).
    { destruct (tb_rows s !! pu_topic p) as [r|] eqn:E; [|done]. exfalso.
      destruct (ti_row _ _ I _ _ E) as [Hne _]. destruct (set_choose_L _ Hne) as [x Hx].
      apply (Hno x (t_id r)). apply (ti_hold _ _ I). eauto. }
    assert (Hnc : forall t r, ~ prefix_candidate (tb_rows s) (pu_topic p) t r).
    { intros t r (H1 & H2 & H3 & H4). apply (Hnp t (t_id r)); [|done]. apply (ti_search _ _ I). eauto. }
    inversion T as [| | | | | | | | | | |? ? Hs Hf|? ? pub t1 r1 ? Hs Hsv Hnd Hrs]; subst.
    - intros t id (r & Hr0 & Hi & Hp & Hx)%(ti_search _ _ I).
      destruct (wildcard_match (pu_topic p) t) eqn:E; [|done]. destruct (Hf t r). by apply serves_wildcard.
    - cbn. destruct Hsv as [r1 H1|t1 r1 _ Hc _|t1 r1 _ _ (H1 & H2 & H3 & H4)]; [congruence|by apply Hnc in Hc|].
      exists t1. split; [|done]. apply (ti_search _ _ I). eauto.
  Qed.

  (** Acknowledgement, payload and details. *)
  Lemma pub_ack : attached tr sid /\ exists pid,
    ack = match mget (pu_options p) "acknowledge" with
          | VBool true => Some (MPublished (Published (pu_request p) pid), sid)
          | _ => None
          end
    /\ forall e, ev = Some e -> ev_publication e = pid.
  Proof.
    destruct (next_step _ _ _ _ _ _ Hl Hr) as (b0 & s & s' & _ & _ & R & I & T & _). fold tr in I.
    inversion T as [| | | | | | | | | | |? ? Hs Hf|? ? pub t1 r1 ? Hs Hsv Hnd Hrs]; subst;
      (split; [apply (ti_att _ _ I); by eauto|]); exists (tb_ids s + 1); (split; [done|]); intros e He; [done|].
    by injection He as <-.
  Qed.

  Lemma pub_payload e : ev = Some e ->
    ev_args e = pu_args p /\ ev_kwargs e = pu_kwargs p
    /\ exists d, added tr sid d /\ ev_details e = Some (event_details (disclosing tr) (pu_topic p) d sid).
  Proof.
    intros ->. destruct (next_step _ _ _ _ _ _ Hl Hr) as (b0 & s & s' & _ & _ & R & I & T & _). fold tr in I.
    inversion T as [| | | | | | | | | | | |? ? pub t1 r1 ? Hs Hsv Hnd Hrs]; subst. cbn.
    split; [done|]. split; [done|]. exists pub. rewrite (ti_disc _ _ I). split; [|done]. by apply (ti_added _ _ I).
  Qed.
End publish.

Lemma publish_error_iff h o sid p b outs out : N.of_nat (length h) < two53 ->
  brun new_broker (h ++ [(o, BPublish sid p)]) = Ret b (outs ++ [out]) ->
  (exists ev rs ack, out = BPubl ev rs ack) <-> attached (trace_of h outs) sid.
Proof.
  intros Hl Hr. destruct (next_step _ _ _ _ _ _ Hl Hr) as (b0 & s & s' & _ & _ & R & I & T & _).
  rewrite (ti_att _ _ I).
  inversion T as [| | | | | | | | | |? ? ? Hn|? ? Hs Hf|? ? pub t1 r1 ? Hs Hsv Hnd Hrs]; subst.
  - split; [by intros (? & ? & ? & ?)|]. rewrite Hn. intros [? ?]. done.
  - split; eauto.
  - split; eauto.
Qed.

(** * Without patterns *)

Lemma searchable_created tr t pol id : searchable tr t pol id ->
  exists c, c ∈ tr /\ is_created c t pol id.
Proof.
  induction tr as [|c tr IH]; cbn; [done|]. intros [[H _]|[H _]].
  - exists c. split; [left|done].
  - destruct (IH H) as (c' & ? & ?). exists c'. split; [by right|done].
Qed.

Lemma trace_in h outs c : c ∈ trace_of h outs -> c.1 ∈ map snd h.
Proof.
  unfold trace_of. rewrite elem_of_list_In, <- in_rev, <- elem_of_list_In. intros Hin.
  destruct c as [op out]. cbn. by apply elem_of_zip_l in Hin.
Qed.

Lemma no_patterns_searchable h outs t pol id :
  no_patterns (map snd h) -> searchable (trace_of h outs) t pol id -> pol = PExact.
Proof.
  intros Hn (c & Hin & Hc)%searchable_created. apply trace_in in Hin. destruct c as [op out].
  destruct op as [| | | |sid m|]; try done. destruct m; try done. destruct out as [| | |a to|]; try done. destruct a; try done.
  cbn in Hc, Hin. destruct Hc as (_ & <- & _). by eapply Hn.
Qed.

Lemma exact_delivery h o sid p b outs ev rs ack : N.of_nat (length h) < two53 ->
  no_patterns (map snd h) ->
  brun new_broker (h ++ [(o, BPublish sid p)]) = Ret b (outs ++ [BPubl ev rs ack]) ->
  NoDup rs /\ (forall x, x ∈ rs <-> exists id, holds (trace_of h outs) x (pu_topic p) id)
  /\ (ev = None <-> forall x id, ~ holds (trace_of h outs) x (pu_topic p) id).
Proof.
  intros Hl Hn Hr. destruct ev as [e|].
  - assert (Hsome : exists x id, holds (trace_of h outs) x (pu_topic p) id).
    { destruct (next_step _ _ _ _ _ _ Hl Hr) as (b0 & s & s' & _ & _ & R & I & T & _).
      inversion T as [| | | | | | | | | | | |? ? pub t r ? Hs Hsv Hnd Hrs]; subst.
      destruct Hsv as [r Hr0|t r _ (H1 & H2 & H3 & _) _|t r _ _ (H1 & H2 & H3 & _)].
      - destruct (ti_row _ _ I _ _ Hr0) as [Hne _]. destruct (set_choose_L _ Hne) as [x Hx].
        exists x, (t_id r). apply (ti_hold _ _ I). eauto.
      - assert (PPrefix = PExact); [|done]. eapply no_patterns_searchable; [done|]. apply (ti_search _ _ I). eauto.
      - assert (PWildcard = PExact); [|done]. eapply no_patterns_searchable; [done|]. apply (ti_search _ _ I). eauto. }
    destruct Hsome as (x & id & Hx). destruct (pub_literal _ _ _ _ _ _ _ _ _ Hl Hr x id Hx) as (_ & Hnd & Hrs).
    split; [done|]. split; [done|]. split; [done|]. intros H. by apply H in Hx.
  - rewrite (pub_none _ _ _ _ _ _ _ _ _ Hl Hr eq_refl) in *.
    assert (Hno : forall x id, ~ holds (trace_of h outs) x (pu_topic p) id).
    { intros x id Hx. by destruct (pub_literal _ _ _ _ _ _ _ _ _ Hl Hr x id Hx) as ((e & ? & _) & _). }
    split; [constructor|]. split; [|done]. intros x. split; [by intros ?%elem_of_nil|]. intros (id & Hx). by apply Hno in Hx.
Qed.

(** * Traces *)

Lemma holds_ended tr2 c tr1 x t id : is_ended c x id -> ~ is_subscribed c x t id ->
  (forall c', c' ∈ tr2 -> ~ is_subscribed c' x t id) -> ~ holds (tr2 ++ c :: tr1) x t id.
Proof.
  intros He Hns. induction tr2 as [|c' tr2 IH]; cbn; intros H.
  - tauto.
  - intros [Hs|[Hh _]]; [by apply (H c'); [left|]|]. apply IH; [|done]. intros c0 Hin. apply H. by right.
Qed.
Lemma ended_not_subscribed c x y t id id' : is_ended c x id -> ~ is_subscribed c y t id'.
Proof. destruct c as [[| | | |? []|] [| | |[]|]]; cbn; tauto. Qed.

Lemma holds_persists tr2 tr1 x t id : holds tr1 x t id ->
  (forall c, c ∈ tr2 -> ~ is_ended c x id) -> holds (tr2 ++ tr1) x t id.
Proof.
  intros Hh. induction tr2 as [|c tr2 IH]; cbn; intros H; [done|]. right. split.
  - apply IH. intros c' Hin. apply H. by right.
  - apply H. by left.
Qed.

Lemma trace_of_app h1 h2 o1 o2 : length o1 = length h1 ->
  trace_of (h1 ++ h2) (o1 ++ o2) = trace_of h2 o2 ++ trace_of h1 o1.
Proof.
  intros Hl. unfold trace_of. rewrite map_app, zip_with_app by (by rewrite map_length). by rewrite rev_app_distr.
Qed.

(** C24 *)
Lemma no_event_after_end h1 h2 o op out outs1 outs2 o' sid p b e rs ack x id :
  N.of_nat (length (h1 ++ (o, op) :: h2)) < two53 ->
  brun new_broker ((h1 ++ (o, op) :: h2) ++ [(o', BPublish sid p)])
    = Ret b ((outs1 ++ out :: outs2) ++ [BPubl (Some e) rs ack]) ->
  length outs1 = length h1 ->
  is_ended (op, out) x id ->
  (forall c t, c ∈ trace_of h2 outs2 -> ~ is_subscribed c x t id) ->
  ev_subscription e = id -> x ∉ rs.
Proof.
  intros Hl Hr Ho He Hns <- Hin.
  destruct (pub_recipients _ _ _ _ _ _ _ _ _ Hl Hr e eq_refl) as (_ & _ & Hrs).
  apply Hrs in Hin as (t & Hh). rewrite trace_of_app in Hh by done.
  change (trace_of ((o, op) :: h2) (out :: outs2)) with (rev ((op, out) :: zip (map snd h2) outs2)) in Hh.
  cbn [rev] in Hh. rewrite <- app_assoc in Hh. cbn [app] in Hh.
  revert Hh. apply holds_ended; [done|by eapply ended_not_subscribed|]. intros c' Hc'. by apply Hns.
Qed.

(** C29 *)
Lemma literal_delivery_persists h1 h2 outs1 outs2 o sid p b ev rs ack x id :
  N.of_nat (length (h1 ++ h2)) < two53 ->
  length outs1 = length h1 ->
  brun new_broker ((h1 ++ h2) ++ [(o, BPublish sid p)]) = Ret b ((outs1 ++ outs2) ++ [BPubl ev rs ack]) ->
  holds (trace_of h1 outs1) x (pu_topic p) id ->
  (forall c, c ∈ trace_of h2 outs2 -> ~ is_ended c x id) ->
  x ∈ rs /\ exists e, ev = Some e /\ ev_subscription e = id.
Proof.
  intros Hl Ho Hr Hh Hne.
  assert (Hh' : holds (trace_of (h1 ++ h2) (outs1 ++ outs2)) x (pu_topic p) id).
  { rewrite trace_of_app by done. by apply holds_persists. }
  destruct (pub_literal _ _ _ _ _ _ _ _ _ Hl Hr x id Hh') as (He & _ & Hrs). split; [|done]. apply Hrs. eauto.
Qed.

(** * C25 *)

Lemma trace_at h outs i op out : map snd h !! i = Some op -> outs !! i = Some out -> (op, out) ∈ trace_of h outs.
Proof.
  intros H1 H2. unfold trace_of. rewrite elem_of_list_In, <- in_rev, <- elem_of_list_In.
  apply elem_of_list_lookup. exists i. by apply lookup_zip_with_Some; eauto.
Qed.

Lemma sub_ids_distinct h b outs op1 out1 op2 out2 x1 x2 t1 t2 id :
  N.of_nat (length h) <= two53 -> brun new_broker h = Ret b outs ->
  (op1, out1) ∈ trace_of h outs -> (op2, out2) ∈ trace_of h outs ->
  is_subscribed (op1, out1) x1 t1 id -> is_subscribed (op2, out2) x2 t2 id -> t1 = t2.
Proof.
  intros Hl Hr H1 H2 S1 S2. destruct (reach h b outs Hl Hr) as (s & _ & _ & I & _). exact (ti_sub_inj _ _ I _ _ _ _ _ _ _ H1 H2 S1 S2).
Qed.

Lemma pub_not_sub h b outs op out c pid x t :
  N.of_nat (length h) <= two53 -> brun new_broker h = Ret b outs ->
  (op, out) ∈ trace_of h outs -> shows_publication out pid -> c ∈ trace_of h outs -> ~ is_subscribed c x t pid.
Proof.
  intros Hl Hr Hin Hs Hc. destruct (reach h b outs Hl Hr) as (s & _ & _ & I & _).
  by eapply (ti_pub_ids _ _ I op out pid).
Qed.

Lemma shows_unique s op out s' pid : tstep s op out s' -> shows_publication out pid -> pid = tb_ids s + 1.
Proof.
  intros T Hs. destruct T; try done.
  - destruct Hs as [(e & [=] & _)|(q & to & Ha & <-)]. by apply ack_of_some in Ha as [[= ->] _].
  - destruct Hs as [(e & [= <-] & <-)|(q & to & Ha & <-)]; [done|]. by apply ack_of_some in Ha as [[= ->] _].
Qed.

Lemma pub_ids_increase h b outs i j oi oj p q :
  N.of_nat (length h) <= two53 -> brun new_broker h = Ret b outs ->
  (i < j)%nat -> outs !! i = Some oi -> outs !! j = Some oj ->
  shows_publication oi p -> shows_publication oj q -> p < q.
Proof.
  intros Hl Hr Hij Hi Hj Hp Hq.
  pose proof (brun_length _ _ _ _ Hr) as Hlen.
  assert (j < length h)%nat by (rewrite <- Hlen; by eapply lookup_lt_Some).
  destruct (lookup_lt_is_Some_2 h j ltac:(done)) as [[o op] Hop].
  rewrite <- (take_drop_middle h j _ Hop) in Hr.
  assert (Hlt : length (take j h) = j) by (rewrite take_length; lia).
  change (take j h ++ (o, op) :: drop (S j) h) with (take j h ++ ([(o, op)] ++ drop (S j) h)) in Hr.
  rewrite app_assoc, brun_app in Hr.
  destruct (brun new_broker (take j h ++ [(o, op)])) as [b1 o1|w] eqn:E1; [|done].
  destruct (brun b1 (drop (S j) h)) as [b2 o2|w]; [|done]. injection Hr as <- <-.
  pose proof (brun_length _ _ _ _ E1) as Hl1. rewrite app_length, Hlt in Hl1. cbn in Hl1.
  destruct (exists_last (l := o1)) as (o1' & out & ->); [intros ->; cbn in Hl1; lia|].
  rewrite app_length in Hl1. cbn in Hl1.
  rewrite <- app_assoc in Hi, Hj.
  rewrite lookup_app_r in Hj by lia. replace (j - length o1')%nat with 0%nat in Hj by lia. cbn in Hj. injection Hj as ->.
  rewrite lookup_app_l in Hi by lia.
  destruct (next_step (take j h) o op b1 o1' oj) as (b0 & s & s' & Er & _ & _ & I & T & _); [rewrite Hlt; lia|done|].
  assert (is_Some (map snd (take j h) !! i)) as [op' Hop'].
  { apply lookup_lt_is_Some_2. rewrite map_length, Hlt. lia. }
  pose proof (trace_at _ _ _ _ _ Hop' Hi) as Hin.
  destruct (ti_pub_ids _ _ I _ _ _ Hin Hp) as [Hle _].
  pose proof (shows_unique _ _ _ _ _ T Hq). lia.
Qed.

Lemma subscribe_answer h o sid m b outs out : N.of_nat (length h) < two53 ->
  brun new_broker (h ++ [(o, BReceive sid (MSubscribe m))]) = Ret b (outs ++ [out]) ->
  attached (trace_of h outs) sid ->
  exists id, out = BMsg (MSubscribed (Subscribed (su_request m) id)) sid
    /\ (forall x i, holds (trace_of h outs) x (su_topic m) i -> i = id)
    /\ ((forall x i, ~ holds (trace_of h outs) x (su_topic m) i) ->
        (forall c x t, c ∈ trace_of h outs -> ~ is_subscribed c x t id)
        /\ forall op o' , (op, o') ∈ trace_of h outs -> ~ shows_publication o' id).
Proof.
  intros Hl Hr Ha. destruct (next_step _ _ _ _ _ _ Hl Hr) as (b0 & s & s' & _ & _ & R & I & T & _).
  apply (ti_att _ _ I) in Ha.
  inversion T as [| | | | | |? ? r Hs Hr0|? ? Hs Hn| |? ? ? He| | |]; subst.
  - eexists. split; [done|]. split.
    + intros x i (r' & Hr' & <- & _)%(ti_hold _ _ I). congruence.
    + intros Hno. exfalso. destruct (ti_row _ _ I _ _ Hr0) as [Hne _]. destruct (set_choose_L _ Hne) as [x Hx].
      apply (Hno x (t_id r)). apply (ti_hold _ _ I). eauto.
  - eexists. split; [done|]. split.
    + intros x i (r' & Hr' & _)%(ti_hold _ _ I). congruence.
    + intros _. split.
      * intros c x t Hc Hs'. destruct (ti_sub_ids _ _ I _ _ _ _ Hc Hs'). lia.
      * intros op o' Hin Hs'. destruct (ti_pub_ids _ _ I _ _ _ Hin Hs'). lia.
  - cbn in He. rewrite He in Ha. by destruct Ha.
Qed.

Lemma unsubscribe_answer h o sid m b outs out : N.of_nat (length h) < two53 ->
  brun new_broker (h ++ [(o, BReceive sid (MUnsubscribe m))]) = Ret b (outs ++ [out]) ->
  (out = BMsg (MUnsubscribed (Unsubscribed (us_request m))) sid
   <-> exists t, holds (trace_of h outs) sid t (us_subscription m))
  /\ ((exists e, out = BErr e) <-> forall t, ~ holds (trace_of h outs) sid t (us_subscription m)).
Proof.
  intros Hl Hr. destruct (next_step _ _ _ _ _ _ Hl Hr) as (b0 & s & s' & _ & _ & R & I & T & _).
  setoid_rewrite (ti_hold _ _ I).
  inversion T as [| | | | | | | |? ? t r Hs Hr0 Hi Hin|? ? ? He| | |]; subst.
  - split; [split; [intros _; eauto 10|done]|]. split; [by intros [? ?]|]. intros H. exfalso. apply (H t). eauto.
  - assert (forall t, ¬ (∃ r, tb_rows s' !! t = Some r ∧ t_id r = us_subscription m ∧ sid ∈ t_subs r)) as Hno.
    { intros t (r & Hr0 & Hi & Hin). destruct He as [He|He].
      - destruct (ti_subs _ _ I _ _ _ Hr0 Hin). congruence.
      - by eapply He. }
    split; [|split; [done|intros _; by eexists]]. split; [done|]. intros [t Ht]. by apply Hno in Ht.
Qed.

(** * C32 *)

Lemma error_keeps_state o b op b' e : bstep o b op = Ret b' (BErr e) -> b' = b.
Proof.
  destruct op as [d|sid|t|x|sid m|sid p]; cbn [bstep].
  - unfold b_add_session. case_match; [|done]. by intros [= <- _].
  - unfold b_remove_session. case_match; [case_match; done|]. by intros [= <- _].
  - done.
  - done.
  - destruct m; cbn [b_receive_message]; try (by intros [= <- _]).
    + unfold b_subscribe. case_match; [|by intros [= <- _]]. case_match; [case_match; done|]. done.
    + unfold b_unsubscribe. case_match; [|by intros [= <- _]]. case_match; [case_match; done|]. by intros [= <- _].
  - unfold b_receive_publish. case_match; [|by intros [= <- _]].
    repeat case_match; try done.
Qed.

Lemma rejected_no_effect h1 o op b1 outs1 e : 
  brun new_broker (h1 ++ [(o, op)]) = Ret b1 (outs1 ++ [BErr e]) ->
  forall h2, exists b outs2, brun new_broker (h1 ++ h2) = Ret b (outs1 ++ outs2)
    /\ brun new_broker (h1 ++ (o, op) :: h2) = Ret b (outs1 ++ BErr e :: outs2).
Proof.
  intros Hr h2. rewrite brun_app in Hr. destruct (run_safe h1 new_broker safe_new) as (b0 & outs0 & E & S & _).
  rewrite E in Hr. cbn [brun] in Hr. destruct (bstep o b0 op) as [b' out|w] eqn:Es; [|done].
  injection Hr as -> Ho. apply app_inj_tail in Ho as [-> ->].
  assert (b1 = b0) as -> by (by eapply error_keeps_state).
  destruct (run_safe h2 b0 S) as (b2 & outs2 & E2 & _). exists b2, outs2.
  rewrite !brun_app, E. cbn [brun]. by rewrite Es, E2.
Qed.

(** * C33 *)

Lemma nothing_left h b outs : N.of_nat (length h) <= two53 -> brun new_broker h = Ret b outs ->
  (forall sid, ~ attached (trace_of h outs) sid) ->
  b_sessions b = ∅ /\ b_by_session b = ∅ /\ b_by_topic b = ∅ /\ b_prefix b = ∅ /\ b_wildcard b = ∅.
Proof.
  intros Hl Hr Hno. destruct (reach h b outs Hl Hr) as (s & _ & R & I & _).
  assert (Hss : b_sessions b = ∅).
  { rewrite (rf_sessions _ _ R). apply map_empty. intros sid. destruct (tb_sessions s !! sid) eqn:E; [|done].
    destruct (Hno sid). apply (ti_att _ _ I). eauto. }
  assert (Hrows : tb_rows s = ∅).
  { apply map_empty. intros t. destruct (tb_rows s !! t) as [r|] eqn:E; [|done]. exfalso.
    destruct (ti_row _ _ I _ _ E) as [Hne _]. destruct (set_choose_L _ Hne) as [x Hx].
    apply (Hno x). apply (ti_att _ _ I). by apply (ti_subs _ _ I _ _ _ E). }
  pose proof (rf_core _ _ R) as C.
  assert (Hbt : b_by_topic b = ∅).
  { apply map_empty. intros t. destruct (b_by_topic b !! t) as [l|] eqn:E; [|done].
    destruct (c_topic _ _ _ _ C t l E) as (? & ? & _ & H & _). by rewrite Hrows in H. }
  split; [done|]. split; [|split; [done|]].
  - apply map_empty. intros sid. destruct (b_by_session b !! sid) eqn:E; [|done].
    assert (is_Some (b_sessions b !! sid)) as [? H] by (apply (rf_dom _ _ R); eauto). by rewrite Hss in H.
  - split; apply map_empty; intros t.
    + destruct (b_prefix b !! t) eqn:E; [|done]. apply (c_pre _ _ _ _ C) in E as [E _]. by rewrite Hbt in E.
    + destruct (b_wildcard b !! t) eqn:E; [|done]. apply (c_wc _ _ _ _ C) in E as [E _]. by rewrite Hbt in E.
Qed.

Lemma has_subscription_iff h o t b outs out : N.of_nat (length h) < two53 ->
  brun new_broker (h ++ [(o, BHasSub t)]) = Ret b (outs ++ [out]) ->
  exists x, out = BHas x /\ (x = true <-> exists sid id, holds (trace_of h outs) sid t id).
Proof.
  intros Hl Hr. destruct (next_step _ _ _ _ _ _ Hl Hr) as (b0 & s & s' & _ & _ & R & I & T & _).
  inversion T as [| | | |? x Hx| | | | | | | |]; subst. exists x. split; [done|]. rewrite Hx.
  setoid_rewrite (ti_hold _ _ I). split.
  - intros [r Hr0]. destruct (ti_row _ _ I _ _ Hr0) as [Hne _]. destruct (set_choose_L _ Hne) as [y Hy]. eauto 10.
  - intros (? & ? & r & ? & _). eauto.
Qed.

(** * C34 *)

Lemma first_prefix_subscriber h o1 o2 sid m pub p b outs a to ev rs ack :
  N.of_nat (length h) + 1 < two53 ->
  brun new_broker (h ++ [(o1, BReceive sid (MSubscribe m)); (o2, BPublish pub p)])
    = Ret b (outs ++ [BMsg (MSubscribed a) to; BPubl ev rs ack]) ->
  requested_policy (su_options m) = PPrefix -> is_prefix (su_topic m) (pu_topic p) ->
  (forall x i, ~ holds (trace_of h outs) x (su_topic m) i) ->
  (forall x i, ~ holds (trace_of h outs) x (pu_topic p) i) ->
  (forall t i, searchable (trace_of h outs) t PPrefix i -> is_prefix t (pu_topic p) ->
     (String.length t <= String.length (su_topic m))%nat) ->
  rs = [sid] /\ exists e, ev = Some e /\ ev_subscription e = sd_subscription a.
Proof.
  intros Hl Hr Hp Hpre Hn1 Hn2 Hmax.
  change (h ++ [(o1, BReceive sid (MSubscribe m)); (o2, BPublish pub p)])
    with (h ++ [(o1, BReceive sid (MSubscribe m))] ++ [(o2, BPublish pub p)]) in Hr.
  change (outs ++ [BMsg (MSubscribed a) to; BPubl ev rs ack])
    with (outs ++ [BMsg (MSubscribed a) to] ++ [BPubl ev rs ack]) in Hr.
  rewrite (app_assoc h), (app_assoc outs) in Hr.
  assert (Hl' : N.of_nat (length (h ++ [(o1, BReceive sid (MSubscribe m))])) < two53) by (rewrite app_length; cbn; lia).
  destruct (next_step _ _ _ _ _ _ Hl' Hr) as (b0 & _ & _ & Hr1 & _).
  assert (Hlen : length outs = length h).
  { apply brun_length in Hr1. rewrite !app_length in Hr1. cbn in Hr1. lia. }
  destruct (next_step h o1 _ b0 outs _ ltac:(lia) Hr1) as (b1 & s & s' & _ & _ & _ & I & T & _).
  assert (to = sid) as ->. { by inversion T. }
  set (tr := trace_of (h ++ [(o1, BReceive sid (MSubscribe m))]) (outs ++ [BMsg (MSubscribed a) sid])) in *.
  assert (Htr : tr = (BReceive sid (MSubscribe m), BMsg (MSubscribed a) sid) :: trace_of h outs).
  { unfold tr. by rewrite trace_of_app. }
  destruct (decide (su_topic m = pu_topic p)) as [Heq|Hneq].
  - assert (Hh : holds tr sid (pu_topic p) (sd_subscription a)) by (rewrite Htr; cbn; by left).
    destruct (pub_literal _ _ _ _ _ _ _ _ _ Hl' Hr sid _ Hh) as (He & Hnd & Hrs). split; [|done].
    assert (Hall : forall y, y ∈ rs <-> y = sid).
    { intros y. rewrite Hrs. fold tr. rewrite Htr. cbn [holds is_subscribed]. split.
      - intros (i & [(-> & _)|[H _]]); [done|]. by apply Hn2 in H.
      - intros ->. exists (sd_subscription a). by left. }
    clear -Hnd Hall. destruct rs as [|y rs]; [by pose proof (proj2 (Hall sid) eq_refl) as ?%elem_of_nil|].
    assert (y = sid) as -> by (apply Hall; left). destruct rs as [|z rs]; [done|].
    assert (z = sid) as -> by (apply Hall; right; left). apply NoDup_cons in Hnd as [H _]. set_solver.
  - assert (Hse : searchable tr (su_topic m) PPrefix (sd_subscription a)) by (rewrite Htr; cbn; by left).
    assert (He : exists e, ev = Some e /\ ev_subscription e = sd_subscription a).
    { eapply (pub_prefix _ _ _ _ _ _ _ _ _ Hl' Hr (su_topic m)); [|done|done|]; fold tr; rewrite Htr; cbn.
      - intros x i [(_ & ? & _)|[H _]]; [done|]. by apply Hn2 in H.
      - intros t' id' [[(<- & _) _]|[H _]] Hpt; [done|]. by eapply Hmax. }
    split; [|done]. destruct He as (e & -> & Hes).
    destruct (pub_recipients _ _ _ _ _ _ _ _ _ Hl' Hr e eq_refl) as (Hnd & _ & Hrs).
    assert (Hall : forall y, y ∈ rs <-> y = sid).
    { intros y. rewrite Hrs. fold tr. rewrite Htr, Hes. cbn [holds is_subscribed]. split.
      - intros (t & [(-> & _)|[H _]]); [done|]. exfalso.
        apply (ti_hold _ _ I) in H as (r & H1 & H2 & H3).
        inversion T as [| | | | | |? ? r0 ? Hr0|? ? ? Hn| | | | |]; subst.
        + destruct (ti_row _ _ I _ _ Hr0) as [Hne _]. destruct (set_choose_L _ Hne) as [x Hx].
          apply (Hn1 x (t_id r0)). apply (ti_hold _ _ I). eauto.
        + cbn in H2. destruct (ti_row _ _ I _ _ H1). lia.
      - intros ->. exists (su_topic m). by left. }
    clear -Hnd Hall. destruct rs as [|y rs]; [by pose proof (proj2 (Hall sid) eq_refl) as ?%elem_of_nil|].
    assert (y = sid) as -> by (apply Hall; left). destruct rs as [|z rs]; [done|].
    assert (z = sid) as -> by (apply Hall; right; left). apply NoDup_cons in Hnd as [H _]. set_solver.
Qed.

(** C31: the publisher always gets its own event. *)
Lemma publisher_included h o sid p b outs ev rs ack id : N.of_nat (length h) < two53 ->
  brun new_broker (h ++ [(o, BPublish sid p)]) = Ret b (outs ++ [BPubl ev rs ack]) ->
  holds (trace_of h outs) sid (pu_topic p) id -> sid ∈ rs.
Proof.
  intros Hl Hr Hh. destruct (pub_literal _ _ _ _ _ _ _ _ _ Hl Hr sid id Hh) as (_ & _ & Hrs). apply Hrs. eauto.
Qed.

(** A dead pattern: once somebody left it, its other subscribers get nothing
    but publications to the literal pattern, until it is created anew. *)
Lemma dead_pattern h o sid p b outs e rs ack x t id : N.of_nat (length h) < two53 ->
  brun new_broker (h ++ [(o, BPublish sid p)]) = Ret b (outs ++ [BPubl (Some e) rs ack]) ->
  holds (trace_of h outs) x t id -> pu_topic p <> t ->
  (forall pol, ~ searchable (trace_of h outs) t pol id) -> ev_subscription e <> id.
Proof.
  intros Hl Hr Hh Hne Hns He. destruct (next_step _ _ _ _ _ _ Hl Hr) as (b0 & s & s' & _ & _ & R & I & T & _).
  apply (ti_hold _ _ I) in Hh as (r0 & Hr0 & Hi0 & Hx).
  inversion T as [| | | | | | | | | | | |? ? pub t1 r1 ? Hs Hsv Hnd Hrs]; subst. cbn in He.
  destruct Hsv as [r1 H1|t1 r1 _ (H1 & H2 & H3 & _) _|t1 r1 _ _ (H1 & H2 & H3 & _)].
  - apply Hne. by eapply (ti_inj _ _ I).
  - assert (t1 = t) as -> by (by eapply (ti_inj _ _ I)). apply (Hns PPrefix). apply (ti_search _ _ I). eauto.
  - assert (t1 = t) as -> by (by eapply (ti_inj _ _ I)). apply (Hns PWildcard). apply (ti_search _ _ I). eauto.
Qed.
