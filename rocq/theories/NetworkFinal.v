(** The network properties. *)
From Verif Require Import Prelude Value Msg IdGen Types PathMatch Mutex Broker Dealer Session Network.
From Verif Require Import BrokerSpec BrokerFacts BrokerSim BrokerTrace BrokerProofs.
From Verif Require Import DealerSpec DealerFacts DealerCalls DealerSim DealerStep DealerProofs DealerPolite DealerShare DealerFinal.
From Verif Require Import NetworkSpec NetworkClient NetworkSync NetworkProofs NetworkCalls NetworkLocal NetworkOrigin.

Lemma reached es : N.of_nat (length es) <= two53 -> follows empty_net es -> ninv (nrun empty_net es) (length es).
Proof. intros Hl Hf. apply (ginv_run es empty_net 0 ginv_empty); done. Qed.
Lemma history es : N.of_nat (length es) <= two53 -> follows empty_net es ->
  hinv (nrun empty_net es) es (fun c => delivered c empty_net es) (fun c => calls_made c empty_net es).
Proof.
  intros Hl Hf. pose proof (hinv_run es _ _ _ _ _ ginv_empty Hl Hf hinv_empty) as [H1 H2 H3 H4]. by constructor.
Qed.

Lemma nothing_rejected es : N.of_nat (length es) <= two53 -> follows empty_net es ->
  n_rejected (nrun empty_net es) = [] /\ n_crashed (nrun empty_net es) = [].
Proof. intros Hl Hf. pose proof (reached es Hl Hf) as []. done. Qed.

Lemma agreement es c cl : N.of_nat (length es) <= two53 -> follows empty_net es ->
  n_clients (nrun empty_net es) !! c = Some cl -> cl_down cl = [] ->
  (forall g, g ∈ cs_subscriptions (cl_session cl) <-> exists t, holds (btr (nrun empty_net es)) c t g)
  /\ (forall g, g ∈ cs_registrations (cl_session cl) <-> exists p, owns (dtr (nrun empty_net es)) c p g)
  /\ (forall r, r ∈ cs_calls (cl_session cl) <->
        r ∈ call_ids (cl_up cl) \/ exists i rp, open_inv (dtr (nrun empty_net es)) i c r rp).
Proof.
  intros Hl Hf Hc Hd. destruct (nv_sync _ _ (reached es Hl Hf) _ _ Hc) as [s I].
  pose proof (is_replay _ _ _ _ _ I) as E. rewrite Hd in E. cbn in E. injection E as E. rewrite E.
  split; [apply I|]. split; [apply I|]. intros r. apply (is_calls _ _ _ _ _ I).
Qed.

Lemma accounted es c cl r : N.of_nat (length es) <= two53 -> follows empty_net es ->
  n_clients (nrun empty_net es) !! c = Some cl -> r ∈ calls_made c empty_net es ->
  exactly_one [ r ∈ call_ids (cl_up cl);
                exists i rp, open_inv (dtr (nrun empty_net es)) i c r rp;
                r ∈ answer_ids (cl_down cl);
                r ∈ answer_ids (delivered c empty_net es) ].
Proof.
  intros Hl Hf Hc Hr. destruct (nv_sync _ _ (reached es Hl Hf) _ _ Hc) as [s I].
  destruct (hi_tally _ _ _ _ (history es Hl Hf) _ _ Hc) as (_ & _ & T3 & T4 & _).
  destruct (replay_calls _ _ _ (is_replay _ _ _ _ _ I)) as [_ R]. destruct (R r) as [R1 R2].
  pose proof (is_calls _ _ _ _ _ I r) as C1. pose proof (is_new _ _ _ _ _ I r) as C2.
  apply T3 in Hr. cbn [exactly_one]. rewrite !Forall_cons, !Forall_nil.
  set (O := exists i rp, open_inv (dtr (nrun empty_net es)) i c r rp).
  assert (C3 : r ∈ call_ids (cl_up cl) -> ~ O) by (intros ? (i & rp & ?); by eapply C2).
  change (exists i rp, opn (dtr (nrun empty_net es)) c i r rp) with O in C1.
  specialize (T4 r).
  destruct (decide (r ∈ answer_ids (delivered c empty_net es))) as [Ha|Ha].
  { assert (Hn : r ∉ cs_calls (cl_session cl)) by tauto. tauto. }
  assert (Hin : r ∈ cs_calls (cl_session cl)) by tauto.
  destruct (decide (r ∈ answer_ids (cl_down cl))); [tauto|].
  destruct (decide (r ∈ call_ids (cl_up cl))); [tauto|]. tauto.
Qed.
Lemma one_invocation es c cl r i i' rp rp' : N.of_nat (length es) <= two53 -> follows empty_net es ->
  n_clients (nrun empty_net es) !! c = Some cl ->
  open_inv (dtr (nrun empty_net es)) i c r rp -> open_inv (dtr (nrun empty_net es)) i' c r rp' -> i' = i.
Proof.
  intros Hl Hf Hc H1 H2. destruct (nv_sync _ _ (reached es Hl Hf) _ _ Hc) as [s I].
  by eapply (is_one _ _ _ _ _ I).
Qed.

Lemma follows_app es1 : forall n es2, follows n (es1 ++ es2) <-> follows n es1 /\ follows (nrun n es1) es2.
Proof.
  induction es1 as [|e es1 IH]; intros n es2; cbn [app follows nrun]; [tauto|]. rewrite IH. tauto.
Qed.
Lemma nrun_app es1 : forall n es2, nrun n (es1 ++ es2) = nrun (nrun n es1) es2.
Proof. induction es1; intros n es2; cbn [app nrun]; auto. Qed.
Lemma delivered_app c es1 : forall n es2, delivered c n (es1 ++ es2) = delivered c n es1 ++ delivered c (nrun n es1) es2.
Proof. induction es1 as [|e es1 IH]; intros n es2; cbn [app nrun delivered]; [done|]. by rewrite IH, app_assoc. Qed.
Lemma calls_made_app c es1 : forall n es2, calls_made c n (es1 ++ es2) = calls_made c n es1 ++ calls_made c (nrun n es1) es2.
Proof. induction es1 as [|e es1 IH]; intros n es2; cbn [app nrun calls_made]; [done|]. by rewrite IH, app_assoc. Qed.

Lemma still_there n c e : n_clients (nstep n e) !! c = None -> delivers c n e = [] /\ makes_call c n e = [].
Proof.
  destruct e as [d|o x|x m|o x|x|p x]; cbn [delivers makes_call nstep]; try done.
  - intros H. destruct m; try done. case_bool_decide as Hb; [|by rewrite andb_false_r].
    destruct (N.eqb_spec x c) as [->|]; [|done]. exfalso. destruct Hb as [cl Hc]. rewrite Hc in H.
    destruct (sstep _ _) as [s [y|y|y]]; cbn in H; by rewrite lookup_insert in H.
  - intros H. destruct (N.eqb_spec x c) as [->|]; [|done]. split; [|done].
    destruct (n_clients n !! c) as [[s up [|m down] used]|] eqn:Hc; [done| |done].
    destruct (sstep _ _) as [s' r]. destruct r; cbn in H; by rewrite lookup_insert in H.
Qed.
Lemma answered_once es c : N.of_nat (length es) <= two53 -> follows empty_net es ->
  NoDup (calls_made c empty_net es) /\ NoDup (answer_ids (delivered c empty_net es))
  /\ forall r, r ∈ answer_ids (delivered c empty_net es) -> r ∈ calls_made c empty_net es.
Proof.
  induction es as [|e es IH] using rev_ind; intros Hl Hf.
  - split; [constructor|]. split; [constructor|done].
  - pose proof (history _ Hl Hf) as H.
    destruct (n_clients (nrun empty_net (es ++ [e])) !! c) as [cl|] eqn:Hc.
    + destruct (hi_tally _ _ _ _ H _ _ Hc) as (T1 & T2 & T3 & _). split; [done|]. split; [done|].
      intros r Hr. apply T3. by right.
    + rewrite nrun_app in Hc. cbn [nrun] in Hc. apply still_there in Hc as [E1 E2].
      rewrite delivered_app, calls_made_app. cbn [delivered calls_made]. rewrite E1, E2. cbn. rewrite !app_nil_r.
      apply IH; [rewrite app_length in Hl; cbn in Hl; lia|]. by apply follows_app in Hf as [Hf _].
Qed.

Lemma provenance es c a : N.of_nat (length es) <= two53 -> follows empty_net es ->
  a ∈ delivered c empty_net es -> explained (nrun empty_net es) es c a.
Proof. intros Hl Hf. apply (hi_log _ _ _ _ (history es Hl Hf)). Qed.

(** ** Publications *)

Lemma publish_reaches n k o c cl p rest y g : bpart (n_clients n) (n_broker n) (n_bh n) (n_bouts n) k -> N.of_nat k < two53 ->
  n_clients n !! c = Some cl -> cl_up cl = MPublish p :: rest -> holds (btr n) y (pu_topic p) g ->
  exists e pid, ev_subscription e = g /\ ev_args e = pu_args p /\ ev_kwargs e = pu_kwargs p /\
  forall x clx, n_clients n !! x = Some clx ->
  exists cl', n_clients (nstep n (NRoute o c)) !! x = Some cl' /\
    let ack := if (x =? c) && says (pu_options p) "acknowledge"
               then [MPublished (Published (pu_request p) pid)] else [] in
    (holds (btr n) x (pu_topic p) g -> cl_down cl' = cl_down clx ++ MEvent e :: ack)
    /\ (~ holds (btr n) x (pu_topic p) g -> cl_down cl' = cl_down clx ++ ack).
Proof.
  intros Hn Hl Hc Hu Hg.
  rewrite (route_step _ _ _ _ _ _ Hc Hu). cbn [handle]. unfold call_broker.
  destruct (broker_call _ _ _ _ _ o (BPublish c p) Hn Hl)
    as (b' & out & s & s' & E & Hr & Ht & I & T & I'). rewrite E.
  assert (Ha : is_Some (tb_sessions s !! c)).
  { apply (ti_att _ _ I), (bp_att _ _ _ _ _ Hn). by rewrite Hc. }
  pose proof (proj1 (ti_hold _ _ I y (pu_topic p) g) Hg) as (r0 & Hrow & Hid & _).
  assert (exists e rs pid, out = BPubl (Some e) rs (ack_of p c pid) /\ NoDup rs
    /\ ev_subscription e = g /\ ev_args e = pu_args p /\ ev_kwargs e = pu_kwargs p
    /\ forall x, x ∈ rs <-> holds (btr n) x (pu_topic p) g) as (e & rs & pid & -> & Hnd & E1 & E2 & E3 & Hrs).
  { inversion T as [| | | | | | | | | |sid p0 e He|sid p0 He Hno|sid p0 pub t r rs Hp Hsv Hnd Hrs]; subst.
    - rewrite He in Ha. by destruct Ha.
    - exfalso. eapply Hno. by apply serves_exact.
    - destruct Hsv as [r1 Hr1|t r1 Hr1|t r1 Hr1]; [|congruence..].
      rewrite Hrow in Hr1. injection Hr1 as <-.
      eexists _, rs, _. split; [done|]. split; [done|]. cbn. split; [done|]. split; [done|]. split; [done|].
      intros x. rewrite Hrs. split.
      + intros Hx. apply (ti_hold _ _ I). eauto.
      + intros (r2 & H2 & _ & Hx)%(ti_hold _ _ I). congruence. }
  exists e, pid. split; [done|]. split; [done|]. split; [done|]. intros x clx Hx.
  set (n1 := Net _ _ _ _ _ _ _ _ _ _).
  destruct (post_all_fields (MEvent e) rs n1 Hnd) as (cls1 & -> & H1). subst n1. cbn [n_clients] in H1.
  assert (Hfl : ack_of p c pid = if says (pu_options p) "acknowledge"
                                 then Some (MPublished (Published (pu_request p) pid), c) else None).
  { unfold ack_of. unfold says. by destruct (mget _ _) as [|[]| | | | | | | | |]. }
  rewrite Hfl. destruct (says (pu_options p) "acknowledge").
  - match goal with |- context [post ?x ?a ?t] => destruct (post_fields x a t) as (cls & -> & Hcls) end.
    cbn [n_clients nset_clients] in Hcls. net_cbn. rewrite taken_lookup, Hcls, H1, Hx, andb_true_r.
    destruct (N.eqb_spec x c) as [->|Hne].
    + rewrite !decide_True by done. case_decide as Hin; cbn; eexists; (split; [done|]); cbn; split; intros Hh.
      * by rewrite <- app_assoc.
      * by apply Hrs in Hin.
      * by apply Hrs in Hh.
      * done.
    + rewrite !(decide_False (P := x = c)) by done. case_decide as Hin; cbn; eexists; (split; [done|]); cbn; split; intros Hh.
      * done.
      * by apply Hrs in Hin.
      * by apply Hrs in Hh.
      * by rewrite app_nil_r.
  - net_cbn. rewrite taken_lookup, H1, Hx, andb_false_r.
    destruct (decide (x = c)) as [->|Hne]; (case_decide as Hin; cbn; eexists; (split; [done|]); cbn; split; intros Hh);
      first [done|by apply Hrs in Hin|by apply Hrs in Hh|by rewrite app_nil_r].
Qed.
Lemma event_reaches es o c cl p rest y g : N.of_nat (length es) < two53 -> follows empty_net es ->
  let n := nrun empty_net es in
  n_clients n !! c = Some cl -> cl_up cl = MPublish p :: rest -> holds (btr n) y (pu_topic p) g ->
  exists e pid, ev_subscription e = g /\ ev_args e = pu_args p /\ ev_kwargs e = pu_kwargs p /\
  forall x clx, n_clients n !! x = Some clx ->
  exists cl', n_clients (nstep n (NRoute o c)) !! x = Some cl' /\
    let ack := if (x =? c) && says (pu_options p) "acknowledge"
               then [MPublished (Published (pu_request p) pid)] else [] in
    (holds (btr n) x (pu_topic p) g -> cl_down cl' = cl_down clx ++ MEvent e :: ack)
    /\ (~ holds (btr n) x (pu_topic p) g -> cl_down cl' = cl_down clx ++ ack).
Proof.
  intros Hl Hf n. apply (publish_reaches n (length es)); [|done].
  apply (nv_b _ _ (reached es ltac:(lia) Hf)).
Qed.
