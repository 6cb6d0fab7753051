(** Clients that follow the rules stay in step with the router. *)
From Verif Require Import Prelude Value Msg IdGen Types PathMatch Mutex Broker Dealer Session Network.
From Verif Require Import BrokerSpec BrokerFacts BrokerSim BrokerTrace BrokerProofs.
From Verif Require Import DealerSpec DealerFacts DealerCalls DealerSim DealerStep DealerProofs DealerPolite DealerShare.
From Verif Require Import NetworkSpec NetworkClient NetworkSync.

Definition subs (tr : btrace) (c g : N) : Prop := exists t, holds tr c t g.
Definition regs (tr : dtrace) (c g : N) : Prop := exists p, owns tr c p g.
Definition opn (tr : dtrace) (c i r : N) (rp : bool) : Prop := open_inv tr i c r rp.

Definition in_sync (S R : N -> N -> Prop) (O : N -> N -> N -> bool -> Prop) (cls : gmap N client) : Prop :=
  forall c cl, cls !! c = Some cl -> synced (S c) (R c) (O c) cl.

Record bpart (cls : gmap N client) (b : broker) (h : bhist) (outs : list bout) (k : nat) : Prop := BPart {
  bp_run : brun new_broker h = Ret b outs;
  bp_len : (length h <= k)%nat;
  bp_att : forall c, attached (trace_of h outs) c <-> is_Some (cls !! c);
  bp_hold : forall c t g, holds (trace_of h outs) c t g -> is_Some (cls !! c) }.
Record dpart (cls : gmap N client) (ever : list N) (d : dealer) (h : dhist) (outs : list dout) (k : nat) : Prop := DPart {
  dp_run : drun new_dealer h = Ret d outs;
  dp_len : (length h <= k)%nat;
  dp_polite : polite_history h;
  dp_pres : forall c, present (dtrace_of h outs) c <-> is_Some (cls !! c);
  dp_own : forall c p g, owns (dtrace_of h outs) c p g -> is_Some (cls !! c);
  dp_open : forall i c r rp, open_inv (dtrace_of h outs) i c r rp -> c ∈ ever }.
Record ninv (n : net) (k : nat) : Prop := NInv {
  nv_b : bpart (n_clients n) (n_broker n) (n_bh n) (n_bouts n) k;
  nv_d : dpart (n_clients n) (n_ever n) (n_dealer n) (n_dh n) (n_douts n) k;
  nv_ever : forall c, is_Some (n_clients n !! c) -> c ∈ n_ever n;
  nv_sync : in_sync (subs (btr n)) (regs (dtr n)) (opn (dtr n)) (n_clients n);
  nv_rejected : n_rejected n = [];
  nv_crashed : n_crashed n = [] }.

(** ** One call on the broker, on the dealer *)

Lemma broker_call cls b h outs k o op : bpart cls b h outs k -> N.of_nat k < two53 ->
  exists b' out s s', bstep o b op = Ret b' out
    /\ brun new_broker (h ++ [(o, op)]) = Ret b' (outs ++ [out])
    /\ trace_of (h ++ [(o, op)]) (outs ++ [out]) = (op, out) :: trace_of h outs
    /\ tinv (trace_of h outs) s /\ tstep s op out s' /\ tinv ((op, out) :: trace_of h outs) s'.
Proof.
  intros B Hk. destruct (reach h b outs) as (s & _ & Rf & I & Hi); [pose proof (bp_len _ _ _ _ _ B); lia|apply B|].
  destruct (step_refines o b s op Rf) as (b' & out & s' & E & T & _ & _).
  { pose proof (bp_len _ _ _ _ _ B). lia. }
  exists b', out, s, s'. split; [done|]. split.
  { rewrite brun_app, (bp_run _ _ _ _ _ B). cbn [brun]. by rewrite E. }
  split; [|split; [done|split; [done|by eapply tinv_step]]].
  rewrite trace_of_app; [done|]. eapply brun_length, B.
Qed.

Lemma dealer_call cls ever d h outs k o op : dpart cls ever d h outs k -> N.of_nat k < two53 ->
  polite (dtrace_of h outs) op ->
  exists d' out s s', dstep o d op = Ret d' out
    /\ drun new_dealer (h ++ [(o, op)]) = Ret d' (outs ++ [out])
    /\ polite_history (h ++ [(o, op)])
    /\ dtrace_of (h ++ [(o, op)]) (outs ++ [out]) = (op, out) :: dtrace_of h outs
    /\ drep (dtrace_of h outs) d s /\ rstep s op out s' /\ drep ((op, out) :: dtrace_of h outs) d' s'.
Proof.
  intros D Hk Hp. pose proof (dp_len _ _ _ _ _ _ D) as Hl.
  destruct (run_drep h (dp_polite _ _ _ _ _ _ D) ltac:(lia)) as (d1 & outs1 & s & H1 & _ & Rp).
  rewrite (dp_run _ _ _ _ _ _ D) in H1. injection H1 as <- <-.
  destruct (run_cinv h d outs ltac:(lia) (dp_run _ _ _ _ _ _ D)) as [C Hlen].
  destruct (step_drep _ _ _ o op Rp C Hp) as (d' & out & s' & E & T & Rp'); [rewrite Hlen; lia|].
  exists d', out, s, s'. split; [done|]. split; [by eapply drun_snoc, E; apply D|].
  split.
  { apply polite_snoc; [apply D|]. intros d1 outs1 H1. rewrite (dp_run _ _ _ _ _ _ D) in H1. by injection H1 as <- <-. }
  split; [|done]. apply dtrace_snoc. eapply drun_length, D.
Qed.

(** The broker's part of the invariant, after a call that neither adds nor removes a session. *)
Lemma bpart_quiet cls cls' b h outs k o op b' out : bpart cls b h outs k ->
  brun new_broker (h ++ [(o, op)]) = Ret b' (outs ++ [out]) ->
  trace_of (h ++ [(o, op)]) (outs ++ [out]) = (op, out) :: trace_of h outs ->
  (forall c, is_Some (cls' !! c) <-> is_Some (cls !! c)) ->
  match op with BAdd _ | BRemove _ => False | _ => True end ->
  (forall c t g, is_subscribed (op, out) c t g -> is_Some (cls !! c)) ->
  bpart cls' b' (h ++ [(o, op)]) (outs ++ [out]) (S k).
Proof.
  intros B Hr Ht Hc Hop Hs. constructor; [done| | |]; rewrite ?Ht.
  - rewrite app_length. cbn. pose proof (bp_len _ _ _ _ _ B). lia.
  - intros c. rewrite Hc, <- (bp_att _ _ _ _ _ B). destruct op; done.
  - intros c t g. cbn [holds]. rewrite Hc. intros [H|[H _]]; [by eapply Hs|]. by eapply (bp_hold _ _ _ _ _ B).
Qed.
Lemma dpart_quiet cls cls' ever d h outs k o op d' out : dpart cls ever d h outs k ->
  drun new_dealer (h ++ [(o, op)]) = Ret d' (outs ++ [out]) -> polite_history (h ++ [(o, op)]) ->
  dtrace_of (h ++ [(o, op)]) (outs ++ [out]) = (op, out) :: dtrace_of h outs ->
  (forall c, is_Some (cls' !! c) <-> is_Some (cls !! c)) ->
  match op with DAdd _ | DRemove _ => False | _ => True end ->
  (forall c p pol g, is_registered (op, out) c p pol g -> is_Some (cls !! c)) ->
  (forall i c r rp, opens (op, out) (dtrace_of h outs) i c r rp -> c ∈ ever) ->
  dpart cls' ever d' (h ++ [(o, op)]) (outs ++ [out]) (S k).
Proof.
  intros B Hr Hp Ht Hc Hop Hs Ho. constructor; [done| |done| | |]; rewrite ?Ht.
  - rewrite app_length. cbn. pose proof (dp_len _ _ _ _ _ _ B). lia.
  - intros c. rewrite Hc, <- (dp_pres _ _ _ _ _ _ B). destruct op; done.
  - intros c p g. cbn [owns]. rewrite Hc. intros [[pol H]|[H _]]; [by eapply Hs|]. by eapply (dp_own _ _ _ _ _ _ B).
  - intros i c r rp. cbn [open_inv]. intros [H|[H _]]; [by eapply Ho|]. by eapply (dp_open _ _ _ _ _ _ B).
Qed.
Lemma bpart_dom cls cls' b h outs k : bpart cls b h outs k ->
  (forall c, is_Some (cls' !! c) <-> is_Some (cls !! c)) -> bpart cls' b h outs (S k).
Proof.
  intros B Hc. destruct B. constructor; try done; [lia|..].
  - intros c. by rewrite Hc.
  - intros c t g H. rewrite Hc. by eapply bp_hold0.
Qed.
Lemma dpart_dom cls cls' ever d h outs k : dpart cls ever d h outs k ->
  (forall c, is_Some (cls' !! c) <-> is_Some (cls !! c)) -> dpart cls' ever d h outs (S k).
Proof.
  intros B Hc. destruct B. constructor; try done; [lia|..].
  - intros c. by rewrite Hc.
  - intros c t g H. rewrite Hc. by eapply dp_own0.
Qed.

(** ** Sending to clients *)

Lemma post_fields n m to : exists cls, post n m to = nset_clients cls n /\
  forall x, cls !! x = (if decide (x = to) then cl_post m <$> n_clients n !! x else n_clients n !! x).
Proof.
  unfold post. destruct (n_clients n !! to) as [cl|] eqn:E.
  - eexists. split; [done|]. intros x. case_decide as Hx.
    + subst x. by rewrite lookup_insert, E.
    + by rewrite lookup_insert_ne.
  - exists (n_clients n). split; [by destruct n|]. intros x. case_decide as Hx; [|done]. subst x. by rewrite E.
Qed.
Lemma post_all_fields m tos : forall n, NoDup tos -> exists cls, post_all n m tos = nset_clients cls n /\
  forall x, cls !! x = (if decide (x ∈ tos) then cl_post m <$> n_clients n !! x else n_clients n !! x).
Proof.
  induction tos as [|to tos IH]; intros n Hd.
  - exists (n_clients n). split; [by destruct n|]. intros x. case_decide; [set_solver|done].
  - apply NoDup_cons in Hd as [Hn Hd]. cbn [post_all].
    destruct (post_fields n m to) as (c1 & -> & H1). destruct (IH (nset_clients c1 n) Hd) as (c2 & -> & H2).
    exists c2. split; [done|]. intros x. rewrite H2. cbn [n_clients nset_clients]. rewrite !H1.
    destruct (decide (x = to)) as [->|Hx].
    + rewrite (decide_False (P := to ∈ tos)) by done. by rewrite decide_True by (by left).
    + destruct (decide (x ∈ tos)).
      * by rewrite decide_True by (by right).
      * rewrite decide_False; [done|]. intros [?|?]%elem_of_cons; done.
Qed.

(** The clients after the router has taken a message of [c] and sent [a] to [to]. *)
Definition taken (c : N) (cls : gmap N client) : gmap N client :=
  match cls !! c with Some cl => <[c := cl_pop cl]> cls | None => cls end.
Lemma taken_lookup c cls x : taken c cls !! x = (if decide (x = c) then cl_pop <$> cls !! x else cls !! x).
Proof.
  unfold taken. destruct (cls !! c) as [cl|] eqn:E.
  - case_decide as Hx.
    + subst x. by rewrite lookup_insert, E.
    + by rewrite lookup_insert_ne.
  - case_decide as Hx; [|done]. subst x. by rewrite E.
Qed.
Lemma route_step n o c cl m rest : n_clients n !! c = Some cl -> cl_up cl = m :: rest ->
  nstep n (NRoute o c) = nset_clients (taken c (n_clients (handle o c m n))) (handle o c m n).
Proof.
  intros H Hu. cbn [nstep]. rewrite H. destruct cl as [s up down us]. cbn in Hu. subst up. unfold taken.
  destruct (n_clients (handle o c m n) !! c) as [cl|]; [done|]. by destruct (handle o c m n).
Qed.

Lemma dom_post (cls cls' : gmap N client) (P : N -> Prop) `{HP : !forall x, Decision (P x)} m c :
  (forall x, cls' !! x = (if decide (P x) then cl_post m <$> cls !! x else cls !! x)) ->
  forall x, is_Some (taken c cls' !! x) <-> is_Some (cls !! x).
Proof.
  intros H x. rewrite taken_lookup, H. repeat case_decide; by rewrite ?fmap_is_Some.
Qed.
Lemma dom_taken (cls : gmap N client) c x : is_Some (taken c cls !! x) <-> is_Some (cls !! x).
Proof. rewrite taken_lookup. case_decide; by rewrite ?fmap_is_Some. Qed.

Ltac net_cbn := cbn [n_clients n_broker n_dealer n_rejected n_crashed n_ever n_bh n_bouts n_dh n_douts
  nset_clients nset_rejected nset_crashed nset_ever btr dtr fst snd].

Lemma route_subscribe n k o c cl m rest : ninv n k -> N.of_nat k < two53 ->
  n_clients n !! c = Some cl -> cl_up cl = MSubscribe m :: rest -> ninv (nstep n (NRoute o c)) (S k).
Proof.
  intros Hn Hk Hc Hu. rewrite (route_step _ _ _ _ _ _ Hc Hu). cbn [handle]. unfold call_broker.
  destruct (broker_call _ _ _ _ _ o (BReceive c (MSubscribe m)) (nv_b _ _ Hn) Hk)
    as (b' & out & s & s' & E & Hr & Ht & I & T & I'). rewrite E.
  assert (Ha : is_Some (tb_sessions s !! c)).
  { apply (ti_att _ _ I), (bp_att _ _ _ _ _ (nv_b _ _ Hn)). by rewrite Hc. }
  assert (exists g, out = BMsg (MSubscribed (Subscribed (su_request m) g)) c) as [g ->].
  { inversion T as [| | | | | |sid m0 r Hs Hrow|sid m0 Hs Hrow| |sid m0 e He| | |]; subst.
    - by eexists.
    - by eexists.
    - rewrite He in Ha. by destruct Ha. }
  match goal with |- context [post ?x ?a ?t] => destruct (post_fields x a t) as (cls & -> & Hcls) end.
  net_cbn. cbn [n_clients] in Hcls. pose proof (dom_post _ _ _ _ c Hcls) as Hdom.
  destruct Hn as [B D Hev Hsy Hrej Hcr]. constructor; net_cbn; try done.
  - eapply bpart_quiet; try done. intros c' t g' (<- & _). by rewrite Hc.
  - by eapply dpart_dom.
  - intros x. rewrite Hdom. apply Hev.
  - unfold btr, dtr. net_cbn. rewrite Ht.
    intros x cl' Hx. rewrite taken_lookup, Hcls in Hx. destruct (decide (x = c)) as [->|Hne].
    + rewrite Hc in Hx. cbn in Hx. injection Hx as <-.
      eapply pop_subscribed; [by apply Hsy|done|]. intros g'. unfold subs. cbn [holds is_subscribed is_ended sd_subscription]. split.
      * intros (t & [(_ & _ & -> & _)|[H _]]); [by right|left; by exists t].
      * intros [[t H]| ->]; [exists t; right; split; [done|tauto]|]. exists (su_topic m). by left.
    + eapply synced_iff; [by apply Hsy| |done|done]. intros g'. unfold subs, btr.
      cbn [holds is_subscribed is_ended]. split.
      * intros (t & [(? & _)|[H _]]); [congruence|by exists t].
      * intros [t H]. exists t. right. split; [done|tauto].
Qed.

Lemma route_unsubscribe n k o c cl m rest : ninv n k -> N.of_nat k < two53 ->
  n_clients n !! c = Some cl -> cl_up cl = MUnsubscribe m :: rest -> ninv (nstep n (NRoute o c)) (S k).
Proof.
  intros Hn Hk Hc Hu. rewrite (route_step _ _ _ _ _ _ Hc Hu). cbn [handle]. unfold call_broker.
  destruct (broker_call _ _ _ _ _ o (BReceive c (MUnsubscribe m)) (nv_b _ _ Hn) Hk)
    as (b' & out & s & s' & E & Hr & Ht & I & T & I'). rewrite E.
  assert ((out = BMsg (MUnsubscribed (Unsubscribed (us_request m))) c /\ subs (btr n) c (us_subscription m))
          \/ exists e, out = BErr e) as [[-> Hg]|[e ->]].
  { inversion T as [| | | | | | | |sid m0 t r Hs Hrow Hi Hin|sid m0 e He| | |]; subst.
    - left. split; [done|]. exists t. apply (ti_hold _ _ I). by exists r.
    - right. by eexists. }
  - match goal with |- context [post ?x ?a ?t] => destruct (post_fields x a t) as (cls & -> & Hcls) end.
    net_cbn. cbn [n_clients] in Hcls. pose proof (dom_post _ _ _ _ c Hcls) as Hdom.
    destruct Hn as [B D Hev Hsy Hrej Hcr]. constructor; net_cbn; try done.
    + eapply bpart_quiet; try done.
    + by eapply dpart_dom.
    + intros x. rewrite Hdom. apply Hev.
    + unfold btr, dtr. net_cbn. rewrite Ht.
      intros x cl' Hx. rewrite taken_lookup, Hcls in Hx. destruct (decide (x = c)) as [->|Hne].
      * rewrite Hc in Hx. cbn in Hx. injection Hx as <-.
        eapply pop_unsubscribed; [by apply Hsy|done|done|]. intros g'. unfold subs. cbn [holds is_subscribed is_ended]. split.
        -- intros (t & [[]|[H Hg']]). split; [by exists t|]. intros ->. by apply Hg'.
        -- intros [[t H] Hg']. exists t. right. split; [done|]. intros [_ ?]. congruence.
      * eapply synced_iff; [by apply Hsy| |done|done]. intros g'. unfold subs, btr.
        cbn [holds is_subscribed is_ended]. split.
        -- intros (t & [[]|[H _]]). by exists t.
        -- intros [t H]. exists t. right. split; [done|]. intros [? _]. congruence.
  - net_cbn. destruct Hn as [B D Hev Hsy Hrej Hcr]. pose proof (dom_taken (n_clients n) c) as Hdom.
    constructor; net_cbn; try done.
    + eapply bpart_quiet; try done.
    + by eapply dpart_dom.
    + intros x. rewrite Hdom. apply Hev.
    + unfold btr, dtr. net_cbn. rewrite Ht.
      intros x cl' Hx. rewrite taken_lookup in Hx.
      assert (HS : forall g', subs ((BReceive c (MUnsubscribe m), BErr e) :: trace_of (n_bh n) (n_bouts n)) x g' <-> subs (btr n) x g').
      { intros g'. unfold subs, btr. cbn [holds is_subscribed is_ended]. split.
        - intros (t & [[]|[H _]]). by exists t.
        - intros [t H]. exists t. right. split; [done|tauto]. }
      destruct (decide (x = c)) as [->|Hne].
      * rewrite Hc in Hx. cbn in Hx. injection Hx as <-.
        eapply synced_iff; [|exact HS|done|done]. eapply pop_plain; [by apply Hsy|done|done..].
      * eapply synced_iff; [by apply Hsy|exact HS|done|done].
Qed.

Lemma route_publish n k o c cl m rest : ninv n k -> N.of_nat k < two53 ->
  n_clients n !! c = Some cl -> cl_up cl = MPublish m :: rest -> ninv (nstep n (NRoute o c)) (S k).
Proof.
  intros Hn Hk Hc Hu. rewrite (route_step _ _ _ _ _ _ Hc Hu). cbn [handle]. unfold call_broker.
  destruct (broker_call _ _ _ _ _ o (BPublish c m) (nv_b _ _ Hn) Hk)
    as (b' & out & s & s' & E & Hr & Ht & I & T & I'). rewrite E.
  assert (Ha : is_Some (tb_sessions s !! c)).
  { apply (ti_att _ _ I), (bp_att _ _ _ _ _ (nv_b _ _ Hn)). by rewrite Hc. }
  assert (exists ev rs pid, out = BPubl ev rs (ack_of m c pid)
    /\ match ev with
       | Some e => NoDup rs /\ forall x, x ∈ rs -> subs (btr n) x (ev_subscription e)
       | None => True end) as (ev & rs & pid & -> & Hev).
  { inversion T as [| | | | | | | | | |sid p e He|sid p He Hno|sid p pub t r rs Hp Hsv Hnd Hrs]; subst.
    - rewrite He in Ha. by destruct Ha.
    - eexists None, [], _. done.
    - eexists (Some _), rs, _. split; [done|]. split; [done|]. intros x Hx. exists t. apply (ti_hold _ _ I). exists r.
      split; [|split; [done|by apply Hrs]]. by destruct Hsv as [|? ? ? []|? ? ? ? []]. }
  assert (HS : forall x g', subs ((BPublish c m, BPubl ev rs (ack_of m c pid)) :: trace_of (n_bh n) (n_bouts n)) x g' <-> subs (btr n) x g').
  { intros x g'. unfold subs, btr. cbn [holds is_subscribed is_ended]. split.
    - intros (t & [[]|[H _]]). by exists t.
    - intros [t H]. exists t. right. split; [done|tauto]. }
  set (n1 := Net _ _ _ _ _ _ _ _ _ _).
  (* the event *)
  assert (exists cls1, match ev with Some e => post_all n1 (MEvent e) rs | None => n1 end = nset_clients cls1 n1
    /\ (forall x, is_Some (cls1 !! x) <-> is_Some (n_clients n !! x))
    /\ in_sync (subs (btr n)) (regs (dtr n)) (opn (dtr n)) cls1
    /\ exists cl1, cls1 !! c = Some cl1 /\ cl_up cl1 = MPublish m :: rest) as (cls1 & -> & Hd1 & Hs1 & cl1 & Hc1 & Hu1).
  { destruct ev as [e|].
    - destruct Hev as [Hnd Hrs]. destruct (post_all_fields (MEvent e) rs n1 Hnd) as (cls1 & -> & H1).
      exists cls1. split; [done|]. subst n1. cbn [n_clients] in H1. split; [|split].
      + intros x. rewrite H1. case_decide; by rewrite ?fmap_is_Some.
      + intros x cl' Hx. rewrite H1 in Hx. case_decide as Hin; [|by apply (nv_sync _ _ Hn)].
        apply fmap_Some in Hx as (cl0 & Hx & ->). apply post_event; [by apply (nv_sync _ _ Hn)|by apply Hrs].
      + rewrite H1, Hc. case_decide; eexists; (split; [done|]); done.
    - exists (n_clients n). split; [done|]. split; [done|]. split; [apply Hn|]. eauto. }
  (* the acknowledgement *)
  assert (Hfl : ack_of m c pid = if flag (pu_options m) "acknowledge"
                                 then Some (MPublished (Published (pu_request m) pid), c) else None).
  { unfold ack_of. rewrite flag_says. unfold says. by destruct (mget _ _) as [|[]| | | | | | | | |]. }
  destruct (flag (pu_options m) "acknowledge") eqn:Ef.
  - rewrite Hfl.
    match goal with |- context [post ?x ?a ?t] => destruct (post_fields x a t) as (cls & -> & Hcls) end.
    cbn [n_clients nset_clients] in Hcls. subst n1. net_cbn.
    assert (Hdom : forall x, is_Some (taken c cls !! x) <-> is_Some (n_clients n !! x)).
    { intros x. rewrite <- Hd1. apply (dom_post _ _ _ _ c Hcls). }
    destruct Hn as [B D Hever Hsy Hrej Hcr]. constructor; net_cbn; try done.
    + eapply bpart_quiet; try done.
    + by eapply dpart_dom.
    + intros x. rewrite Hdom. apply Hever.
    + unfold btr, dtr. net_cbn. rewrite Ht.
      intros x cl' Hx. rewrite taken_lookup, Hcls in Hx. eapply synced_iff; [|by apply HS|done|done].
      destruct (decide (x = c)) as [->|Hne]; [|by apply Hs1].
      rewrite Hc1 in Hx. cbn in Hx. injection Hx as <-. eapply pop_published; [by apply Hs1|done|done].
  - rewrite Hfl. subst n1. net_cbn.
    assert (Hdom : forall x, is_Some (taken c cls1 !! x) <-> is_Some (n_clients n !! x)).
    { intros x. rewrite <- Hd1. apply dom_taken. }
    destruct Hn as [B D Hever Hsy Hrej Hcr]. constructor; net_cbn; try done.
    + eapply bpart_quiet; try done.
    + by eapply dpart_dom.
    + intros x. rewrite Hdom. apply Hever.
    + unfold btr, dtr. net_cbn. rewrite Ht.
      intros x cl' Hx. rewrite taken_lookup in Hx. eapply synced_iff; [|by apply HS|done|done].
      destruct (decide (x = c)) as [->|Hne]; [|by apply Hs1].
      rewrite Hc1 in Hx. cbn in Hx. injection Hx as <-. eapply pop_plain; [by apply Hs1|done|done|done|].
      unfold ack_ids. cbn. by rewrite Ef.
Qed.

(** ** Messages for the dealer *)

Lemma dealer_done n k o op d' out cls : ninv n k ->
  drun new_dealer (n_dh n ++ [(o, op)]) = Ret d' (n_douts n ++ [out]) -> polite_history (n_dh n ++ [(o, op)]) ->
  dtrace_of (n_dh n ++ [(o, op)]) (n_douts n ++ [out]) = (op, out) :: dtr n ->
  (forall c, is_Some (cls !! c) <-> is_Some (n_clients n !! c)) ->
  match op with DAdd _ | DRemove _ => False | _ => True end ->
  (forall c p pol g, is_registered (op, out) c p pol g -> is_Some (n_clients n !! c)) ->
  (forall i c r rp, opens (op, out) (dtr n) i c r rp -> c ∈ n_ever n) ->
  in_sync (subs (btr n)) (regs ((op, out) :: dtr n)) (opn ((op, out) :: dtr n)) cls ->
  ninv (Net cls (n_broker n) d' (n_rejected n) (n_crashed n) (n_ever n) (n_bh n) (n_bouts n)
          (n_dh n ++ [(o, op)]) (n_douts n ++ [out])) (S k).
Proof.
  intros [B D Hev Hsy Hrej Hcr] Hr Hp Ht Hdom Hop Hreg Hopn Hs. constructor; net_cbn; try done.
  - by eapply bpart_dom.
  - by eapply dpart_quiet.
  - intros x. rewrite Hdom. apply Hev.
  - unfold btr, dtr. net_cbn. rewrite Ht. exact Hs.
Qed.

Lemma regs_quiet e tr c : (forall p pol g, ~ is_registered e c p pol g) -> (forall g, ~ is_unregistered e c g) ->
  forall g, regs (e :: tr) c g <-> regs tr c g.
Proof.
  intros H1 H2 g. unfold regs. split; intros [p H]; exists p; by apply (owns_quiet e tr c p g (fun pol => H1 p pol g) (H2 g)).
Qed.
Lemma opn_quiet e tr c : (forall i r rp, ~ opens e tr i c r rp) -> (forall i r rp, opn tr c i r rp -> ~ closes e i rp) ->
  forall i r rp, opn (e :: tr) c i r rp <-> opn tr c i r rp.
Proof.
  intros H1 H2 i r rp. unfold opn. cbn [open_inv]. split.
  - intros [H|[H _]]; [by apply H1 in H|done].
  - intros H. right. split; [done|]. by eapply H2.
Qed.

Lemma route_register n k o c cl m rest : ninv n k -> N.of_nat k < two53 -> polite (dtr n) (DReceive c (MRegister m)) ->
  n_clients n !! c = Some cl -> cl_up cl = MRegister m :: rest -> ninv (nstep n (NRoute o c)) (S k).
Proof.
  intros Hn Hk Hpol Hc Hu. rewrite (route_step _ _ _ _ _ _ Hc Hu). cbn [handle]. unfold call_dealer.
  destruct (dealer_call _ _ _ _ _ _ o _ (nv_d _ _ Hn) Hk Hpol)
    as (d' & out & s & s' & E & Hr & Hph & Ht & I & T & I'). rewrite E.
  assert (V : view (dtr n) s).
  { eapply drep_view; [|apply (dp_run _ _ _ _ _ _ (nv_d _ _ Hn))|done]. pose proof (dp_len _ _ _ _ _ _ (nv_d _ _ Hn)). lia. }
  assert (Ha : is_Some (pt_sessions s !! c)).
  { apply (vw_sess _ _ V), (dp_pres _ _ _ _ _ _ (nv_d _ _ Hn)). by rewrite Hc. }
  assert (HO : forall x i r rp, opn ((DReceive c (MRegister m), out) :: dtr n) x i r rp <-> opn (dtr n) x i r rp).
  { intros x. apply opn_quiet; cbn; intros; tauto. }
  assert ((exists g, out = DMsg (MRegistered (Registered (rg_request m) g)) c)
          \/ out = DMsg (refusal 64 (rg_request m) "wamp.error.procedure_already_exists") c) as [[g ->]| ->].
  { inversion T; subst; [left; by eexists|left; by eexists|by right| |done].
    match goal with H : pt_sessions s' !! c = None |- _ => rewrite H in Ha; by destruct Ha end. }
  - match goal with |- context [post ?x ?a ?t] => destruct (post_fields x a t) as (cls & -> & Hcls) end.
    net_cbn. cbn [n_clients] in Hcls. eapply (dealer_done n); try done.
    + apply (dom_post _ _ _ _ c Hcls).
    + intros x p pol g' (<- & _). by rewrite Hc.
    + intros x cl' Hx. rewrite taken_lookup, Hcls in Hx. pose proof (nv_sync _ _ Hn) as Hsy. destruct (decide (x = c)) as [->|Hne].
      * rewrite Hc in Hx. cbn in Hx. injection Hx as <-. eapply synced_iff; [|done|done|by apply HO].
        eapply pop_registered; [by apply Hsy|done|]. intros g'. unfold regs. cbn [owns is_registered is_unregistered rd_registration]. split.
        -- intros (p & [(pol & _ & _ & _ & -> & _)|[H _]]); [by right|left; by exists p].
        -- intros [[p H]| ->]; [exists p; right; split; [done|tauto]|]. exists (rg_procedure m). left. by eexists.
      * eapply synced_iff; [by apply Hsy|done| |by apply HO]. apply regs_quiet; cbn [is_registered is_unregistered]; [|tauto].
        intros p pol g' (? & _). congruence.
  - match goal with |- context [post ?x ?a ?t] => destruct (post_fields x a t) as (cls & -> & Hcls) end.
    net_cbn. cbn [n_clients] in Hcls. eapply (dealer_done n); try done.
    + apply (dom_post _ _ _ _ c Hcls).
    + intros x cl' Hx. rewrite taken_lookup, Hcls in Hx. pose proof (nv_sync _ _ Hn) as Hsy.
      eapply synced_iff; [|done|by apply regs_quiet; cbn; intros; tauto|by apply HO].
      destruct (decide (x = c)) as [->|Hne]; [|by apply Hsy].
      rewrite Hc in Hx. cbn in Hx. injection Hx as <-. by eapply pop_register_refused; [apply Hsy|..].
Qed.

Lemma route_unregister n k o c cl m rest : ninv n k -> N.of_nat k < two53 -> polite (dtr n) (DReceive c (MUnregister m)) ->
  n_clients n !! c = Some cl -> cl_up cl = MUnregister m :: rest -> ninv (nstep n (NRoute o c)) (S k).
Proof.
  intros Hn Hk Hpol Hc Hu. rewrite (route_step _ _ _ _ _ _ Hc Hu). cbn [handle]. unfold call_dealer.
  destruct (dealer_call _ _ _ _ _ _ o _ (nv_d _ _ Hn) Hk Hpol)
    as (d' & out & s & s' & E & Hr & Hph & Ht & I & T & I'). rewrite E.
  assert (HO : forall x i r rp, opn ((DReceive c (MUnregister m), out) :: dtr n) x i r rp <-> opn (dtr n) x i r rp).
  { intros x. apply opn_quiet; cbn; intros; tauto. }
  assert ((out = DMsg (MUnregistered (Unregistered (ur_request m))) c /\ regs (dtr n) c (ur_registration m))
          \/ exists e, out = DErr e) as [[-> Hg]|[e ->]].
  { inversion T as [| | | | | | | | | |sid m0 p r dead Hs Hrow Hi Hcs| | | |]; subst; [|right; by eexists|done].
    left. split; [done|]. exists p. apply (dp_owns _ _ _ I). exists r. rewrite Hcs. split; [done|]. split; [done|]. by left. }
  - match goal with |- context [post ?x ?a ?t] => destruct (post_fields x a t) as (cls & -> & Hcls) end.
    net_cbn. cbn [n_clients] in Hcls. eapply (dealer_done n); try done.
    + apply (dom_post _ _ _ _ c Hcls).
    + intros x cl' Hx. rewrite taken_lookup, Hcls in Hx. pose proof (nv_sync _ _ Hn) as Hsy. destruct (decide (x = c)) as [->|Hne].
      * rewrite Hc in Hx. cbn in Hx. injection Hx as <-. eapply synced_iff; [|done|done|by apply HO].
        eapply pop_unregistered; [by apply Hsy|done|done|]. intros g'. unfold regs. cbn [owns is_registered is_unregistered]. split.
        -- intros (p & [[pol []]|[H Hg']]). split; [by exists p|]. intros ->. by apply Hg'.
        -- intros [[p H] Hg']. exists p. right. split; [done|]. intros [_ ?]. congruence.
      * eapply synced_iff; [by apply Hsy|done| |by apply HO]. apply regs_quiet; cbn [is_registered is_unregistered]; [tauto|].
        intros g' (? & _). congruence.
  - net_cbn. eapply (dealer_done n); try done.
    + apply dom_taken.
    + intros x cl' Hx. rewrite taken_lookup in Hx. pose proof (nv_sync _ _ Hn) as Hsy.
      eapply synced_iff; [|done|by apply regs_quiet; cbn; intros; tauto|by apply HO].
      destruct (decide (x = c)) as [->|Hne]; [|by apply Hsy].
      rewrite Hc in Hx. cbn in Hx. injection Hx as <-. by eapply pop_plain; [apply Hsy|..].
Qed.

Lemma route_call n k o c cl m rest : ninv n k -> N.of_nat k < two53 -> called (dtr n) c (ca_request m) = false ->
  n_clients n !! c = Some cl -> cl_up cl = MCall m :: rest -> ninv (nstep n (NRoute o c)) (S k).
Proof.
  intros Hn Hk Hnew Hc Hu. rewrite (route_step _ _ _ _ _ _ Hc Hu). cbn [handle]. unfold call_dealer.
  assert (Hpol : polite (dtr n) (DReceive c (MCall m))).
  { intros _. apply (dp_pres _ _ _ _ _ _ (nv_d _ _ Hn)). by rewrite Hc. }
  destruct (dealer_call _ _ _ _ _ _ o _ (nv_d _ _ Hn) Hk Hpol)
    as (d' & out & s & s' & E & Hr & Hph & Ht & I & T & I'). rewrite E.
  assert (out = DMsg (refusal 48 (ca_request m) "wamp.error.no_such_procedure") c
          \/ exists v callee, out = DMsg (MInvocation v) callee /\ regs (dtr n) callee (in_registration v)) as [->|(v & callee & -> & Hv)].
  { inversion T as [| | | | | | | | | | | | |sid m0 p r callee turn v Hro Hpi Hi|]; subst; [by left| |done].
    right. exists v, callee. split; [done|]. exists p. apply (dp_owns _ _ _ I). exists r.
    split; [by eapply routes_row|]. split; [done|]. by eapply picks_callee. }
  - match goal with |- context [post ?x ?a ?t] => destruct (post_fields x a t) as (cls & -> & Hcls) end.
    net_cbn. cbn [n_clients] in Hcls. eapply (dealer_done n); try done.
    + apply (dom_post _ _ _ _ c Hcls).
    + intros x cl' Hx. rewrite taken_lookup, Hcls in Hx. pose proof (nv_sync _ _ Hn) as Hsy.
      eapply synced_iff; [|done|by apply regs_quiet; cbn; intros; tauto|by apply opn_quiet; cbn; intros; tauto].
      destruct (decide (x = c)) as [->|Hne]; [|by apply Hsy].
      rewrite Hc in Hx. cbn in Hx. injection Hx as <-. by eapply pop_call_refused; [apply Hsy|..].
  - match goal with |- context [post ?x ?a ?t] => destruct (post_fields x a t) as (cls & -> & Hcls) end.
    net_cbn. cbn [n_clients] in Hcls. eapply (dealer_done n); try done.
    + apply (dom_post _ _ _ _ c Hcls).
    + intros i x r rp (<- & _). apply (nv_ever _ _ Hn). by rewrite Hc.
    + assert (in_sync (subs (btr n)) (regs (dtr n)) (opn (dtr n)) cls
        /\ exists cl1, cls !! c = Some cl1 /\ cl_up cl1 = MCall m :: rest) as [Hs1 (cl1 & Hc1 & Hu1)].
      { split.
        - intros x cl' Hx. rewrite Hcls in Hx. case_decide as Hxc; [|by apply (nv_sync _ _ Hn)]. subst x.
          apply fmap_Some in Hx as (cl0 & Hx & ->). apply post_invocation; [by apply (nv_sync _ _ Hn)|done].
        - rewrite Hcls, Hc. case_decide; eexists; (split; [done|]); done. }
      assert (Hco : continues (dtr n) c m = false) by (unfold continues; rewrite Hnew; apply andb_false_r).
      intros x cl' Hx. rewrite taken_lookup in Hx. destruct (decide (x = c)) as [->|Hne].
      * rewrite Hc1 in Hx. cbn in Hx. injection Hx as <-.
        eapply synced_iff; [|done|by apply regs_quiet; cbn; intros; tauto|done].
        eapply (pop_call_opened _ _ _ _ _ _ _ (in_request v) (says (ca_options m) "receive_progress")); [by apply Hs1|done|].
        intros i' q rp'. unfold opn. cbn [open_inv opens closes]. rewrite Hco. split.
        -- intros [(_ & <- & <- & _ & <-)|[H _]]; [by right|by left].
        -- intros [H|(-> & -> & ->)]; [right; split; [done|tauto]|by left].
      * eapply synced_iff; [by apply Hs1|done|by apply regs_quiet; cbn; intros; tauto|].
        apply opn_quiet; cbn [opens closes]; [|tauto]. intros i r rp (? & _). congruence.
Qed.

Lemma route_yield n k o c cl m rest : ninv n k -> N.of_nat k < two53 ->
  n_clients n !! c = Some cl -> cl_up cl = MYield m :: rest -> ninv (nstep n (NRoute o c)) (S k).
Proof.
  intros Hn Hk Hc Hu. rewrite (route_step _ _ _ _ _ _ Hc Hu). cbn [handle]. unfold call_dealer.
  assert (Hlen : N.of_nat (length (n_dh n)) <= two53).
  { pose proof (dp_len _ _ _ _ _ _ (nv_d _ _ Hn)). lia. }
  pose proof (dp_run _ _ _ _ _ _ (nv_d _ _ Hn)) as Hrun.
  destruct (dealer_call _ _ _ _ _ _ o (DReceive c (MYield m)) (nv_d _ _ Hn) Hk Logic.I)
    as (d' & out & s & s' & E & Hr & Hph & Ht & _ & _ & _). rewrite E.
  assert (HR : forall x g, regs ((DReceive c (MYield m), out) :: dtr n) x g <-> regs (dtr n) x g).
  { intros x. apply regs_quiet; cbn; intros; destruct out; tauto. }
  pose proof (nv_sync _ _ Hn) as Hsy.
  assert (Hpop : forall S R O cls, in_sync S R O cls -> (exists cl1, cls !! c = Some cl1 /\ cl_up cl1 = MYield m :: rest) ->
     in_sync S R O (taken c cls)).
  { intros S R O cls Hs (cl1 & Hc1 & Hu1) x cl' Hx. rewrite taken_lookup in Hx.
    destruct (decide (x = c)) as [->|Hne]; [|by apply Hs].
    rewrite Hc1 in Hx. cbn in Hx. injection Hx as <-. by eapply pop_plain; [apply Hs|..]. }
  destruct (yield_answer _ _ _ _ _ _ _ _ Hlen Hrun E)
    as [(Hno & (e & ->) & _)|(x0 & r0 & rp0 & Hop & [(Hna & e & ->)|(sd & Hpr & ->)])]; fold (dtr n) in *.
  - net_cbn. eapply (dealer_done n); try done; [apply dom_taken|].
    apply Hpop; [|by exists cl]. intros x cl' Hx. eapply synced_iff; [by apply Hsy|done|by apply HR|].
    apply opn_quiet; cbn; [tauto|]. intros i r rp Ho [<- _]. by eapply Hno.
  - net_cbn. eapply (dealer_done n); try done; [apply dom_taken|].
    apply Hpop; [|by exists cl]. intros x cl' Hx. eapply synced_iff; [by apply Hsy|done|by apply HR|].
    apply opn_quiet; cbn; [tauto|]. intros i r rp Ho [<- _].
    destruct (open_unique _ _ _ _ _ _ _ _ _ _ Hlen Hrun Hop Ho) as (-> & _).
    apply Hna, (dp_pres _ _ _ _ _ _ (nv_d _ _ Hn)). by rewrite Hx.
  - match goal with |- context [post ?x ?a ?t] => destruct (post_fields x a t) as (cls & -> & Hcls) end.
    net_cbn. cbn [n_clients] in Hcls. eapply (dealer_done n); try done; [apply (dom_post _ _ _ _ c Hcls)|].
    apply Hpop.
    2:{ rewrite Hcls, Hc. case_decide; eexists; (split; [done|]); done. }
    intros x cl' Hx. rewrite Hcls in Hx.
    assert (Hprog : flag (re_details (result_for m r0 (rp0 && says (yi_options m) "progress") sd)) "progress"
                    = rp0 && says (yi_options m) "progress").
    { unfold result_for. destruct (rp0 && _), (bp_binary _ && _); done. }
    assert (Hreq : re_request (result_for m r0 (rp0 && says (yi_options m) "progress") sd) = r0).
    { unfold result_for. by destruct (bp_binary _ && _). }
    case_decide as Hxx.
    + subst x. apply fmap_Some in Hx as (cl0 & Hx & ->). eapply synced_iff; [|done|by apply HR|done].
      destruct (rp0 && says (yi_options m) "progress") eqn:Ep.
      * eapply synced_iff; [|done|done|].
        -- eapply (post_progress _ _ _ _ (yi_request m) r0 rp0); [by apply Hsy|exact Hop|exact Hreq|exact Hprog].
        -- apply opn_quiet; cbn; [tauto|]. intros i r rp Ho [<- Hf].
           destruct (open_unique _ _ _ _ _ _ _ _ _ _ Hlen Hrun Hop Ho) as (_ & _ & <-). congruence.
      * eapply (post_last _ _ (opn (dtr n) x0) _ _ (yi_request m) r0 rp0); [by apply Hsy|exact Hop|left; by eexists| |].
        -- intros r' rp' Ho. by destruct (open_unique _ _ _ _ _ _ _ _ _ _ Hlen Hrun Hop Ho) as (_ & <- & _).
        -- intros i' r' rp'. unfold opn. cbn [open_inv opens closes]. split.
           ++ intros [[]|[Ho Hnc]]. split; [done|]. intros ->. apply Hnc. split; [done|].
              destruct (open_unique _ _ _ _ _ _ _ _ _ _ Hlen Hrun Hop Ho) as (_ & _ & <-). done.
           ++ intros [Ho Hi]. right. split; [done|]. intros [? _]. congruence.
    + eapply synced_iff; [by apply Hsy|done|by apply HR|]. apply opn_quiet; cbn; [tauto|]. intros i r rp Ho [<- _].
      destruct (open_unique _ _ _ _ _ _ _ _ _ _ Hlen Hrun Hop Ho) as (-> & _). done.
Qed.

Lemma route_error n k o c cl m rest : ninv n k -> N.of_nat k < two53 ->
  n_clients n !! c = Some cl -> cl_up cl = MError m :: rest -> ninv (nstep n (NRoute o c)) (S k).
Proof.
  intros Hn Hk Hc Hu. rewrite (route_step _ _ _ _ _ _ Hc Hu). cbn [handle]. unfold call_dealer.
  assert (Hlen : N.of_nat (length (n_dh n)) <= two53).
  { pose proof (dp_len _ _ _ _ _ _ (nv_d _ _ Hn)). lia. }
  pose proof (dp_run _ _ _ _ _ _ (nv_d _ _ Hn)) as Hrun.
  destruct (dealer_call _ _ _ _ _ _ o (DReceive c (MError m)) (nv_d _ _ Hn) Hk Logic.I)
    as (d' & out & s & s' & E & Hr & Hph & Ht & _ & _ & _). rewrite E.
  assert (HR : forall x g, regs ((DReceive c (MError m), out) :: dtr n) x g <-> regs (dtr n) x g).
  { intros x. apply regs_quiet; cbn; intros; destruct out; tauto. }
  pose proof (nv_sync _ _ Hn) as Hsy.
  assert (Hpop : forall S R O cls, in_sync S R O cls -> (exists cl1, cls !! c = Some cl1 /\ cl_up cl1 = MError m :: rest) ->
     in_sync S R O (taken c cls)).
  { intros S R O cls Hs (cl1 & Hc1 & Hu1) x cl' Hx. rewrite taken_lookup in Hx.
    destruct (decide (x = c)) as [->|Hne]; [|by apply Hs].
    rewrite Hc1 in Hx. cbn in Hx. injection Hx as <-. by eapply pop_plain; [apply Hs|..]. }
  destruct (error_answer _ _ _ _ _ _ _ _ Hlen Hrun E)
    as [(Hno & (e & ->) & _)|(x0 & r0 & rp0 & Hty & Hop & ->)]; fold (dtr n) in *.
  - net_cbn. eapply (dealer_done n); try done; [apply dom_taken|].
    apply Hpop; [|by exists cl]. intros x cl' Hx. eapply synced_iff; [by apply Hsy|done|by apply HR|].
    apply opn_quiet; cbn; [tauto|]. intros i r rp Ho [<- Hx']. destruct Hno as [Hno|Hno]; [done|by eapply Hno].
  - match goal with |- context [post ?x ?a ?t] => destruct (post_fields x a t) as (cls & -> & Hcls) end.
    net_cbn. cbn [n_clients] in Hcls. eapply (dealer_done n); try done; [apply (dom_post _ _ _ _ c Hcls)|].
    apply Hpop.
    2:{ rewrite Hcls, Hc. case_decide; eexists; (split; [done|]); done. }
    intros x cl' Hx. rewrite Hcls in Hx. case_decide as Hxx.
    + subst x. apply fmap_Some in Hx as (cl0 & Hx & ->). eapply synced_iff; [|done|by apply HR|done].
      eapply (post_last _ _ (opn (dtr n) x0) _ _ (er_request m) r0 rp0); [by apply Hsy|exact Hop|right; by eexists| |].
      * intros r' rp' Ho. by destruct (open_unique _ _ _ _ _ _ _ _ _ _ Hlen Hrun Hop Ho) as (_ & <- & _).
      * intros i' r' rp'. unfold opn. cbn [open_inv opens closes]. split.
        -- intros [[]|[Ho Hnc]]. split; [done|]. intros ->. by apply Hnc.
        -- intros [Ho Hi]. right. split; [done|]. intros [? _]. congruence.
    + eapply synced_iff; [by apply Hsy|done|by apply HR|]. apply opn_quiet; cbn; [tauto|]. intros i r rp Ho [<- _].
      destruct (open_unique _ _ _ _ _ _ _ _ _ _ Hlen Hrun Hop Ho) as (-> & _). done.
Qed.

(** Messages the router does not hand on. *)
Lemma route_other n k o c cl m rest : ninv n k -> handle o c m n = n ->
  call_ids [m] = [] -> reg_ids [m] = [] -> ack_ids [m] = [] ->
  n_clients n !! c = Some cl -> cl_up cl = m :: rest -> ninv (nstep n (NRoute o c)) (S k).
Proof.
  intros Hn Hh E1 E2 E3 Hc Hu. rewrite (route_step _ _ _ _ _ _ Hc Hu), Hh.
  pose proof (dom_taken (n_clients n) c) as Hdom. destruct Hn as [B D Hev Hsy Hrej Hcr]. constructor; net_cbn; try done.
  - by eapply bpart_dom.
  - by eapply dpart_dom.
  - intros x. rewrite Hdom. apply Hev.
  - intros x cl' Hx. rewrite taken_lookup in Hx.
    destruct (decide (x = c)) as [->|Hne]; [|by apply Hsy].
    rewrite Hc in Hx. cbn in Hx. injection Hx as <-. by eapply pop_plain; [apply Hsy|..].
Qed.

(** ** The other events *)

Lemma ninv_more n k : ninv n k -> ninv n (S k).
Proof.
  intros [B D Hev Hsy Hrej Hcr]. constructor; try done; [by eapply bpart_dom|by eapply dpart_dom].
Qed.

Definition uncalled (n : net) : Prop :=
  forall c cl m rest, n_clients n !! c = Some cl -> cl_up cl = MCall m :: rest -> called (dtr n) c (ca_request m) = false.
Lemma step_route n k o c : ninv n k -> N.of_nat k < two53 -> uncalled n -> rules n (NRoute o c) -> ninv (nstep n (NRoute o c)) (S k).
Proof.
  intros Hn Hk Hun Hrules. destruct (n_clients n !! c) as [cl|] eqn:Hc.
  2:{ cbn [nstep]. rewrite Hc. by apply ninv_more. }
  destruct (cl_up cl) as [|m rest] eqn:Hu.
  { cbn [nstep]. rewrite Hc. destruct cl; cbn in Hu; subst. by apply ninv_more. }
  specialize (Hrules cl m rest Hc Hu).
  destruct m;
    first [by eapply route_call; [done|done|by eapply Hun|..]|by eapply route_error|by eapply route_publish|by eapply route_register
          |by eapply route_subscribe|by eapply route_unregister|by eapply route_unsubscribe|by eapply route_yield
          |eapply route_other; [exact Hn| | | | |exact Hc|exact Hu]; reflexivity].
Qed.

Lemma step_join n k d : ninv n k -> N.of_nat k < two53 -> rules n (NJoin d) -> ninv (nstep n (NJoin d)) (S k).
Proof.
  intros Hn Hk Hrules. cbn in Hrules. cbn [nstep].
  destruct (broker_call _ _ _ _ _ any_oracle (BAdd d) (nv_b _ _ Hn) Hk)
    as (b' & bo & s & s' & E & Hr & Ht & I & T & I').
  destruct (dealer_call _ _ _ _ _ _ any_oracle (DAdd d) (nv_d _ _ Hn) Hk Logic.I)
    as (d' & do & t & t' & E2 & Hr2 & Hph2 & Ht2 & J & T2 & J').
  assert (Hno : n_clients n !! se_id d = None).
  { destruct (n_clients n !! se_id d) eqn:X; [|done]. exfalso. by apply Hrules, (nv_ever _ _ Hn); rewrite X. }
  assert (V : view (dtr n) t).
  { eapply drep_view; [|apply (dp_run _ _ _ _ _ _ (nv_d _ _ Hn))|done]. pose proof (dp_len _ _ _ _ _ _ (nv_d _ _ Hn)). lia. }
  assert (bo = BOk) as ->.
  { inversion T as [|d0 e He| | | | | | | | | | |]; subst; [done|].
    apply (ti_att _ _ I), (bp_att _ _ _ _ _ (nv_b _ _ Hn)) in He. rewrite Hno in He. by destruct He. }
  assert (do = DOk) as ->.
  { inversion T2 as [|d0 e He| | | | | | | | | | | | |]; subst; [done|].
    apply (vw_sess _ _ V), (dp_pres _ _ _ _ _ _ (nv_d _ _ Hn)) in He. rewrite Hno in He. by destruct He. }
  unfold call_broker, call_dealer, nset_ever, nset_clients. net_cbn. rewrite E. net_cbn. rewrite E2. net_cbn.
  destruct Hn as [B D Hev Hsy Hrej Hcr]. constructor; net_cbn; try done.
  - constructor; [done| | |]; rewrite ?Ht.
    + rewrite app_length. cbn. pose proof (bp_len _ _ _ _ _ B). lia.
    + intros c. cbn [attached]. rewrite (bp_att _ _ _ _ _ B).
      destruct (decide (c = se_id d)) as [->|Hne]; [rewrite lookup_insert|rewrite lookup_insert_ne by done].
      * split; [by eexists|by left].
      * split; [intros [?|?]; [congruence|done]|by right].
    + intros c x g. cbn [holds is_subscribed is_ended]. intros [[]|[H _]].
      apply (bp_hold _ _ _ _ _ B) in H. destruct (decide (c = se_id d)) as [->|Hne]; [by rewrite lookup_insert|by rewrite lookup_insert_ne].
  - constructor; [done| |done| | |]; rewrite ?Ht2.
    + rewrite app_length. cbn. pose proof (dp_len _ _ _ _ _ _ D). lia.
    + intros c. cbn [present]. rewrite (dp_pres _ _ _ _ _ _ D).
      destruct (decide (c = se_id d)) as [->|Hne]; [rewrite lookup_insert|rewrite lookup_insert_ne by done].
      * split; [by eexists|by left].
      * split; [intros [?|?]; [congruence|done]|by right].
    + intros c p g. cbn [owns is_registered is_unregistered]. intros [[pol []]|[H _]].
      apply (dp_own _ _ _ _ _ _ D) in H. destruct (decide (c = se_id d)) as [->|Hne]; [by rewrite lookup_insert|by rewrite lookup_insert_ne].
    + intros i c r rp. cbn [open_inv opens closes]. intros [[]|[H _]].
      apply (dp_open _ _ _ _ _ _ D) in H. by right.
  - intros c. destruct (decide (c = se_id d)) as [->|Hne]; [by left|rewrite lookup_insert_ne by done].
    intros H. right. by apply Hev.
  - unfold btr, dtr. net_cbn. rewrite Ht, Ht2.
    assert (HS : forall x g, subs ((BAdd d, BOk) :: trace_of (n_bh n) (n_bouts n)) x g <-> subs (btr n) x g).
    { intros x g. unfold subs, btr. cbn [holds is_subscribed is_ended]. split; intros [p H]; exists p; tauto. }
    assert (HR : forall x g, regs ((DAdd d, DOk) :: dtr n) x g <-> regs (dtr n) x g).
    { intros x. apply regs_quiet; cbn; tauto. }
    assert (HO : forall x i r rp, opn ((DAdd d, DOk) :: dtr n) x i r rp <-> opn (dtr n) x i r rp).
    { intros x. apply opn_quiet; cbn; tauto. }
    fold (dtr n). intros x cl Hx. destruct (decide (x = se_id d)) as [->|Hne].
    + rewrite lookup_insert in Hx. injection Hx as <-. eapply synced_iff; [apply synced_join|..].
      * intros g. rewrite HS. split; [|done]. intros [p H%(bp_hold _ _ _ _ _ B)]. rewrite Hno in H. by destruct H.
      * intros g. rewrite HR. split; [|done]. intros [p H%(dp_own _ _ _ _ _ _ D)]. rewrite Hno in H. by destruct H.
      * intros i r rp. rewrite HO. split; [|done]. intros H%(dp_open _ _ _ _ _ _ D). done.
    + rewrite lookup_insert_ne in Hx by done. eapply synced_iff; [by apply Hsy|by apply HS|by apply HR|by apply HO].
Qed.

Lemma step_leave n k o c : ninv n k -> N.of_nat k < two53 -> ninv (nstep n (NLeave o c)) (S k).
Proof.
  intros Hn Hk. cbn [nstep].
  destruct (broker_call _ _ _ _ _ o (BRemove c) (nv_b _ _ Hn) Hk)
    as (b' & bo & s & s' & E & Hr & Ht & I & T & I').
  destruct (dealer_call _ _ _ _ _ _ o (DRemove c) (nv_d _ _ Hn) Hk Logic.I)
    as (d' & do & t & t' & E2 & Hr2 & Hph2 & Ht2 & J & T2 & J').
  assert (V : view (dtr n) t).
  { eapply drep_view; [|apply (dp_run _ _ _ _ _ _ (nv_d _ _ Hn))|done]. pose proof (dp_len _ _ _ _ _ _ (nv_d _ _ Hn)). lia. }
  assert (Hbo : bo = BOk \/ (exists e, bo = BErr e) /\ n_clients n !! c = None).
  { inversion T as [| | |sid e He| | | | | | | | |]; subst; [by left|]. right. split; [by eexists|].
    destruct (n_clients n !! c) eqn:X; [|done]. exfalso.
    assert (is_Some (tb_sessions s' !! c)) as H; [|rewrite He in H; by destruct H].
    apply (ti_att _ _ I), (bp_att _ _ _ _ _ (nv_b _ _ Hn)). by rewrite X. }
  assert (Hdo : do = DOk \/ (exists e, do = DErr e) /\ n_clients n !! c = None).
  { inversion T2 as [| | |sid e He| | | | | | | | | | |]; subst; [by left|]. right. split; [by eexists|].
    destruct (n_clients n !! c) eqn:X; [|done]. exfalso.
    assert (is_Some (pt_sessions t' !! c)) as H; [|rewrite He in H; by destruct H].
    apply (vw_sess _ _ V), (dp_pres _ _ _ _ _ _ (nv_d _ _ Hn)). by rewrite X. }
  unfold call_broker, call_dealer, nset_ever, nset_clients. net_cbn. rewrite E. net_cbn. rewrite E2. net_cbn.
  destruct Hn as [B D Hev Hsy Hrej Hcr]. 
  assert (Hdel : forall x, is_Some (delete c (n_clients n) !! x) <-> x <> c /\ is_Some (n_clients n !! x)).
  { intros x. destruct (decide (x = c)) as [->|Hne].
    - rewrite lookup_delete. split; [by intros []|by intros [? _]].
    - rewrite lookup_delete_ne by done. tauto. }
  constructor; net_cbn; try done.
  - constructor; [done| | |]; rewrite ?Ht.
    + rewrite app_length. cbn. pose proof (bp_len _ _ _ _ _ B). lia.
    + intros x. rewrite Hdel, <- (bp_att _ _ _ _ _ B). destruct Hbo as [->|[[e ->] X]]; cbn [attached].
      * split; intros [H1 H2]; split; auto.
      * split; [|tauto]. intros H. split; [|done]. intros ->. apply (bp_att _ _ _ _ _ B) in H. rewrite X in H. by destruct H.
    + intros x p g. rewrite Hdel. destruct Hbo as [->|[[e ->] X]]; cbn [holds is_subscribed is_ended].
      * intros [[]|[H Hc]]. split; [intros ->; by apply Hc|]. by eapply (bp_hold _ _ _ _ _ B).
      * intros [[]|[H _]]. apply (bp_hold _ _ _ _ _ B) in H. split; [|done]. intros ->. rewrite X in H. by destruct H.
  - constructor; [done| |done| | |]; rewrite ?Ht2.
    + rewrite app_length. cbn. pose proof (dp_len _ _ _ _ _ _ D). lia.
    + intros x. rewrite Hdel, <- (dp_pres _ _ _ _ _ _ D). destruct Hdo as [->|[[e ->] X]]; cbn [present].
      * split; intros [H1 H2]; split; auto.
      * split; [|tauto]. intros H. split; [|done]. intros ->. apply (dp_pres _ _ _ _ _ _ D) in H. rewrite X in H. by destruct H.
    + intros x p g. rewrite Hdel. destruct Hdo as [->|[[e ->] X]]; cbn [owns is_registered is_unregistered].
      * intros [[pol []]|[H Hc]]. split; [intros ->; by apply Hc|]. by eapply (dp_own _ _ _ _ _ _ D).
      * intros [[pol []]|[H _]]. apply (dp_own _ _ _ _ _ _ D) in H. split; [|done]. intros ->. rewrite X in H. by destruct H.
    + intros i x r rp. cbn [open_inv opens closes]. intros [[]|[H _]]. by apply (dp_open _ _ _ _ _ _ D) in H.
  - intros x [_ H]%Hdel. by apply Hev.
  - unfold btr, dtr. net_cbn. rewrite Ht, Ht2. fold (dtr n). fold (btr n).
    intros x cl Hx. destruct (decide (x = c)) as [->|Hne]; [by rewrite lookup_delete in Hx|].
    rewrite lookup_delete_ne in Hx by done. eapply synced_iff; [by apply Hsy|..].
    + intros g. unfold subs. cbn [holds is_subscribed]. destruct Hbo as [->|[[e ->] X]]; cbn [is_ended].
      * split; intros [p H]; exists p; [tauto|right; split; [done|]; congruence].
      * split; intros [p H]; exists p; tauto.
    + apply regs_quiet; cbn [is_registered is_unregistered]; [tauto|]. intros g.
      destruct Hdo as [->|[[e ->] X]]; [congruence|tauto].
    + apply opn_quiet; cbn; tauto.
Qed.

Lemma step_disclose n k p c : ninv n k -> N.of_nat k < two53 -> ninv (nstep n (NDisclose p c)) (S k).
Proof.
  intros Hn Hk. cbn [nstep].
  destruct (broker_call _ _ _ _ _ any_oracle (BDisclose p) (nv_b _ _ Hn) Hk)
    as (b' & bo & s & s' & E & Hr & Ht & I & T & I').
  destruct (dealer_call _ _ _ _ _ _ any_oracle (DDisclose c) (nv_d _ _ Hn) Hk Logic.I)
    as (d' & do & t & t' & E2 & Hr2 & Hph2 & Ht2 & J & T2 & J').
  unfold call_broker, call_dealer. rewrite E. net_cbn. rewrite E2. net_cbn.
  destruct Hn as [B D Hev Hsy Hrej Hcr]. constructor; net_cbn; try done.
  - eapply bpart_quiet; try done.
  - eapply dpart_quiet; try done.
  - unfold btr, dtr. net_cbn. rewrite Ht, Ht2. fold (dtr n). fold (btr n).
    intros x cl Hx. eapply synced_iff; [by apply Hsy|..].
    + intros g. unfold subs. cbn [holds is_subscribed is_ended]. split; intros [q H]; exists q; tauto.
    + apply regs_quiet; cbn; tauto.
    + apply opn_quiet; cbn; tauto.
Qed.

Lemma step_clients n k cls : ninv n k -> (forall c, is_Some (cls !! c) <-> is_Some (n_clients n !! c)) ->
  in_sync (subs (btr n)) (regs (dtr n)) (opn (dtr n)) cls -> ninv (nset_clients cls n) (S k).
Proof.
  intros [B D Hev Hsy Hrej Hcr] Hdom Hs. constructor; net_cbn; try done.
  - by eapply bpart_dom.
  - by eapply dpart_dom.
  - intros x. rewrite Hdom. apply Hev.
Qed.
Lemma insert_dom (cls : gmap N client) c cl cl' : cls !! c = Some cl ->
  forall x, is_Some (<[c := cl']> cls !! x) <-> is_Some (cls !! x).
Proof.
  intros Hc x. destruct (decide (x = c)) as [->|Hne]; [rewrite lookup_insert, Hc; split; by eexists|].
  by rewrite lookup_insert_ne.
Qed.
Lemma insert_sync S R O cls c cl' : in_sync S R O cls -> synced (S c) (R c) (O c) cl' -> in_sync S R O (<[c := cl']> cls).
Proof.
  intros Hs Hc x cl. destruct (decide (x = c)) as [->|Hne].
  - rewrite lookup_insert. by intros [= <-].
  - rewrite lookup_insert_ne by done. apply Hs.
Qed.

Lemma step_send n k c m : ninv n k -> rules n (NSend c m) -> ninv (nstep n (NSend c m)) (S k).
Proof.
  intros Hn Hrules. cbn [nstep]. destruct (n_clients n !! c) as [cl|] eqn:Hc; [|by apply ninv_more].
  pose proof (Hrules cl Hc) as Hf. pose proof (nv_sync _ _ Hn _ _ Hc) as Hs.
  destruct (sstep (cl_session cl) (SSend (Ok "") m)) as [s' [x|e|e]] eqn:E.
  - eapply step_clients; [done|by eapply insert_dom|]. apply insert_sync; [apply Hn|]. by eapply synced_send.
  - rewrite (synced_send_err _ _ _ _ _ _ _ _ Hs E).
    eapply step_clients; [done|by eapply insert_dom|]. apply insert_sync; [apply Hn|]. by destruct cl.
  - exfalso. by destruct (send_noted _ _ _ _ _ E) as [(? & ? & _)|[_ [? ?]]].
Qed.

Lemma step_deliver n k c : ninv n k -> ninv (nstep n (NDeliver c)) (S k).
Proof.
  intros Hn. cbn [nstep]. destruct (n_clients n !! c) as [[s up down used]|] eqn:Hc; [|by apply ninv_more].
  destruct down as [|m down]; [by apply ninv_more|].
  destruct (synced_deliver _ _ _ _ _ _ _ _ (nv_sync _ _ Hn _ _ Hc)) as (s' & x & E & Hs). rewrite E.
  eapply step_clients; [done|by eapply insert_dom|]. apply insert_sync; [apply Hn|done].
Qed.

Lemma ninv_step n k e : ninv n k -> N.of_nat k < two53 -> uncalled n -> rules n e -> ninv (nstep n e) (S k).
Proof.
  intros Hn Hk Hun Hr. destruct e.
  - by apply step_join.
  - by apply step_leave.
  - by apply step_send.
  - by apply step_route.
  - by apply step_deliver.
  - by apply step_disclose.
Qed.

Lemma ninv_empty : ninv empty_net 0.
Proof.
  constructor; cbn; try done.
  - constructor; cbn; try done. intros c. rewrite lookup_empty. split; [done|by intros []].
  - constructor; cbn; try done.
    + intros h1 o op h2 d outs Hh. by destruct h1.
    + intros c. rewrite lookup_empty. split; [done|by intros []].
  - intros c. rewrite lookup_empty. by intros [].
Qed.
