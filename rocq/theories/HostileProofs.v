(** Clients that follow the rules stay in step with the router, whatever other
    clients make the router read. *)
From Verif Require Import Prelude Value Msg IdGen Types PathMatch Mutex Broker Dealer Session Network.
From Verif Require Import BrokerSpec BrokerFacts BrokerSim BrokerTrace BrokerProofs.
From Verif Require Import DealerSpec DealerFacts DealerCases DealerCalls DealerRegs DealerSim DealerStep DealerProofs DealerPolite DealerShare.
From Verif Require Import NetworkSpec NetworkClient NetworkSync NetworkProofs NetworkCalls NetworkLocal.
From Verif Require Import Hostile HostileDealer.

Section Hostile.
Context (honest : N -> Prop).

Definition hsync (S R : N -> N -> Prop) (O : N -> N -> N -> bool -> Prop) (cls : gmap N client) : Prop :=
  forall c cl, honest c -> cls !! c = Some cl -> synced (S c) (R c) (O c) cl.

Record hdpart (cls : gmap N client) (ever : list N) (d : dealer) (h : dhist) (outs : list dout) (k : nat) : Prop := HDPart {
  hd_run : drun new_dealer h = Ret d outs;
  hd_len : (length h <= k)%nat;
  hd_pres : forall c, present (dtrace_of h outs) c <-> is_Some (cls !! c);
  hd_own : forall c p g, owns (dtrace_of h outs) c p g -> is_Some (cls !! c);
  hd_open : forall i c r rp, open_inv (dtrace_of h outs) i c r rp -> c ∈ ever;
  hd_added : forall c, added (dtrace_of h outs) c -> c ∈ ever;
  hd_v : vinv honest (dtrace_of h outs) d }.

(** What holds of the honest clients' queues towards the router. *)
Record hlocal (cls : gmap N client) (tr : dtrace) : Prop := HLocal {
  hl_reg : forall c cl m, honest c -> cls !! c = Some cl -> MRegister m ∈ cl_up cl -> unshared (invoke_policy m);
  hl_unreg : forall c cl u, honest c -> cls !! c = Some cl -> MUnregister u ∈ cl_up cl -> regs tr c (ur_registration u);
  hl_once : forall c cl, honest c -> cls !! c = Some cl -> NoDup (unreg_ids (cl_up cl));
  hl_call : forall c cl r, honest c -> cls !! c = Some cl -> called tr c r = true ->
      r ∈ cl_used cl /\ r ∉ call_ids (cl_up cl) }.

Record hninv (n : net) (k : nat) : Prop := HNInv {
  hv_b : bpart (n_clients n) (n_broker n) (n_bh n) (n_bouts n) k;
  hv_d : hdpart (n_clients n) (n_ever n) (n_dealer n) (n_dh n) (n_douts n) k;
  hv_ever : forall c, is_Some (n_clients n !! c) -> c ∈ n_ever n;
  hv_called : forall c r, called (dtr n) c r = true -> c ∈ n_ever n;
  hv_sync : hsync (subs (btr n)) (regs (dtr n)) (opn (dtr n)) (n_clients n);
  hv_local : hlocal (n_clients n) (dtr n);
  hv_rejected : forall c a, (c, a) ∈ n_rejected n -> ~ honest c }.

(** ** One call on the dealer *)

Lemma hdealer_call cls ever d h outs k o op d' out : hdpart cls ever d h outs k -> N.of_nat k < two53 ->
  upright honest (dtrace_of h outs) op -> dstep o d op = Ret d' out ->
  drun new_dealer (h ++ [(o, op)]) = Ret d' (outs ++ [out])
  /\ dtrace_of (h ++ [(o, op)]) (outs ++ [out]) = (op, out) :: dtrace_of h outs
  /\ vinv honest ((op, out) :: dtrace_of h outs) d'.
Proof.
  intros D Hk Hup E. pose proof (hd_len _ _ _ _ _ _ D) as Hl. pose proof (hd_run _ _ _ _ _ _ D) as Hr.
  destruct (run_cinv h d outs ltac:(lia) Hr) as [C Hlen].
  split; [by eapply drun_snoc|]. split; [apply dtrace_snoc; by eapply drun_length|].
  eapply vinv_step; [apply D|done|by apply run_ginv|apply run_uinv; [lia|done]| |done|exact E].
  rewrite (ci_ids _ _ C). pose proof (ci_len _ _ C). lia.
Qed.

Lemma hdpart_quiet cls cls' ever d h outs k o op d' out : hdpart cls ever d h outs k ->
  drun new_dealer (h ++ [(o, op)]) = Ret d' (outs ++ [out]) ->
  dtrace_of (h ++ [(o, op)]) (outs ++ [out]) = (op, out) :: dtrace_of h outs ->
  vinv honest ((op, out) :: dtrace_of h outs) d' ->
  (forall c, is_Some (cls' !! c) <-> is_Some (cls !! c)) ->
  match op with DAdd _ | DRemove _ => False | _ => True end ->
  (forall c p pol g, is_registered (op, out) c p pol g -> is_Some (cls !! c)) ->
  (forall i c r rp, opens (op, out) (dtrace_of h outs) i c r rp -> c ∈ ever) ->
  hdpart cls' ever d' (h ++ [(o, op)]) (outs ++ [out]) (S k).
Proof.
  intros B Hr Ht Hv Hc Hop Hs Ho. constructor; [done| | | | | |]; rewrite ?Ht; [..|done].
  - rewrite app_length. cbn. pose proof (hd_len _ _ _ _ _ _ B). lia.
  - intros c. rewrite Hc, <- (hd_pres _ _ _ _ _ _ B). destruct op; done.
  - intros c p g. cbn [owns]. rewrite Hc. intros [[pol H]|[H _]]; [by eapply Hs|]. by eapply (hd_own _ _ _ _ _ _ B).
  - intros i c r rp. cbn [open_inv]. intros [H|[H _]]; [by eapply Ho|]. by eapply (hd_open _ _ _ _ _ _ B).
  - intros c (s & x & H & E). apply elem_of_cons in H as [H|H]; [|by apply (hd_added _ _ _ _ _ _ B); eexists _, _].
    injection H as <- <-. done.
Qed.
Lemma hdpart_dom cls cls' ever d h outs k : hdpart cls ever d h outs k ->
  (forall c, is_Some (cls' !! c) <-> is_Some (cls !! c)) -> hdpart cls' ever d h outs (S k).
Proof.
  intros B Hc. destruct B. constructor; try done; [lia|..].
  - intros c. by rewrite Hc.
  - intros c t g H. rewrite Hc. by eapply hd_own0.
Qed.

(** ** The queues towards the router *)

(** What reading message [m] of [c] does to them. *)
Lemma handle_ups n o c m : same_ups (n_clients n) (n_clients (handle o c m n))
  /\ (dtr (handle o c m n) = dtr n \/ exists out, dtr (handle o c m n) = (DReceive c m, out) :: dtr n)
  \/ length (n_dh n) <> length (n_douts n).
Proof.
  destruct (decide (length (n_dh n) = length (n_douts n))) as [Hl|]; [|by right]. left.
  assert (Hdealer :
    let n' := match call_dealer o (DReceive c m) n with (n, Some (DMsg a to)) => post n a to | (n, _) => n end in
    same_ups (n_clients n) (n_clients n') /\ (dtr n' = dtr n \/ exists out, dtr n' = (DReceive c m, out) :: dtr n)).
  { cbv zeta. unfold call_dealer. destruct (dstep _ _ _) as [d' out|w]; [|split; [apply same_ups_refl|by left]].
    set (n1 := Net _ _ _ _ _ _ _ _ _ _).
    assert (H1 : dtr n1 = (DReceive c m, out) :: dtr n) by (unfold dtr; subst n1; cbn; by apply dtrace_snoc).
    assert (H2 : same_ups (n_clients n) (n_clients n1)) by apply same_ups_refl.
    destruct out as [e| |b|a to]; try (split; [exact H2|right; by eexists]).
    destruct (post_ups n1 a to) as [H3 H4]. split; [exact (same_ups_trans _ _ _ H2 H3)|]. right. eexists. by rewrite H4, H1. }
  assert (Hbroker : forall op n' bo, call_broker o op n = (n', bo) -> same_ups (n_clients n) (n_clients n') /\ dtr n' = dtr n).
  { intros op n' bo. unfold call_broker. destruct (bstep _ _ _); intros [= <- <-]; (split; [apply same_ups_refl|done]). }
  destruct m; cbn [handle]; try exact Hdealer; try (split; [apply same_ups_refl|by left]).
  - destruct (call_broker _ _ _) as [n1 bo] eqn:E. destruct (Hbroker _ _ _ E) as [H1 H2].
    destruct bo as [bo|]; [destruct bo as [ | | | |ev rs ack]|]; try (split; [done|by left]).
    set (n2 := match ev with Some e => post_all n1 (MEvent e) rs | None => n1 end).
    assert (same_ups (n_clients n) (n_clients n2) /\ dtr n2 = dtr n) as [H3 H4].
    { subst n2. destruct ev as [e|]; [|done]. destruct (post_all_ups (MEvent e) rs n1) as [? ?].
      split; [by eapply same_ups_trans|congruence]. }
    destruct ack as [[a to]|]; [|split; [done|by left]].
    destruct (post_ups n2 a to) as [? ?]. split; [by eapply same_ups_trans|left; congruence].
  - destruct (call_broker _ _ _) as [n1 bo] eqn:E. destruct (Hbroker _ _ _ E) as [H1 H2].
    destruct bo as [bo|]; [destruct bo as [| | |a to| ]|]; try (split; [done|by left]).
    destruct (post_ups n1 a to) as [? ?]. split; [by eapply same_ups_trans|left; congruence].
  - destruct (call_broker _ _ _) as [n1 bo] eqn:E. destruct (Hbroker _ _ _ E) as [H1 H2].
    destruct bo as [bo|]; [destruct bo as [| | |a to| ]|]; try (split; [done|by left]).
    destruct (post_ups n1 a to) as [? ?]. split; [by eapply same_ups_trans|left; congruence].
Qed.

Definition routed (o : oracle) (c : N) (m : message) (n : net) : net :=
  nset_clients (taken c (n_clients (handle o c m n))) (handle o c m n).

(** [m] is the next message of [c], if [c] is honest. *)
Definition next_of (n : net) (c : N) (m : message) : Prop :=
  exists cl, n_clients n !! c = Some cl /\ (honest c -> exists rest, cl_up cl = m :: rest).

Lemma called_quiet c m out tr x r : called ((DReceive c m, out) :: tr) x r = true ->
  called tr x r = true \/ x = c /\ exists y, m = MCall y /\ r = ca_request y.
Proof.
  destruct m; cbn [called]; try (by left).
  destruct out as [e| |b|a to]; [|by left|by left|destruct a; try (by left)];
    (intros [H|H]%orb_true_iff; [right|by left]; apply andb_true_iff in H as [H1%N.eqb_eq H2%N.eqb_eq]; eauto).
Qed.

Lemma local_routed n k o c m : hninv n k -> next_of n c m ->
  hlocal (n_clients (routed o c m n)) (dtr (routed o c m n))
  /\ (forall x r, called (dtr (routed o c m n)) x r = true -> x ∈ n_ever n).
Proof.
  intros Hn (clc & Hc & Hnext). pose proof (hv_local _ _ Hn) as L.
  assert (Hl : length (n_dh n) = length (n_douts n)) by (eapply eq_sym, drun_length, (hv_d _ _ Hn)).
  destruct (handle_ups n o c m) as [[Hup Htr]|]; [|done].
  unfold routed. set (n1 := handle o c m n) in *. change (dtr (nset_clients _ n1)) with (dtr n1).
  cbn [n_clients nset_clients].
  assert (Hpop : forall y cl', honest y -> taken c (n_clients n1) !! y = Some cl' ->
      exists cl, n_clients n !! y = Some cl /\ cl_used cl' = cl_used cl
                 /\ cl_up cl = (if decide (y = c) then [m] else []) ++ cl_up cl').
  { intros y cl' Hy. rewrite taken_lookup. destruct (decide (y = c)) as [->|Hne].
    - intros H. apply fmap_Some in H as (cl1 & E1 & ->). destruct (Hup _ _ E1) as (cl2 & E2 & E3 & E4).
      exists cl2. split; [done|]. split; [done|]. rewrite E2 in Hc. injection Hc as <-. destruct (Hnext Hy) as [rest Hr].
      cbn. by rewrite E3, Hr.
    - intros H. destruct (Hup _ _ H) as (cl2 & E2 & E3 & E4). exists cl2. by rewrite E3. }
  assert (Hcl : forall x r, called (dtr n1) x r = true ->
      called (dtr n) x r = true \/ x = c /\ exists y, m = MCall y /\ r = ca_request y).
  { intros x r. destruct Htr as [->|(out & ->)]; [by left|apply called_quiet]. }
  split.
  2:{ intros x r H. destruct (Hcl _ _ H) as [H1|[-> _]]; [by eapply (hv_called _ _ Hn)|]. apply (hv_ever _ _ Hn). by rewrite Hc. }
  constructor.
  - intros y cl' r Hy Hx Hr. destruct (Hpop _ _ Hy Hx) as (cl & H0 & _ & Eu). eapply (hl_reg _ _ L); [exact Hy|exact H0|].
    rewrite Eu. apply elem_of_app. by right.
  - intros y cl' u Hy Hx Hu. destruct (Hpop _ _ Hy Hx) as (cl & H0 & _ & Eu).
    assert (Hold : regs (dtr n) y (ur_registration u)).
    { eapply (hl_unreg _ _ L); [exact Hy|exact H0|]. rewrite Eu. apply elem_of_app. by right. }
    destruct Htr as [->|(out & ->)]; [done|].
    destruct Hold as [p Hp]. exists p. cbn [owns]. right. split; [done|].
    destruct m; try (cbn [is_unregistered]; destruct out; tauto). cbn [is_unregistered]. destruct out as [| | |a to]; try tauto. destruct a; try tauto.
    intros [-> E]. pose proof (hl_once _ _ L _ _ Hy H0) as Hnd. rewrite Eu, decide_True in Hnd by done.
    unfold unreg_ids in Hnd. cbn [app omap list_omap] in Hnd. apply NoDup_cons in Hnd as [Hnd _]. apply Hnd.
    apply elem_of_list_omap. exists (MUnregister u). split; [done|]. by rewrite E.
  - intros y cl' Hy Hx. destruct (Hpop _ _ Hy Hx) as (cl & H0 & _ & Eu). pose proof (hl_once _ _ L _ _ Hy H0) as Hnd.
    rewrite Eu in Hnd. unfold unreg_ids in *. rewrite omap_app in Hnd. by apply NoDup_app in Hnd as (_ & _ & ?).
  - intros y cl' r Hy Hx H. destruct (Hpop _ _ Hy Hx) as (cl & H0 & -> & Eu).
    destruct (Hcl _ _ H) as [H1|[-> (z & -> & ->)]].
    + destruct (hl_call _ _ L _ _ _ Hy H0 H1) as [H2 H3]. split; [done|]. intros H4. apply H3. rewrite Eu.
      unfold call_ids in *. rewrite omap_app, elem_of_app. by right.
    + rewrite decide_True in Eu by done. cbn in Eu. destruct (hv_sync _ _ Hn _ _ Hy H0) as [s1 I1]. split.
      * apply (is_used_up _ _ _ _ _ I1). rewrite Eu. by left.
      * pose proof (is_nodup _ _ _ _ _ I1) as Hnd. rewrite Eu in Hnd. cbn in Hnd. apply NoDup_cons in Hnd as [Hnd _].
        intros H1. by apply Hnd, call_request.
Qed.

(** ** Messages for the broker *)

Lemma subs_quiet e tr c : (forall t g, ~ is_subscribed e c t g) -> (forall g, ~ is_ended e c g) ->
  forall g, subs (e :: tr) c g <-> subs tr c g.
Proof.
  intros H1 H2 g. unfold subs. cbn [holds]. split.
  - intros (t & [H|[H _]]); [by apply H1 in H|by exists t].
  - intros [t H]. exists t. right. split; [done|apply H2].
Qed.

Lemma broker_done n k o op b' out cls : hninv n k ->
  brun new_broker (n_bh n ++ [(o, op)]) = Ret b' (n_bouts n ++ [out]) ->
  trace_of (n_bh n ++ [(o, op)]) (n_bouts n ++ [out]) = (op, out) :: btr n ->
  (forall c, is_Some (cls !! c) <-> is_Some (n_clients n !! c)) ->
  match op with BAdd _ | BRemove _ => False | _ => True end ->
  (forall c t g, is_subscribed (op, out) c t g -> is_Some (n_clients n !! c)) ->
  hsync (subs ((op, out) :: btr n)) (regs (dtr n)) (opn (dtr n)) cls -> hlocal cls (dtr n) ->
  hninv (Net cls b' (n_dealer n) (n_rejected n) (n_crashed n) (n_ever n)
           (n_bh n ++ [(o, op)]) (n_bouts n ++ [out]) (n_dh n) (n_douts n)) (S k).
Proof.
  intros [B D Hev Hca Hsy Hlo Hrej] Hr Ht Hdom Hop Hs Hsync Hloc. constructor; net_cbn; try done.
  - by eapply bpart_quiet.
  - by eapply hdpart_dom.
  - intros x. rewrite Hdom. apply Hev.
  - unfold btr, dtr. net_cbn. rewrite Ht. exact Hsync.
Qed.

Lemma hroute_subscribe n k o c m : hninv n k -> N.of_nat k < two53 -> next_of n c (MSubscribe m) ->
  hninv (routed o c (MSubscribe m) n) (S k).
Proof.
  intros Hn Hk Hnext. destruct (local_routed n k o c _ Hn Hnext) as [Hloc _]. destruct Hnext as (cl & Hc & Hnext).
  revert Hloc. unfold routed. cbn [handle]. unfold call_broker.
  destruct (broker_call _ _ _ _ _ o (BReceive c (MSubscribe m)) (hv_b _ _ Hn) Hk)
    as (b' & out & s & s' & E & Hr & Ht & I & T & I'). rewrite E.
  assert (Ha : is_Some (tb_sessions s !! c)).
  { apply (ti_att _ _ I), (bp_att _ _ _ _ _ (hv_b _ _ Hn)). by rewrite Hc. }
  assert (exists g, out = BMsg (MSubscribed (Subscribed (su_request m) g)) c) as [g ->].
  { inversion T as [| | | | | |sid m0 r Hs Hrow|sid m0 Hs Hrow| |sid m0 e He| | |]; subst.
    - by eexists.
    - by eexists.
    - rewrite He in Ha. by destruct Ha. }
  match goal with |- context [post ?x ?a ?t] => destruct (post_fields x a t) as (cls & -> & Hcls) end.
  net_cbn. cbn [n_clients] in Hcls. intros Hloc. eapply (broker_done n); try done.
  - apply (dom_post _ _ _ _ c Hcls).
  - intros c' t g' (<- & _). by rewrite Hc.
  - intros x cl' Hh Hx. rewrite taken_lookup, Hcls in Hx. pose proof (hv_sync _ _ Hn) as Hsy.
    destruct (decide (x = c)) as [->|Hne].
    + rewrite Hc in Hx. cbn in Hx. injection Hx as <-. destruct (Hnext Hh) as [rest Hu].
      eapply pop_subscribed; [by apply Hsy|done|]. intros g'. unfold subs. cbn [holds is_subscribed is_ended sd_subscription]. split.
      * intros (t & [(_ & _ & -> & _)|[H _]]); [by right|left; by exists t].
      * intros [[t H]| ->]; [exists t; right; split; [done|tauto]|]. exists (su_topic m). by left.
    + eapply synced_iff; [by apply Hsy| |done|done]. apply subs_quiet; cbn [is_subscribed is_ended]; [|tauto].
      intros t g' (? & _). congruence.
Qed.

Lemma hroute_unsubscribe n k o c m : hninv n k -> N.of_nat k < two53 -> next_of n c (MUnsubscribe m) ->
  hninv (routed o c (MUnsubscribe m) n) (S k).
Proof.
  intros Hn Hk Hnext. destruct (local_routed n k o c _ Hn Hnext) as [Hloc _]. destruct Hnext as (cl & Hc & Hnext).
  revert Hloc. unfold routed. cbn [handle]. unfold call_broker.
  destruct (broker_call _ _ _ _ _ o (BReceive c (MUnsubscribe m)) (hv_b _ _ Hn) Hk)
    as (b' & out & s & s' & E & Hr & Ht & I & T & I'). rewrite E.
  assert ((out = BMsg (MUnsubscribed (Unsubscribed (us_request m))) c /\ subs (btr n) c (us_subscription m))
          \/ exists e, out = BErr e) as [[-> Hg]|[e ->]].
  { inversion T as [| | | | | | | |sid m0 t r Hs Hrow Hi Hin|sid m0 e He| | |]; subst.
    - left. split; [done|]. exists t. apply (ti_hold _ _ I). by exists r.
    - right. by eexists. }
  - match goal with |- context [post ?x ?a ?t] => destruct (post_fields x a t) as (cls & -> & Hcls) end.
    net_cbn. cbn [n_clients] in Hcls. intros Hloc. eapply (broker_done n); try done.
    + apply (dom_post _ _ _ _ c Hcls).
    + intros x cl' Hh Hx. rewrite taken_lookup, Hcls in Hx. pose proof (hv_sync _ _ Hn) as Hsy.
      destruct (decide (x = c)) as [->|Hne].
      * rewrite Hc in Hx. cbn in Hx. injection Hx as <-. destruct (Hnext Hh) as [rest Hu].
        eapply pop_unsubscribed; [by apply Hsy|done|done|]. intros g'. unfold subs. cbn [holds is_subscribed is_ended]. split.
        -- intros (t & [[]|[H Hg']]). split; [by exists t|]. intros ->. by apply Hg'.
        -- intros [[t H] Hg']. exists t. right. split; [done|]. intros [_ ?]. congruence.
      * eapply synced_iff; [by apply Hsy| |done|done]. apply subs_quiet; cbn [is_subscribed is_ended]; [tauto|].
        intros g' (? & _). congruence.
  - net_cbn. intros Hloc. eapply (broker_done n); try done; [apply dom_taken|].
    intros x cl' Hh Hx. rewrite taken_lookup in Hx. pose proof (hv_sync _ _ Hn) as Hsy.
    eapply synced_iff; [|by apply subs_quiet; cbn; intros; tauto|done|done].
    destruct (decide (x = c)) as [->|Hne]; [|by apply Hsy].
    rewrite Hc in Hx. cbn in Hx. injection Hx as <-. destruct (Hnext Hh) as [rest Hu].
    by eapply pop_plain; [apply Hsy|..].
Qed.

Lemma hroute_publish n k o c m : hninv n k -> N.of_nat k < two53 -> next_of n c (MPublish m) ->
  hninv (routed o c (MPublish m) n) (S k).
Proof.
  intros Hn Hk Hnext. destruct (local_routed n k o c _ Hn Hnext) as [Hloc _]. destruct Hnext as (cl & Hc & Hnext).
  revert Hloc. unfold routed. cbn [handle]. unfold call_broker.
  destruct (broker_call _ _ _ _ _ o (BPublish c m) (hv_b _ _ Hn) Hk)
    as (b' & out & s & s' & E & Hr & Ht & I & T & I'). rewrite E.
  assert (Ha : is_Some (tb_sessions s !! c)).
  { apply (ti_att _ _ I), (bp_att _ _ _ _ _ (hv_b _ _ Hn)). by rewrite Hc. }
  assert (exists ev rs pid, out = BPubl ev rs (ack_of m c pid)
    /\ match ev with
       | Some e => NoDup rs /\ forall x, x ∈ rs -> subs (btr n) x (ev_subscription e)
       | None => True end) as (ev & rs & pid & -> & Hev).
  { inversion T as [| | | | | | | | | |sid p e He|sid p He Hno|sid p pub t r rs Hp Hsv Hnd Hrs]; subst.
    - rewrite He in Ha. by destruct Ha.
    - eexists None, [], _. done.
    - eexists (Some _), rs, _. split; [done|]. split; [done|]. intros x Hx. exists t. apply (ti_hold _ _ I). exists r.
      split; [|split; [done|by apply Hrs]]. by destruct Hsv as [|? ? ? []|? ? ? ? []]. }
  assert (HS : forall x g', subs ((BPublish c m, BPubl ev rs (ack_of m c pid)) :: btr n) x g' <-> subs (btr n) x g').
  { intros x. apply subs_quiet; cbn; intros; tauto. }
  set (n1 := Net _ _ _ _ _ _ _ _ _ _).
  (* the event *)
  assert (exists cls1, match ev with Some e => post_all n1 (MEvent e) rs | None => n1 end = nset_clients cls1 n1
    /\ (forall x, is_Some (cls1 !! x) <-> is_Some (n_clients n !! x))
    /\ hsync (subs (btr n)) (regs (dtr n)) (opn (dtr n)) cls1
    /\ exists cl1, cls1 !! c = Some cl1 /\ cl_up cl1 = cl_up cl) as (cls1 & -> & Hd1 & Hs1 & cl1 & Hc1 & Hu1).
  { destruct ev as [e|].
    - destruct Hev as [Hnd Hrs]. destruct (post_all_fields (MEvent e) rs n1 Hnd) as (cls1 & -> & H1).
      exists cls1. split; [done|]. subst n1. cbn [n_clients] in H1. split; [|split].
      + intros x. rewrite H1. case_decide; by rewrite ?fmap_is_Some.
      + intros x cl' Hh Hx. rewrite H1 in Hx. case_decide as Hin; [|by apply (hv_sync _ _ Hn)].
        apply fmap_Some in Hx as (cl0 & Hx & ->). apply post_event; [by apply (hv_sync _ _ Hn)|by apply Hrs].
      + rewrite H1, Hc. case_decide; eexists; (split; [done|]); done.
    - exists (n_clients n). split; [done|]. split; [done|]. split; [apply Hn|]. eauto. }
  (* the acknowledgement *)
  assert (Hfl : ack_of m c pid = if flag (pu_options m) "acknowledge"
                                 then Some (MPublished (Published (pu_request m) pid), c) else None).
  { unfold ack_of. rewrite flag_says. unfold says. by destruct (mget _ _) as [|[]| | | | | | | | |]. }
  destruct (flag (pu_options m) "acknowledge") eqn:Ef.
  - rewrite Hfl.
    match goal with |- context [post ?x ?a ?t] => destruct (post_fields x a t) as (cls & -> & Hcls) end.
    cbn [n_clients nset_clients] in Hcls. subst n1. net_cbn. intros Hloc. eapply (broker_done n); try done.
    + intros x. rewrite <- Hd1. apply (dom_post _ _ _ _ c Hcls).
    + intros x cl' Hh Hx. rewrite taken_lookup, Hcls in Hx. eapply synced_iff; [|by apply HS|done|done].
      destruct (decide (x = c)) as [->|Hne]; [|by apply Hs1].
      rewrite Hc1 in Hx. cbn in Hx. injection Hx as <-. destruct (Hnext Hh) as [rest Hu]. rewrite Hu in Hu1.
      eapply pop_published; [by apply Hs1|done|done].
  - rewrite Hfl. subst n1. net_cbn. intros Hloc. eapply (broker_done n); try done.
    + intros x. rewrite <- Hd1. apply dom_taken.
    + intros x cl' Hh Hx. rewrite taken_lookup in Hx. eapply synced_iff; [|by apply HS|done|done].
      destruct (decide (x = c)) as [->|Hne]; [|by apply Hs1].
      rewrite Hc1 in Hx. cbn in Hx. injection Hx as <-. destruct (Hnext Hh) as [rest Hu]. rewrite Hu in Hu1.
      eapply pop_plain; [by apply Hs1|done|done|done|]. unfold ack_ids. cbn. by rewrite Ef.
Qed.

(** ** Messages for the dealer *)

Lemma hlen n k : hninv n k -> N.of_nat k < two53 -> N.of_nat (length (n_dh n)) <= two53.
Proof. intros Hn Hk. pose proof (hd_len _ _ _ _ _ _ (hv_d _ _ Hn)). lia. Qed.

Lemma hdealer_done n k o op d' out cls : hninv n k ->
  drun new_dealer (n_dh n ++ [(o, op)]) = Ret d' (n_douts n ++ [out]) ->
  dtrace_of (n_dh n ++ [(o, op)]) (n_douts n ++ [out]) = (op, out) :: dtr n ->
  vinv honest ((op, out) :: dtr n) d' ->
  (forall c, is_Some (cls !! c) <-> is_Some (n_clients n !! c)) ->
  match op with DAdd _ | DRemove _ => False | _ => True end ->
  (forall c p pol g, is_registered (op, out) c p pol g -> is_Some (n_clients n !! c)) ->
  (forall i c r rp, opens (op, out) (dtr n) i c r rp -> c ∈ n_ever n) ->
  hsync (subs (btr n)) (regs ((op, out) :: dtr n)) (opn ((op, out) :: dtr n)) cls ->
  (let n' := Net cls (n_broker n) d' (n_rejected n) (n_crashed n) (n_ever n) (n_bh n) (n_bouts n)
          (n_dh n ++ [(o, op)]) (n_douts n ++ [out]) in
   hlocal cls (dtr n') /\ (forall x r, called (dtr n') x r = true -> x ∈ n_ever n) -> hninv n' (S k)).
Proof.
  intros [B D Hev Hca Hsy Hlo Hrej] Hr Ht Hv Hdom Hop Hreg Hopn Hs n' [Hloc Hcal].
  assert (Hd : dtr n' = (op, out) :: dtr n) by exact Ht.
  constructor; rewrite ?Hd; subst n'; net_cbn; try done.
  - by eapply bpart_dom.
  - by eapply hdpart_quiet.
  - intros x. rewrite Hdom. apply Hev.
  - by rewrite <- Hd.
  - by rewrite <- Hd.
Qed.

Lemma crash_free o op n : n_crashed (fst (call_dealer o op n)) = [] -> exists d' out, dstep o (n_dealer n) op = Ret d' out.
Proof. unfold call_dealer. destruct (dstep _ _ _); [by eexists _, _|done]. Qed.
Lemma post_crashed n m to : n_crashed (post n m to) = n_crashed n.
Proof. unfold post. by case_match. Qed.

Ltac start Hn Hnext Hcr :=
  let Hloc := fresh "Hloc" in
  match type of Hn with hninv ?n ?k => match goal with |- hninv (routed ?o ?c ?m n) _ =>
    pose proof (local_routed n k o c m Hn Hnext) as Hloc; revert Hloc end end;
  destruct Hnext as (cl & Hc & Hnext); revert Hcr; unfold routed; cbn [handle]; unfold call_dealer.

Lemma hroute_register n k o c m : hninv n k -> N.of_nat k < two53 -> next_of n c (MRegister m) ->
  n_crashed (routed o c (MRegister m) n) = [] -> hninv (routed o c (MRegister m) n) (S k).
Proof.
  intros Hn Hk Hnext Hcr. start Hn Hnext Hcr.
  destruct (dstep o (n_dealer n) (DReceive c (MRegister m))) as [d' out|w] eqn:E; [|done]. intros _.
  assert (Hup : upright honest (dtr n) (DReceive c (MRegister m))).
  { intros Hh. destruct (Hnext Hh) as [rest Hu]. eapply (hl_reg _ _ (hv_local _ _ Hn)); [exact Hh|exact Hc|]. rewrite Hu. by left. }
  destruct (hdealer_call _ _ _ _ _ _ o _ _ _ (hv_d _ _ Hn) Hk Hup E) as (Hr & Ht & Hv).
  assert (HO : forall x i r rp, opn ((DReceive c (MRegister m), out) :: dtr n) x i r rp <-> opn (dtr n) x i r rp).
  { intros x. apply opn_quiet; cbn; intros; tauto. }
  assert (Hs : is_Some (d_by_session (n_dealer n) !! c)).
  { destruct (run_cinv _ _ _ (hlen _ _ Hn Hk) (hd_run _ _ _ _ _ _ (hv_d _ _ Hn))) as [C _].
    apply (ci_dom _ _ C). apply (sinv_present _ _ _ (run_sinv _ _ _ (hd_run _ _ _ _ _ _ (hv_d _ _ Hn)))), (hd_pres _ _ _ _ _ _ (hv_d _ _ Hn)).
    by rewrite Hc. }
  assert ((exists g, out = DMsg (MRegistered (Registered (rg_request m) g)) c)
          \/ out = DMsg (refusal 64 (rg_request m) "wamp.error.procedure_already_exists") c) as Hout.
  { cbn [dstep d_receive_message] in E. destruct (register_cases _ _ _ _ _ E) as
      [(X & _)|(mine & _ & [(l & g & _ & _ & _ & _ & ->)|[(l & g & _ & _ & _ & _ & _ & _ & ->)|(_ & _ & ->)]])].
    - rewrite X in Hs. by destruct Hs.
    - by right.
    - left. by eexists.
    - left. by eexists. }
  pose proof (hv_sync _ _ Hn) as Hsy.
  destruct Hout as [[g ->]| ->].
  - match goal with |- context [post ?x ?a ?t] => destruct (post_fields x a t) as (cls & -> & Hcls) end.
    net_cbn. cbn [n_clients] in Hcls. eapply (hdealer_done n); try done.
    + apply (dom_post _ _ _ _ c Hcls).
    + intros x p pol g' (<- & _). by rewrite Hc.
    + intros x cl' Hh Hx. rewrite taken_lookup, Hcls in Hx. destruct (decide (x = c)) as [->|Hne].
      * rewrite Hc in Hx. cbn in Hx. injection Hx as <-. destruct (Hnext Hh) as [rest Hu]. eapply synced_iff; [|done|done|by apply HO].
        eapply pop_registered; [by apply Hsy|done|]. intros g'. unfold regs. cbn [owns is_registered is_unregistered rd_registration]. split.
        -- intros (p & [(pol & _ & _ & _ & -> & _)|[H _]]); [by right|left; by exists p].
        -- intros [[p H]| ->]; [exists p; right; split; [done|tauto]|]. exists (rg_procedure m). left. by eexists.
      * eapply synced_iff; [by apply Hsy|done| |by apply HO]. apply regs_quiet; cbn [is_registered is_unregistered]; [|tauto].
        intros p pol g' (? & _). congruence.
  - match goal with |- context [post ?x ?a ?t] => destruct (post_fields x a t) as (cls & -> & Hcls) end.
    net_cbn. cbn [n_clients] in Hcls. eapply (hdealer_done n); try done.
    + apply (dom_post _ _ _ _ c Hcls).
    + intros x cl' Hh Hx. rewrite taken_lookup, Hcls in Hx.
      eapply synced_iff; [|done|by apply regs_quiet; cbn; intros; tauto|by apply HO].
      destruct (decide (x = c)) as [->|Hne]; [|by apply Hsy].
      rewrite Hc in Hx. cbn in Hx. injection Hx as <-. destruct (Hnext Hh) as [rest Hu]. by eapply pop_register_refused; [apply Hsy|..].
Qed.

Lemma hroute_unregister n k o c m : hninv n k -> N.of_nat k < two53 -> next_of n c (MUnregister m) ->
  n_crashed (routed o c (MUnregister m) n) = [] -> hninv (routed o c (MUnregister m) n) (S k).
Proof.
  intros Hn Hk Hnext Hcr. start Hn Hnext Hcr.
  destruct (dstep o (n_dealer n) (DReceive c (MUnregister m))) as [d' out|w] eqn:E; [|done]. intros _.
  assert (Hup : honest c -> regs (dtr n) c (ur_registration m)).
  { intros Hh. destruct (Hnext Hh) as [rest Hu]. eapply (hl_unreg _ _ (hv_local _ _ Hn)); [exact Hh|exact Hc|]. rewrite Hu. by left. }
  destruct (hdealer_call _ _ _ _ _ _ o (DReceive c (MUnregister m)) _ _ (hv_d _ _ Hn) Hk Hup E) as (Hr & Ht & Hv).
  assert (HO : forall x i r rp, opn ((DReceive c (MUnregister m), out) :: dtr n) x i r rp <-> opn (dtr n) x i r rp).
  { intros x. apply opn_quiet; cbn; intros; tauto. }
  assert (Hhon : honest c -> out = DMsg (MUnregistered (Unregistered (ur_request m))) c).
  { intros Hh. destruct (upright_unregister _ _ _ o _ m (hd_v _ _ _ _ _ _ (hv_d _ _ Hn)) Hh (Hup Hh)) as [d1 E1]. congruence. }
  pose proof (hv_sync _ _ Hn) as Hsy.
  assert (out = DMsg (MUnregistered (Unregistered (ur_request m))) c \/ exists e, out = DErr e) as [->|[e ->]].
  { cbn [dstep d_receive_message] in E.
    destruct (unregister_cases _ _ _ _ _ E) as [(_ & _ & e & ->)|(mine & l & g & _ & _ & _ & _ & ->)]; [right; by eexists|by left]. }
  - match goal with |- context [post ?x ?a ?t] => destruct (post_fields x a t) as (cls & -> & Hcls) end.
    net_cbn. cbn [n_clients] in Hcls. eapply (hdealer_done n); try done.
    + apply (dom_post _ _ _ _ c Hcls).
    + intros x cl' Hh Hx. rewrite taken_lookup, Hcls in Hx. destruct (decide (x = c)) as [->|Hne].
      * rewrite Hc in Hx. cbn in Hx. injection Hx as <-. destruct (Hnext Hh) as [rest Hu]. eapply synced_iff; [|done|done|by apply HO].
        eapply pop_unregistered; [by apply Hsy|done|by apply Hup|]. intros g'. unfold regs. cbn [owns is_registered is_unregistered]. split.
        -- intros (p & [[pol []]|[H Hg']]). split; [by exists p|]. intros ->. by apply Hg'.
        -- intros [[p H] Hg']. exists p. right. split; [done|]. intros [_ ?]. congruence.
      * eapply synced_iff; [by apply Hsy|done| |by apply HO]. apply regs_quiet; cbn [is_registered is_unregistered]; [tauto|].
        intros g' (? & _). congruence.
  - net_cbn. eapply (hdealer_done n); try done.
    + apply dom_taken.
    + intros x cl' Hh Hx. rewrite taken_lookup in Hx.
      eapply synced_iff; [|done|by apply regs_quiet; cbn; intros; tauto|by apply HO].
      destruct (decide (x = c)) as [->|Hne]; [|by apply Hsy]. by specialize (Hhon Hh).
Qed.

Lemma hroute_call n k o c m : hninv n k -> N.of_nat k < two53 -> next_of n c (MCall m) ->
  n_crashed (routed o c (MCall m) n) = [] -> hninv (routed o c (MCall m) n) (S k).
Proof.
  intros Hn Hk Hnext Hcr. start Hn Hnext Hcr.
  destruct (dstep o (n_dealer n) (DReceive c (MCall m))) as [d' out|w] eqn:E; [|done]. intros _.
  destruct (hdealer_call _ _ _ _ _ _ o (DReceive c (MCall m)) _ _ (hv_d _ _ Hn) Hk Logic.I E) as (Hr & Ht & Hv).
  pose proof (hv_sync _ _ Hn) as Hsy.
  assert (Hco : honest c -> continues (dtr n) c m = false).
  { intros Hh. destruct (Hnext Hh) as [rest Hu]. unfold continues. destruct (called _ _ _) eqn:X; [|apply andb_false_r].
    exfalso. apply (proj2 (hl_call _ _ (hv_local _ _ Hn) _ _ _ Hh Hc X)). rewrite Hu. by left. }
  assert (Hev : forall out i x r rp, opens (DReceive c (MCall m), out) (dtr n) i x r rp -> x ∈ n_ever n).
  { intros out0 i x r rp H. assert (c = x) as <- by (destruct out0 as [| | |a to]; try destruct a; cbn in H; tauto).
    apply (hv_ever _ _ Hn). by rewrite Hc. }
  assert (out = DMsg (refusal 48 (ca_request m) "wamp.error.no_such_procedure") c
          \/ (exists e, out = DErr e)
          \/ exists v callee, out = DMsg (MInvocation v) callee
               /\ (honest callee -> is_Some (n_clients n !! callee) -> regs (dtr n) callee (in_registration v)))
    as [->|[[e ->]|(v & callee & -> & Hreg)]].
  { cbn [dstep d_receive_message] in E.
    destruct (call_cases _ _ _ _ _ _ E) as
      [(_ & -> & _)|(l & g & callee & nx & i & who & F & L & X & P & A & _ & [[_ ->]|(s & _ & ->)])].
    - left. done.
    - right; left. by eexists.
    - right; right. eexists _, _. split; [done|]. intros Hh Hs.
      eapply upright_invoked; [apply (hv_d _ _ Hn)|by apply run_ginv, (hv_d _ _ Hn)|done| |exact E].
      by apply (hd_pres _ _ _ _ _ _ (hv_d _ _ Hn)). }
  - match goal with |- context [post ?x ?a ?t] => destruct (post_fields x a t) as (cls & -> & Hcls) end.
    net_cbn. cbn [n_clients] in Hcls. eapply (hdealer_done n); try done.
    + apply (dom_post _ _ _ _ c Hcls).
    + intros x cl' Hh Hx. rewrite taken_lookup, Hcls in Hx.
      eapply synced_iff; [|done|by apply regs_quiet; cbn; intros; tauto|by apply opn_quiet; cbn; intros; tauto].
      destruct (decide (x = c)) as [->|Hne]; [|by apply Hsy].
      rewrite Hc in Hx. cbn in Hx. injection Hx as <-. destruct (Hnext Hh) as [rest Hu]. by eapply pop_call_refused; [apply Hsy|..].
  - net_cbn. eapply (hdealer_done n); try done.
    + apply dom_taken.
    + intros i x r rp. apply Hev.
    + intros x cl' Hh Hx. rewrite taken_lookup in Hx. destruct (decide (x = c)) as [->|Hne].
      * rewrite Hc in Hx. cbn in Hx. injection Hx as <-. destruct (Hnext Hh) as [rest Hu].
        eapply synced_iff; [|done|by apply regs_quiet; cbn; intros; tauto|done].
        eapply (pop_call_opened _ _ _ _ _ _ _ (used (dtr n) + 1) (says (ca_options m) "receive_progress")); [by apply Hsy|done|].
        intros i' q rp'. unfold opn. cbn [open_inv opens closes]. rewrite (Hco Hh). split.
        -- intros [(_ & <- & <- & _ & <-)|[H _]]; [by right|by left].
        -- intros [H|(-> & -> & ->)]; [right; split; [done|tauto]|by left].
      * eapply synced_iff; [by apply Hsy|done|by apply regs_quiet; cbn; intros; tauto|].
        apply opn_quiet; cbn [opens closes]; [|tauto]. intros i r rp (? & _). congruence.
  - match goal with |- context [post ?x ?a ?t] => destruct (post_fields x a t) as (cls & -> & Hcls) end.
    net_cbn. cbn [n_clients] in Hcls. eapply (hdealer_done n); try done.
    + apply (dom_post _ _ _ _ c Hcls).
    + intros i x r rp. apply Hev.
    + assert (hsync (subs (btr n)) (regs (dtr n)) (opn (dtr n)) cls
        /\ exists cl1, cls !! c = Some cl1 /\ cl_up cl1 = cl_up cl) as [Hs1 (cl1 & Hc1 & Hu1)].
      { split.
        - intros x cl' Hh Hx. rewrite Hcls in Hx. case_decide as Hxc; [|by apply Hsy]. subst x.
          apply fmap_Some in Hx as (cl0 & Hx & ->). apply post_invocation; [by apply Hsy|]. apply Hreg; [done|by rewrite Hx].
        - rewrite Hcls, Hc. case_decide; eexists; (split; [done|]); done. }
      intros x cl' Hh Hx. rewrite taken_lookup in Hx. destruct (decide (x = c)) as [->|Hne].
      * rewrite Hc1 in Hx. cbn in Hx. injection Hx as <-. destruct (Hnext Hh) as [rest Hu]. rewrite Hu in Hu1.
        eapply synced_iff; [|done|by apply regs_quiet; cbn; intros; tauto|done].
        eapply (pop_call_opened _ _ _ _ _ _ _ (in_request v) (says (ca_options m) "receive_progress")); [by apply Hs1|done|].
        intros i' q rp'. unfold opn. cbn [open_inv opens closes]. rewrite (Hco Hh). split.
        -- intros [(_ & <- & <- & _ & <-)|[H _]]; [by right|by left].
        -- intros [H|(-> & -> & ->)]; [right; split; [done|tauto]|by left].
      * eapply synced_iff; [by apply Hs1|done|by apply regs_quiet; cbn; intros; tauto|].
        apply opn_quiet; cbn [opens closes]; [|tauto]. intros i r rp (? & _). congruence.
Qed.

Lemma hroute_yield n k o c m : hninv n k -> N.of_nat k < two53 -> next_of n c (MYield m) ->
  n_crashed (routed o c (MYield m) n) = [] -> hninv (routed o c (MYield m) n) (S k).
Proof.
  intros Hn Hk Hnext Hcr. start Hn Hnext Hcr.
  destruct (dstep o (n_dealer n) (DReceive c (MYield m))) as [d' out|w] eqn:E; [|done]. intros _.
  destruct (hdealer_call _ _ _ _ _ _ o (DReceive c (MYield m)) _ _ (hv_d _ _ Hn) Hk Logic.I E) as (Hr & Ht & Hv).
  pose proof (hv_sync _ _ Hn) as Hsy.
  assert (Hlen : N.of_nat (length (n_dh n)) <= two53).
  { pose proof (hd_len _ _ _ _ _ _ (hv_d _ _ Hn)). lia. }
  pose proof (hd_run _ _ _ _ _ _ (hv_d _ _ Hn)) as Hrun.
  assert (HR : forall x g, regs ((DReceive c (MYield m), out) :: dtr n) x g <-> regs (dtr n) x g).
  { intros x. apply regs_quiet; cbn; intros; destruct out; tauto. }
  assert (Hpop : forall S R O cls, hsync S R O cls -> (exists cl1, cls !! c = Some cl1 /\ cl_up cl1 = cl_up cl) ->
     hsync S R O (taken c cls)).
  { intros S R O cls Hs (cl1 & Hc1 & Hu1) x cl' Hh Hx. rewrite taken_lookup in Hx.
    destruct (decide (x = c)) as [->|Hne]; [|by apply Hs].
    rewrite Hc1 in Hx. cbn in Hx. injection Hx as <-. destruct (Hnext Hh) as [rest Hu]. rewrite Hu in Hu1. by eapply pop_plain; [apply Hs|..]. }
  destruct (yield_answer _ _ _ _ _ _ _ _ Hlen Hrun E)
    as [(Hno & (e & ->) & _)|(x0 & r0 & rp0 & Hop & [(Hna & e & ->)|(sd & Hpr & ->)])]; fold (dtr n) in *.
  - net_cbn. eapply (hdealer_done n); try done; [apply dom_taken|].
    apply Hpop; [|by exists cl]. intros x cl' Hh Hx. eapply synced_iff; [by apply Hsy|done|by apply HR|].
    apply opn_quiet; cbn; [tauto|]. intros i r rp Ho [<- _]. by eapply Hno.
  - net_cbn. eapply (hdealer_done n); try done; [apply dom_taken|].
    apply Hpop; [|by exists cl]. intros x cl' Hh Hx. eapply synced_iff; [by apply Hsy|done|by apply HR|].
    apply opn_quiet; cbn; [tauto|]. intros i r rp Ho [<- _].
    destruct (open_unique _ _ _ _ _ _ _ _ _ _ Hlen Hrun Hop Ho) as (-> & _).
    apply Hna, (hd_pres _ _ _ _ _ _ (hv_d _ _ Hn)). by rewrite Hx.
  - match goal with |- context [post ?x ?a ?t] => destruct (post_fields x a t) as (cls & -> & Hcls) end.
    net_cbn. cbn [n_clients] in Hcls. eapply (hdealer_done n); try done; [apply (dom_post _ _ _ _ c Hcls)|].
    apply Hpop.
    2:{ rewrite Hcls, Hc. case_decide; eexists; (split; [done|]); done. }
    intros x cl' Hh Hx. rewrite Hcls in Hx.
    assert (Hprog : flag (re_details (result_for m r0 (rp0 && says (yi_options m) "progress") sd)) "progress"
                    = rp0 && says (yi_options m) "progress").
    { unfold result_for. destruct (rp0 && _), (bp_binary _ && _); done. }
    assert (Hreq : re_request (result_for m r0 (rp0 && says (yi_options m) "progress") sd) = r0).
    { unfold result_for. by destruct (bp_binary _ && _). }
    case_decide as Hxx.
    + subst x. apply fmap_Some in Hx as (cl0 & Hx & ->). eapply synced_iff; [|done|by apply HR|done].
      destruct (rp0 && says (yi_options m) "progress") eqn:Ep.
      * eapply synced_iff; [|done|done|].
        -- eapply (post_progress _ _ _ _ (yi_request m) r0 rp0); [by apply Hsy|exact Hop|exact Hreq|exact Hprog].
        -- apply opn_quiet; cbn; [tauto|]. intros i r rp Ho [<- Hf].
           destruct (open_unique _ _ _ _ _ _ _ _ _ _ Hlen Hrun Hop Ho) as (_ & _ & <-). congruence.
      * eapply (post_last _ _ (opn (dtr n) x0) _ _ (yi_request m) r0 rp0); [by apply Hsy|exact Hop|left; by eexists| |].
        -- intros r' rp' Ho. by destruct (open_unique _ _ _ _ _ _ _ _ _ _ Hlen Hrun Hop Ho) as (_ & <- & _).
        -- intros i' r' rp'. unfold opn. cbn [open_inv opens closes]. split.
           ++ intros [[]|[Ho Hnc]]. split; [done|]. intros ->. apply Hnc. split; [done|].
              destruct (open_unique _ _ _ _ _ _ _ _ _ _ Hlen Hrun Hop Ho) as (_ & _ & <-). done.
           ++ intros [Ho Hi]. right. split; [done|]. intros [? _]. congruence.
    + eapply synced_iff; [by apply Hsy|done|by apply HR|]. apply opn_quiet; cbn; [tauto|]. intros i r rp Ho [<- _].
      destruct (open_unique _ _ _ _ _ _ _ _ _ _ Hlen Hrun Hop Ho) as (-> & _). done.
Qed.

Lemma hroute_error n k o c m : hninv n k -> N.of_nat k < two53 -> next_of n c (MError m) ->
  n_crashed (routed o c (MError m) n) = [] -> hninv (routed o c (MError m) n) (S k).
Proof.
  intros Hn Hk Hnext Hcr. start Hn Hnext Hcr.
  destruct (dstep o (n_dealer n) (DReceive c (MError m))) as [d' out|w] eqn:E; [|done]. intros _.
  destruct (hdealer_call _ _ _ _ _ _ o (DReceive c (MError m)) _ _ (hv_d _ _ Hn) Hk Logic.I E) as (Hr & Ht & Hv).
  pose proof (hv_sync _ _ Hn) as Hsy.
  assert (Hlen : N.of_nat (length (n_dh n)) <= two53).
  { pose proof (hd_len _ _ _ _ _ _ (hv_d _ _ Hn)). lia. }
  pose proof (hd_run _ _ _ _ _ _ (hv_d _ _ Hn)) as Hrun.
  assert (HR : forall x g, regs ((DReceive c (MError m), out) :: dtr n) x g <-> regs (dtr n) x g).
  { intros x. apply regs_quiet; cbn; intros; destruct out; tauto. }
  assert (Hpop : forall S R O cls, hsync S R O cls -> (exists cl1, cls !! c = Some cl1 /\ cl_up cl1 = cl_up cl) ->
     hsync S R O (taken c cls)).
  { intros S R O cls Hs (cl1 & Hc1 & Hu1) x cl' Hh Hx. rewrite taken_lookup in Hx.
    destruct (decide (x = c)) as [->|Hne]; [|by apply Hs].
    rewrite Hc1 in Hx. cbn in Hx. injection Hx as <-. destruct (Hnext Hh) as [rest Hu]. rewrite Hu in Hu1. by eapply pop_plain; [apply Hs|..]. }
  destruct (error_answer _ _ _ _ _ _ _ _ Hlen Hrun E)
    as [(Hno & (e & ->) & _)|(x0 & r0 & rp0 & Hty & Hop & ->)]; fold (dtr n) in *.
  - net_cbn. eapply (hdealer_done n); try done; [apply dom_taken|].
    apply Hpop; [|by exists cl]. intros x cl' Hh Hx. eapply synced_iff; [by apply Hsy|done|by apply HR|].
    apply opn_quiet; cbn; [tauto|]. intros i r rp Ho [<- Hx']. destruct Hno as [Hno|Hno]; [done|by eapply Hno].
  - match goal with |- context [post ?x ?a ?t] => destruct (post_fields x a t) as (cls & -> & Hcls) end.
    net_cbn. cbn [n_clients] in Hcls. eapply (hdealer_done n); try done; [apply (dom_post _ _ _ _ c Hcls)|].
    apply Hpop.
    2:{ rewrite Hcls, Hc. case_decide; eexists; (split; [done|]); done. }
    intros x cl' Hh Hx. rewrite Hcls in Hx. case_decide as Hxx.
    + subst x. apply fmap_Some in Hx as (cl0 & Hx & ->). eapply synced_iff; [|done|by apply HR|done].
      eapply (post_last _ _ (opn (dtr n) x0) _ _ (er_request m) r0 rp0); [by apply Hsy|exact Hop|right; by eexists| |].
      * intros r' rp' Ho. by destruct (open_unique _ _ _ _ _ _ _ _ _ _ Hlen Hrun Hop Ho) as (_ & <- & _).
      * intros i' r' rp'. unfold opn. cbn [open_inv opens closes]. split.
        -- intros [[]|[Ho Hnc]]. split; [done|]. intros ->. by apply Hnc.
        -- intros [Ho Hi]. right. split; [done|]. intros [? _]. congruence.
    + eapply synced_iff; [by apply Hsy|done|by apply HR|]. apply opn_quiet; cbn; [tauto|]. intros i r rp Ho [<- _].
      destruct (open_unique _ _ _ _ _ _ _ _ _ _ Hlen Hrun Hop Ho) as (-> & _). done.
Qed.

Lemma hninv_agree n k n' cls : hninv n k -> n' = nset_clients cls n ->
  (forall c, is_Some (cls !! c) <-> is_Some (n_clients n !! c)) ->
  (forall c, honest c -> cls !! c = n_clients n !! c) -> hninv n' k.
Proof.
  intros [B D Hev Hca Hsy Hlo Hrej] -> Hdom Hag. constructor; net_cbn; try done.
  - destruct B. constructor; try done; [intros c; by rewrite Hdom|]. intros c t g H. rewrite Hdom. by eapply bp_hold.
  - destruct D. constructor; try done; [intros c; by rewrite Hdom|]. intros c t g H. rewrite Hdom. by eapply hd_own0.
  - intros x. rewrite Hdom. apply Hev.
  - intros c cl Hh Hx. rewrite Hag in Hx by done. by apply Hsy.
  - destruct Hlo as [L1 L2 L3 L4]. constructor.
    + intros c cl m Hh Hx. rewrite Hag in Hx by done. by eapply L1.
    + intros c cl m Hh Hx. rewrite Hag in Hx by done. by eapply L2.
    + intros c cl Hh Hx. rewrite Hag in Hx by done. by eapply L3.
    + intros c cl r Hh Hx. rewrite Hag in Hx by done. by eapply L4.
Qed.
Lemma hninv_more n k k' : (k <= k')%nat -> hninv n k -> hninv n k'.
Proof.
  intros Hk [B D Hev Hca Hsy Hlo Hrej]. constructor; try done.
  - destruct B. constructor; try done. lia.
  - destruct D. constructor; try done. lia.
Qed.

Lemma hroute_other n k o c m : hninv n k -> handle o c m n = n ->
  call_ids [m] = [] -> reg_ids [m] = [] -> ack_ids [m] = [] -> next_of n c m -> hninv (routed o c m n) (S k).
Proof.
  intros Hn Hh E1 E2 E3 Hnext. destruct (local_routed n k o c m Hn Hnext) as [Hloc Hcal]. destruct Hnext as (cl & Hc & Hnext).
  revert Hloc Hcal. unfold routed. rewrite Hh. intros Hloc Hcal.
  pose proof (dom_taken (n_clients n) c) as Hdom. destruct Hn as [B D Hev Hca Hsy Hlo Hrej]. constructor; net_cbn; try done.
  - by eapply bpart_dom.
  - by eapply hdpart_dom.
  - intros x. rewrite Hdom. apply Hev.
  - intros x cl' Hx Hx'. rewrite taken_lookup in Hx'.
    destruct (decide (x = c)) as [->|Hne]; [|by apply Hsy].
    rewrite Hc in Hx'. cbn in Hx'. injection Hx' as <-. destruct (Hnext Hx) as [rest Hu]. by eapply pop_plain; [apply Hsy|..].
Qed.

Lemma hroute n k o c m : hninv n k -> N.of_nat k < two53 -> next_of n c m -> n_crashed (handle o c m n) = [] ->
  hninv (routed o c m n) (S k).
Proof.
  intros Hn Hk Hnext Hcr. assert (Hcr' : n_crashed (routed o c m n) = []) by exact Hcr.
  destruct m;
    first [by apply hroute_call|by apply hroute_error|by apply hroute_publish|by apply hroute_register
          |by apply hroute_subscribe|by apply hroute_unregister|by apply hroute_unsubscribe|by apply hroute_yield
          |by apply hroute_other].
Qed.

End Hostile.
