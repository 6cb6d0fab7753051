(** No call id is used twice, so every CALL the router reads is a new one. *)
From Verif Require Import Prelude Value Msg IdGen Types PathMatch Mutex Broker Dealer Session Network.
From Verif Require Import BrokerSpec BrokerFacts BrokerSim BrokerTrace BrokerProofs.
From Verif Require Import DealerSpec DealerFacts DealerCalls DealerSim DealerStep DealerProofs DealerPolite DealerShare.
From Verif Require Import NetworkSpec NetworkClient NetworkSync NetworkProofs.

(** ** What a step does to the queues towards the router *)

Definition same_ups (cls cls' : gmap N client) : Prop :=
  forall x cl', cls' !! x = Some cl' -> exists cl, cls !! x = Some cl /\ cl_up cl' = cl_up cl /\ cl_used cl' = cl_used cl.
Lemma same_ups_refl cls : same_ups cls cls.
Proof. intros x cl H. eauto. Qed.
Lemma same_ups_trans a b c : same_ups a b -> same_ups b c -> same_ups a c.
Proof. intros H1 H2 x cl (cl1 & E & -> & ->)%H2. by apply H1. Qed.
Lemma post_ups n m to : same_ups (n_clients n) (n_clients (post n m to)) /\ dtr (post n m to) = dtr n.
Proof.
  unfold post. destruct (n_clients n !! to) as [cl|] eqn:E; [|split; [apply same_ups_refl|done]]. split; [|done].
  intros x cl'. cbn. destruct (decide (x = to)) as [->|Hne].
  - rewrite lookup_insert. intros [= <-]. eauto.
  - rewrite lookup_insert_ne by done. eauto.
Qed.
Lemma post_all_ups m tos : forall n, same_ups (n_clients n) (n_clients (post_all n m tos)) /\ dtr (post_all n m tos) = dtr n.
Proof.
  induction tos as [|to tos IH]; intros n; [split; [apply same_ups_refl|done]|].
  cbn [post_all]. destruct (IH (post n m to)) as [H1 H2]. destruct (post_ups n m to) as [H3 H4].
  split; [by eapply same_ups_trans|congruence].
Qed.

Lemma handle_effect n k o c m : ninv n k -> N.of_nat k < two53 -> polite (dtr n) (DReceive c m) ->
  same_ups (n_clients n) (n_clients (handle o c m n))
  /\ (dtr (handle o c m n) = dtr n /\ (match m with MRegister _ | MUnregister _ => False | _ => True end)
      \/ exists out s s' d', dtr (handle o c m n) = (DReceive c m, out) :: dtr n
         /\ drep (dtr n) (n_dealer n) s /\ rstep s (DReceive c m) out s' /\ drep ((DReceive c m, out) :: dtr n) d' s').
Proof.
  intros Hn Hk Hpol.
  assert (Hdealer :
    let n' := match call_dealer o (DReceive c m) n with (n, Some (DMsg a to)) => post n a to | (n, _) => n end in
    same_ups (n_clients n) (n_clients n')
    /\ exists out s s' d', dtr n' = (DReceive c m, out) :: dtr n
         /\ drep (dtr n) (n_dealer n) s /\ rstep s (DReceive c m) out s' /\ drep ((DReceive c m, out) :: dtr n) d' s').
  { cbv zeta. unfold call_dealer.
    destruct (dealer_call _ _ _ _ _ _ o _ (nv_d _ _ Hn) Hk Hpol)
      as (d' & out & s & s' & E & Hr & Hph & Ht & I & T & I'). rewrite E.
    assert (Hout : exists out0 s0 s1 d0, (DReceive c m, out) :: dtr n = (DReceive c m, out0) :: dtr n
         /\ drep (dtr n) (n_dealer n) s0 /\ rstep s0 (DReceive c m) out0 s1 /\ drep ((DReceive c m, out0) :: dtr n) d0 s1)
      by (exists out, s, s', d'; done).
    set (n1 := Net _ _ _ _ _ _ _ _ _ _).
    assert (H1 : dtr n1 = (DReceive c m, out) :: dtr n) by exact Ht.
    assert (H2 : same_ups (n_clients n) (n_clients n1)) by apply same_ups_refl.
    destruct out as [e| |b|a to]; [by rewrite H1..|].
    destruct (post_ups n1 a to) as [H3 H4]. split; [exact (same_ups_trans _ _ _ H2 H3)|]. by rewrite H4, H1. }
  assert (Hbroker : forall op n' bo, call_broker o op n = (n', bo) -> same_ups (n_clients n) (n_clients n') /\ dtr n' = dtr n).
  { intros op n' bo. unfold call_broker. destruct (bstep _ _ _); intros [= <- <-]; (split; [apply same_ups_refl|done]). }
  destruct m; cbn [handle];
    try (destruct Hdealer as [H1 H2]; split; [exact H1|by right]);
    try (split; [apply same_ups_refl|left; by split]).
  - destruct (call_broker _ _ _) as [n1 bo] eqn:E. destruct (Hbroker _ _ _ E) as [H1 H2].
    destruct bo as [bo|]; [destruct bo as [ | | | |ev rs ack]|]; try (split; [done|by left]).
    set (n2 := match ev with Some e => post_all n1 (MEvent e) rs | None => n1 end).
    assert (same_ups (n_clients n) (n_clients n2) /\ dtr n2 = dtr n) as [H3 H4].
    { subst n2. destruct ev as [e|]; [|done]. destruct (post_all_ups (MEvent e) rs n1) as [? ?].
      split; [by eapply same_ups_trans|congruence]. }
    destruct ack as [[a to]|]; [|split; [done|by left]].
    destruct (post_ups n2 a to) as [? ?]. split; [by eapply same_ups_trans|left; split; [congruence|done]].
  - destruct (call_broker _ _ _) as [n1 bo] eqn:E. destruct (Hbroker _ _ _ E) as [H1 H2].
    destruct bo as [bo|]; [destruct bo as [| | |a to| ]|]; try (split; [done|by left]).
    destruct (post_ups n1 a to) as [? ?]. split; [by eapply same_ups_trans|left; split; [congruence|done]].
  - destruct (call_broker _ _ _) as [n1 bo] eqn:E. destruct (Hbroker _ _ _ E) as [H1 H2].
    destruct bo as [bo|]; [destruct bo as [| | |a to| ]|]; try (split; [done|by left]).
    destruct (post_ups n1 a to) as [? ?]. split; [by eapply same_ups_trans|left; split; [congruence|done]].
Qed.

Lemma handle_ever o c m n : n_ever (handle o c m n) = n_ever n.
Proof.
  assert (Hp : forall n a to, n_ever (post n a to) = n_ever n) by (intros; unfold post; by case_match).
  assert (Hpa : forall a tos n, n_ever (post_all n a tos) = n_ever n).
  { intros a tos. induction tos as [|t tos IH]; intros n'; [done|]. cbn [post_all]. by rewrite IH, Hp. }
  assert (Hb : forall op, n_ever (fst (call_broker o op n)) = n_ever n) by (intros; unfold call_broker; by case_match).
  assert (Hd : forall op, n_ever (fst (call_dealer o op n)) = n_ever n) by (intros; unfold call_dealer; by case_match).
  destruct m; cbn [handle]; try done.
  all: match goal with
       | |- context [call_dealer ?o ?op ?n] => specialize (Hd op); destruct (call_dealer o op n) as [n2 [x|]]
       | |- context [call_broker ?o ?op ?n] => specialize (Hb op); destruct (call_broker o op n) as [n2 [x|]]
       end; cbn [fst] in *; try destruct x as [| | |a to|ev rs ack]; try destruct x as [| | |a to];
       rewrite ?Hp; try done.
  destruct ack as [[a to]|], ev; rewrite ?Hp, ?Hpa; done.
Qed.

(** ** The invariant *)

Record cinv (n : net) : Prop := CInv {
  ci_ever : forall c r, called (dtr n) c r = true -> c ∈ n_ever n;
  ci_used : forall c cl r, n_clients n !! c = Some cl -> called (dtr n) c r = true ->
      r ∈ cl_used cl /\ r ∉ call_ids (cl_up cl) }.

Lemma cinv_uncalled n : cinv n -> uncalled n.
Proof.
  intros C c cl m rest Hc Hu. destruct (called _ _ _) eqn:E; [|done]. exfalso.
  apply (proj2 (ci_used _ C _ _ _ Hc E)). rewrite Hu. by left.
Qed.

Lemma call_request r q : r ∈ call_ids q -> r ∈ omap request_of q.
Proof.
  unfold call_ids. rewrite !elem_of_list_omap. intros (m & Hm & E). exists m. split; [done|].
  destruct m; try discriminate. done.
Qed.

Lemma cinv_step n k e : ninv n k -> N.of_nat k < two53 -> rules n e -> cinv n -> cinv (nstep n e).
Proof.
  intros Hn Hk Hr C. destruct e as [d|o c|c m|o c|c|p c]; cbn [nstep].
  - cbn in Hr.
    destruct (broker_call _ _ _ _ _ any_oracle (BAdd d) (nv_b _ _ Hn) Hk) as (b' & bo & s & s' & E & _).
    destruct (dealer_call _ _ _ _ _ _ any_oracle (DAdd d) (nv_d _ _ Hn) Hk Logic.I)
      as (d' & do & t & t' & E2 & _ & _ & Ht2 & _).
    unfold call_broker, call_dealer, nset_ever, nset_clients. net_cbn. rewrite E. net_cbn. rewrite E2. net_cbn.
    constructor; unfold dtr; net_cbn; rewrite Ht2; cbn [called].
    + intros c r H. right. by apply (ci_ever _ C c r).
    + intros c cl r. destruct (decide (c = se_id d)) as [->|Hne].
      * intros _ H. exfalso. by apply Hr, (ci_ever _ C _ r).
      * rewrite lookup_insert_ne by done. apply C.
  - destruct (broker_call _ _ _ _ _ o (BRemove c) (nv_b _ _ Hn) Hk) as (b' & bo & s & s' & E & _).
    destruct (dealer_call _ _ _ _ _ _ o (DRemove c) (nv_d _ _ Hn) Hk Logic.I)
      as (d' & do & t & t' & E2 & _ & _ & Ht2 & _).
    unfold call_broker, call_dealer, nset_ever, nset_clients. net_cbn. rewrite E. net_cbn. rewrite E2. net_cbn.
    constructor; unfold dtr; net_cbn; rewrite Ht2; cbn [called].
    + apply C.
    + intros x cl r. destruct (decide (x = c)) as [->|Hne]; [by rewrite lookup_delete|].
      rewrite lookup_delete_ne by done. apply C.
  - destruct (n_clients n !! c) as [cl|] eqn:Hc; [|done]. specialize (Hr cl Hc).
    destruct (sstep _ _) as [s' [x|e|e]]; constructor; try apply C; intros y cl' r; unfold dtr; net_cbn;
      (destruct (decide (y = c)) as [->|Hne]; [|rewrite lookup_insert_ne by done; apply C]);
      rewrite lookup_insert; intros [= <-] H; destruct (ci_used _ C _ _ _ Hc H) as [H1 H2]; cbn [cl_used cl_up]; try done.
    split; [destruct (request_of m); [by right|done]|].
    unfold call_ids. rewrite omap_snoc, elem_of_app. intros [H3|H3]; [done|].
    destruct m; try (by apply elem_of_nil in H3). apply elem_of_list_singleton in H3. subst r.
    by apply (Hr _ eq_refl).
  - destruct (n_clients n !! c) as [[s0 up down used]|] eqn:Hc; [|done].
    destruct up as [|m rest]; [done|].
    assert (Hpol : polite (dtr n) (DReceive c m)) by (by apply (Hr _ _ rest Hc)).
    destruct (handle_effect n k o c m Hn Hk Hpol) as [Hup Htr].
    assert (Hev : n_ever (handle o c m n) = n_ever n) by apply handle_ever.
    set (n1 := handle o c m n) in *.
    assert (Hcl : forall x r, called (dtr n1) x r = true ->
        called (dtr n) x r = true \/ x = c /\ exists y, m = MCall y /\ r = ca_request y).
    { intros x r. destruct Htr as [[-> _]|(out & s & s' & d' & -> & _)]; [by left|].
      destruct m; cbn [called]; try (by left). destruct out as [e| |b|a to]; [|by left|by left|destruct a; try (by left)];
        (intros [H|H]%orb_true_iff; [right|by left]; apply andb_true_iff in H as [H1%N.eqb_eq H2%N.eqb_eq]; eauto). }
    assert (Hin : forall y, m = MCall y -> ca_request y ∈ used /\ ca_request y ∉ call_ids rest).
    { intros y ->. destruct (nv_sync _ _ Hn _ _ Hc) as [s1 I1]. split.
      - apply (is_used_up _ _ _ _ _ I1). by left.
      - pose proof (is_nodup _ _ _ _ _ I1) as Hnd. cbn in Hnd. apply NoDup_cons in Hnd as [Hnd _].
        intros H. by apply Hnd, call_request. }
    assert (Hc1 : c ∈ n_ever n) by (apply (nv_ever _ _ Hn); by rewrite Hc).
    assert (K : cinv (match n_clients n1 !! c with
      | Some cl => nset_clients (<[c := Client (cl_session cl) (tail (cl_up cl)) (cl_down cl) (cl_used cl)]> (n_clients n1)) n1
      | None => n1 end)); [|exact K].
    constructor.
    + intros x r H. assert (H1 : called (dtr n1) x r = true) by (by destruct (n_clients n1 !! c)).
      assert (x ∈ n_ever n1); [|by destruct (n_clients n1 !! c)]. rewrite Hev.
      destruct (Hcl _ _ H1) as [H2|[-> _]]; [by apply (ci_ever _ C _ r)|done].
    + intros x cl r Hx H. assert (H1 : called (dtr n1) x r = true) by (by destruct (n_clients n1 !! c)).
      assert (exists cl0, n_clients n !! x = Some cl0 /\ cl_used cl = cl_used cl0
              /\ cl_up cl = if decide (x = c) then tail (cl_up cl0) else cl_up cl0) as (cl0 & H0 & -> & ->).
      { destruct (n_clients n1 !! c) as [cl1|] eqn:E1.
        - cbn in Hx. destruct (decide (x = c)) as [->|Hne].
          + rewrite lookup_insert in Hx. injection Hx as <-. destruct (Hup _ _ E1) as (cl2 & E2 & E3 & E4).
            exists cl2. cbn. by rewrite E3, E4.
          + rewrite lookup_insert_ne in Hx by done. destruct (Hup _ _ Hx) as (cl2 & E2 & E3 & E4). eauto.
        - destruct (decide (x = c)) as [->|Hne]; [congruence|]. destruct (Hup _ _ Hx) as (cl2 & E2 & E3 & E4). eauto. }
      destruct (Hcl _ _ H1) as [H2|[-> (y & -> & ->)]].
      * destruct (ci_used _ C _ _ _ H0 H2) as [H3 H4]. split; [done|].
        case_decide as Hxc; [|done]. subst x. rewrite Hc in H0. injection H0 as <-. cbn [cl_up tail] in *.
        intros H5. apply H4. unfold call_ids in *. cbn. destruct m; try done. by right.
      * rewrite Hc in H0. injection H0 as <-. rewrite decide_True by done. cbn. by apply Hin.
  - destruct (n_clients n !! c) as [[s up down used]|] eqn:Hc; [|done].
    destruct down as [|m down]; [done|]. destruct (sstep _ _) as [s' r].
    assert (C1 : cinv (nset_clients (<[c := Client s' up down used]> (n_clients n)) n)).
    { constructor; [apply C|]. intros x cl q. unfold dtr. net_cbn. destruct (decide (x = c)) as [->|Hne].
      - rewrite lookup_insert. intros [= <-] H. cbn. apply (ci_used _ C _ _ _ Hc H).
      - rewrite lookup_insert_ne by done. apply C. }
    destruct r; [done| |]; constructor; apply C1.
  - destruct (broker_call _ _ _ _ _ any_oracle (BDisclose p) (nv_b _ _ Hn) Hk) as (b' & bo & s & s' & E & _).
    destruct (dealer_call _ _ _ _ _ _ any_oracle (DDisclose c) (nv_d _ _ Hn) Hk Logic.I)
      as (d' & do & t & t' & E2 & _ & _ & Ht2 & _).
    unfold call_broker, call_dealer. rewrite E. net_cbn. rewrite E2. net_cbn.
    constructor; unfold dtr; net_cbn; rewrite Ht2; cbn [called]; apply C.
Qed.
Lemma cinv_empty : cinv empty_net.
Proof. constructor; done. Qed.

Definition ginv (n : net) (k : nat) : Prop := ninv n k /\ cinv n.
Lemma ginv_step n k e : ginv n k -> N.of_nat k < two53 -> rules n e -> ginv (nstep n e) (S k).
Proof.
  intros [Hn C] Hk Hr. split; [|by eapply cinv_step]. apply ninv_step; try done. by apply cinv_uncalled.
Qed.
Lemma ginv_empty : ginv empty_net 0.
Proof. split; [apply ninv_empty|apply cinv_empty]. Qed.
Lemma ginv_run es : forall n k, ginv n k -> N.of_nat (k + length es) <= two53 -> follows n es -> ginv (nrun n es) (k + length es)%nat.
Proof.
  induction es as [|e es IH]; intros n k Hn Hk Hf.
  - cbn. by rewrite Nat.add_0_r.
  - destruct Hf as [Hr Hf]. cbn [nrun length] in *. replace (k + S (length es))%nat with (S k + length es)%nat by lia.
    apply IH; [|lia|done]. apply ginv_step; [done|lia|done].
Qed.
