(** Clients that look at their own session only keep the rules of NetworkSpec.v. *)
From Verif Require Import Prelude Value Msg IdGen Types PathMatch Mutex Broker Dealer Session Network.
From Verif Require Import BrokerSpec BrokerFacts BrokerSim BrokerTrace BrokerProofs.
From Verif Require Import DealerSpec DealerFacts DealerCalls DealerSim DealerStep DealerProofs DealerPolite DealerShare.
From Verif Require Import NetworkSpec NetworkClient NetworkSync NetworkProofs NetworkCalls.

(** ** What reading messages does to the record of UNREGISTERs *)

Lemma acc_unregs s a s' : acc s a = Some s' -> cs_unregisters s' ⊆ cs_unregisters s.
Proof.
  intros H.
  assert (cs_unregisters s' = cs_unregisters s \/ exists r, cs_unregisters s' = delete r (cs_unregisters s)) as [->|[r ->]].
  2:{ done. }
  2:{ apply delete_subseteq. }
  destruct a; cbn [acc] in H; try discriminate H;
    unfold pop_call, pop_register, pop_publish in H;
    repeat (match type of H with
            | context [if ?b then _ else _] => destruct b
            | context [match ?x with Some _ => _ | None => _ end] => destruct x
            end; cbn [fmap option_fmap option_map] in H);
    try discriminate H; injection H as <-; try (by left); right; by eexists.
Qed.
Lemma acc_keeps s a s' g : acc s a = Some s' -> g ∈ cs_registrations s ->
  (forall r, cs_unregisters s !! r <> Some g) -> g ∈ cs_registrations s'.
Proof.
  intros H Hg Hno.
  destruct a; cbn [acc] in H; try discriminate H;
    unfold pop_call, pop_register, pop_publish in H;
    repeat (match type of H with
            | context [if ?b then _ else _] => destruct b
            | context [match ?x with Some _ => _ | None => _ end] => destruct x eqn:?
            end; cbn [fmap option_fmap option_map] in H);
    try discriminate H; injection H as <-; cbn; try done.
  - set_solver.
  - apply elem_of_difference. split; [done|]. rewrite elem_of_singleton. intros ->. by eapply Hno.
Qed.
Lemma replay_unregs q : forall s s', replay s q = Some s' -> cs_unregisters s' ⊆ cs_unregisters s.
Proof.
  induction q as [|a q IH]; intros s s' H.
  - cbn in H. by injection H as ->.
  - apply replay_cons in H as (s1 & E & H). etrans; [by eapply IH|]. by eapply acc_unregs.
Qed.
Lemma replay_keeps q : forall s s' g, replay s q = Some s' -> g ∈ cs_registrations s ->
  (forall r, cs_unregisters s !! r <> Some g) -> g ∈ cs_registrations s'.
Proof.
  induction q as [|a q IH]; intros s s' g H Hg Hno.
  - cbn in H. by injection H as ->.
  - apply replay_cons in H as (s1 & E & H). eapply IH; [done|by eapply acc_keeps|].
    intros r Hr. eapply Hno. eapply lookup_weaken; [exact Hr|]. by eapply acc_unregs.
Qed.

(** ** What a step does to the queues towards the router *)

Definition unreg_ids (q : list message) : list N :=
  omap (fun m => match m with MUnregister u => Some (ur_registration u) | _ => None end) q.

(** ** The invariant *)

Record linv (n : net) : Prop := LInv {
  li_reg : forall c cl m, n_clients n !! c = Some cl -> MRegister m ∈ cl_up cl ->
      invoke_policy m = "" \/ invoke_policy m = "single";
  li_unreg : forall c cl u, n_clients n !! c = Some cl -> MUnregister u ∈ cl_up cl -> regs (dtr n) c (ur_registration u);
  li_once : forall c cl, n_clients n !! c = Some cl -> NoDup (unreg_ids (cl_up cl));
  li_sole : forall x y p q g, owns (dtr n) x p g -> owns (dtr n) y q g -> x = y }.

Lemma linv_rules n k e : ninv n k -> linv n -> careful n e -> rules n e.
Proof.
  intros Hn L H. destruct e as [d|o c|c m|o c|c|p c]; cbn in *; try done.
  - intros cl Hc. by destruct (H cl Hc).
  - intros cl m rest Hc Hu. destruct m; cbn [polite]; try done.
    + intros _. apply (dp_pres _ _ _ _ _ _ (nv_d _ _ Hn)). by rewrite Hc.
    + intros _. eapply (li_reg _ L); [exact Hc|]. rewrite Hu. by left.
    + left. destruct (li_unreg _ L c cl m Hc) as [p Hp]; [rewrite Hu; by left|]. exists p. split; [done|].
      intros x q Hx. by eapply (li_sole _ L).
Qed.

Lemma owns_sole tr d s op out d' s' : drep tr d s -> rstep s op out s' -> drep ((op, out) :: tr) d' s' ->
  (forall c m, op = DReceive c (MRegister m) -> invoke_policy m = "" \/ invoke_policy m = "single") ->
  (forall x y p q g, owns tr x p g -> owns tr y q g -> x = y) ->
  forall x y p q g, owns ((op, out) :: tr) x p g -> owns ((op, out) :: tr) y q g -> x = y.
Proof.
  intros I T I' Hop Hs.
  assert (Hreg : forall x p g, owns ((op, out) :: tr) x p g ->
     (exists m, op = DReceive x (MRegister m) /\ out = DMsg (MRegistered (Registered (rg_request m) g)) x
        /\ forall y q, ~ owns tr y q g) \/ owns tr x p g).
  { intros x p g [[pol H]|[H _]]; [|by right]. left.
    destruct op as [| | | |c m]; try done. destruct m; try done. destruct out as [| | |a to]; try done. destruct a; try done.
    destruct H as (-> & _ & _ & H & ->). cbn in H.
    inversion T as [| | | | | |sid m1 g1 dead Hs1 Hrow Hmax Hd|sid m1 r Hs1 Hrow Hi1 Hi2 Hi3| | | | | | |]; subst; [| |done].
    - exists m. split; [done|]. split; [done|]. intros y q (r & Hr & E & _)%(dp_owns _ _ _ I).
      pose proof (Hmax _ _ Hr). cbn in E. lia.
    - exfalso. destruct (Hop _ _ eq_refl); congruence. }
  intros x y p q g Hx Hy.
  destruct (Hreg _ _ _ Hx) as [(m & -> & -> & Hno)|Hx']; destruct (Hreg _ _ _ Hy) as [(m' & E & E' & Hno')|Hy'].
  - congruence.
  - by apply Hno in Hy'.
  - by apply Hno' in Hx'.
  - by eapply Hs.
Qed.

(** The dealer's trace after an event that hands no message to it. *)
Lemma linv_quiet n n' : linv n ->
  (forall x cl', n_clients n' !! x = Some cl' -> cl_up cl' = [] \/ exists cl, n_clients n !! x = Some cl /\ cl_up cl' = cl_up cl) ->
  (forall x g, is_Some (n_clients n' !! x) -> regs (dtr n) x g -> regs (dtr n') x g) ->
  (forall x p g, owns (dtr n') x p g -> owns (dtr n) x p g) -> linv n'.
Proof.
  intros L Hup Hr Ho. constructor.
  - intros c cl m Hc Hm. destruct (Hup _ _ Hc) as [E|(cl0 & Hc0 & E)]; rewrite E in Hm; [by apply elem_of_nil in Hm|].
    by eapply (li_reg _ L).
  - intros c cl m Hc Hm. destruct (Hup _ _ Hc) as [E|(cl0 & Hc0 & E)]; rewrite E in Hm; [by apply elem_of_nil in Hm|].
    apply Hr; [by rewrite Hc|]. by eapply (li_unreg _ L).
  - intros c cl Hc. destruct (Hup _ _ Hc) as [E|(cl0 & Hc0 & E)]; rewrite E; [constructor|]. by eapply (li_once _ L).
  - intros x y p q g Hx Hy. eapply (li_sole _ L); by apply Ho.
Qed.

Lemma linv_join n k d : ninv n k -> N.of_nat k < two53 -> linv n -> linv (nstep n (NJoin d)).
Proof.
  intros Hn Hk L. cbn [nstep].
  destruct (broker_call _ _ _ _ _ any_oracle (BAdd d) (nv_b _ _ Hn) Hk)
    as (b' & bo & s & s' & E & _).
  destruct (dealer_call _ _ _ _ _ _ any_oracle (DAdd d) (nv_d _ _ Hn) Hk Logic.I)
    as (d' & do & t & t' & E2 & Hr2 & Hph2 & Ht2 & J & T2 & J').
  unfold call_broker, call_dealer, nset_ever, nset_clients. net_cbn. rewrite E. net_cbn. rewrite E2. net_cbn.
  apply (linv_quiet n); [done|..].
  - net_cbn. intros x cl'. destruct (decide (x = se_id d)) as [->|Hne].
    + rewrite lookup_insert. intros [= <-]. by left.
    + rewrite lookup_insert_ne by done. intros H. right. eauto.
  - intros x g _. unfold dtr at 2. net_cbn. rewrite Ht2. apply regs_quiet; cbn; destruct do; tauto.
  - intros x p g. unfold dtr at 1. net_cbn. rewrite Ht2. cbn [owns is_registered]. intros [[? []]|[H _]]. exact H.
Qed.
Lemma linv_leave n k o c : ninv n k -> N.of_nat k < two53 -> linv n -> linv (nstep n (NLeave o c)).
Proof.
  intros Hn Hk L. cbn [nstep].
  destruct (broker_call _ _ _ _ _ o (BRemove c) (nv_b _ _ Hn) Hk)
    as (b' & bo & s & s' & E & _).
  destruct (dealer_call _ _ _ _ _ _ o (DRemove c) (nv_d _ _ Hn) Hk Logic.I)
    as (d' & do & t & t' & E2 & Hr2 & Hph2 & Ht2 & J & T2 & J').
  unfold call_broker, call_dealer, nset_ever, nset_clients. net_cbn. rewrite E. net_cbn. rewrite E2. net_cbn.
  apply (linv_quiet n); [done|..].
  - net_cbn. intros x cl'. destruct (decide (x = c)) as [->|Hne]; [by rewrite lookup_delete|].
    rewrite lookup_delete_ne by done. intros H. right. eauto.
  - net_cbn. intros x g Hx. assert (x <> c) as Hne by (intros ->; rewrite lookup_delete in Hx; by destruct Hx).
    unfold dtr at 2. net_cbn. rewrite Ht2. apply regs_quiet; cbn; [tauto|]. destruct do; try tauto. congruence.
  - intros x p g. unfold dtr at 1. net_cbn. rewrite Ht2. cbn [owns is_registered]. intros [[? []]|[H _]]. exact H.
Qed.
Lemma linv_disclose n k p c : ninv n k -> N.of_nat k < two53 -> linv n -> linv (nstep n (NDisclose p c)).
Proof.
  intros Hn Hk L. cbn [nstep].
  destruct (broker_call _ _ _ _ _ any_oracle (BDisclose p) (nv_b _ _ Hn) Hk)
    as (b' & bo & s & s' & E & _).
  destruct (dealer_call _ _ _ _ _ _ any_oracle (DDisclose c) (nv_d _ _ Hn) Hk Logic.I)
    as (d' & do & t & t' & E2 & Hr2 & Hph2 & Ht2 & J & T2 & J').
  unfold call_broker, call_dealer. rewrite E. net_cbn. rewrite E2. net_cbn.
  apply (linv_quiet n); [done|..].
  - net_cbn. intros x cl' H. right. eauto.
  - intros x g _. unfold dtr at 2. net_cbn. rewrite Ht2. apply regs_quiet; cbn; destruct do; tauto.
  - intros x q g. unfold dtr at 1. net_cbn. rewrite Ht2. cbn [owns is_registered]. intros [[? []]|[H _]]. exact H.
Qed.
Lemma linv_clients n cls : linv n -> same_ups (n_clients n) cls -> linv (nset_clients cls n).
Proof.
  intros L H. apply (linv_quiet n); [done| |done|done]. intros x cl' Hx. right. destruct (H _ _ Hx) as (cl & ? & ? & _). eauto.
Qed.
Lemma linv_deliver n c : linv n -> linv (nstep n (NDeliver c)).
Proof.
  intros L. cbn [nstep]. destruct (n_clients n !! c) as [[s up down used]|] eqn:Hc; [|done].
  destruct down as [|m down]; [done|]. destruct (sstep _ _) as [s' r].
  assert (L1 : linv (nset_clients (<[c := Client s' up down used]> (n_clients n)) n)).
  { apply linv_clients; [done|]. intros x cl'. destruct (decide (x = c)) as [->|Hne].
    - rewrite lookup_insert. intros [= <-]. eauto.
    - rewrite lookup_insert_ne by done. eauto. }
  destruct r; [done| |]; (apply (linv_quiet _ _ L1); [|done|done]); intros x cl' Hx; right; eauto.
Qed.

Lemma linv_send n k c m : ninv n k -> linv n -> careful n (NSend c m) -> linv (nstep n (NSend c m)).
Proof.
  intros Hn L Hca. cbn [nstep]. destruct (n_clients n !! c) as [cl|] eqn:Hc; [|done].
  destruct (Hca cl Hc) as [_ Hm].
  assert (Herr : forall s', linv (nset_clients (<[c := Client s' (cl_up cl) (cl_down cl) (cl_used cl)]> (n_clients n)) n)).
  { intros s'. apply linv_clients; [done|]. intros x cl'. destruct (decide (x = c)) as [->|Hne].
    - rewrite lookup_insert. intros [= <-]. eauto.
    - rewrite lookup_insert_ne by done. eauto. }
  destruct (sstep (cl_session cl) (SSend (Ok "") m)) as [s' [x|e|e]] eqn:E; [|apply Herr..].
  destruct (nv_sync _ _ Hn _ _ Hc) as [s1 I1].
  assert (Hheld : forall u, m = MUnregister u -> regs (dtr n) c (ur_registration u) /\ ur_registration u ∉ unreg_ids (cl_up cl)).
  { intros u ->. destruct Hm as [Hin Hno]. split.
    - apply (is_regs _ _ _ _ _ I1). by eapply replay_keeps; [apply (is_replay _ _ _ _ _ I1)|..].
    - unfold unreg_ids. rewrite elem_of_list_omap. intros (a & Ha & Ea). destruct a as [| | | | | | | | | | | | | | | | | | | | | | |]; try discriminate.
      injection Ea as Ea. apply (Hno (ur_request m)). rewrite <- Ea.
      eapply lookup_weaken; [by apply (is_unregs _ _ _ _ _ I1)|]. eapply replay_unregs, (is_replay _ _ _ _ _ I1). }
  set (used := match request_of m with Some r => _ | None => _ end).
  assert (Hcl : forall y cl', <[c := Client s' (cl_up cl ++ [m]) (cl_down cl) used]> (n_clients n) !! y = Some cl' ->
     (y = c /\ cl_up cl' = cl_up cl ++ [m]) \/ n_clients n !! y = Some cl').
  { intros y cl'. destruct (decide (y = c)) as [->|Hne].
    - rewrite lookup_insert. intros [= <-]. by left.
    - rewrite lookup_insert_ne by done. by right. }
  constructor; net_cbn.
  - intros y cl' r Hy Hr. destruct (Hcl _ _ Hy) as [[-> Eu]|Hy']; [|by eapply (li_reg _ L)].
    rewrite Eu, elem_of_app, elem_of_list_singleton in Hr. destruct Hr as [Hr|<-]; [by eapply (li_reg _ L)|done].
  - intros y cl' u Hy Hr. destruct (Hcl _ _ Hy) as [[-> Eu]|Hy']; [|by eapply (li_unreg _ L)].
    rewrite Eu, elem_of_app, elem_of_list_singleton in Hr. destruct Hr as [Hr|<-]; [by eapply (li_unreg _ L)|by apply Hheld].
  - intros y cl' Hy. destruct (Hcl _ _ Hy) as [[-> Eu]|Hy']; [|by eapply (li_once _ L)].
    rewrite Eu. unfold unreg_ids. rewrite omap_snoc. apply NoDup_app. split; [by eapply (li_once _ L)|].
    destruct m; (split; [|first [apply NoDup_singleton|apply NoDup_nil; exact Logic.I]]); intros g Hg Hin; try (by apply elem_of_nil in Hin); try done.
    apply elem_of_list_singleton in Hin. subst g. by apply (proj2 (Hheld _ eq_refl)).
  - apply (li_sole _ L).
Qed.

Lemma linv_route n k o c : ninv n k -> N.of_nat k < two53 -> linv n -> linv (nstep n (NRoute o c)).
Proof.
  intros Hn Hk L. cbn [nstep]. destruct (n_clients n !! c) as [[s0 up down used]|] eqn:Hc; [|done].
  destruct up as [|m rest]; [done|].
  assert (Hpol : polite (dtr n) (DReceive c m)).
  { apply (linv_rules n k (NRoute o c) Hn L Logic.I _ _ rest Hc). done. }
  destruct (handle_effect n k o c m Hn Hk Hpol) as [Hup Htr]. set (n1 := handle o c m n) in *.
  assert (Hpop : forall y cl', n_clients (match n_clients n1 !! c with
      | Some cl => nset_clients (<[c := Client (cl_session cl) (tail (cl_up cl)) (cl_down cl) (cl_used cl)]> (n_clients n1)) n1
      | None => n1 end) !! y = Some cl' ->
      exists cl, n_clients n !! y = Some cl /\ cl_up cl = (if decide (y = c) then [m] else []) ++ cl_up cl').
  { intros y cl'. destruct (n_clients n1 !! c) as [cl|] eqn:E1.
    - cbn. destruct (decide (y = c)) as [->|Hne].
      + rewrite lookup_insert. intros [= <-]. destruct (Hup _ _ E1) as (cl2 & E2 & E3 & _). exists cl2. split; [done|].
        rewrite E2 in Hc. injection Hc as ->. cbn in *. by rewrite E3.
      + rewrite lookup_insert_ne by done. intros H. destruct (Hup _ _ H) as (cl2 & E2 & E3 & _). eauto.
    - intros H. destruct (decide (y = c)) as [->|Hne]; [congruence|]. destruct (Hup _ _ H) as (cl2 & E2 & E3 & _). eauto. }
  assert (Hd : dtr (match n_clients n1 !! c with
      | Some cl => nset_clients (<[c := Client (cl_session cl) (tail (cl_up cl)) (cl_down cl) (cl_used cl)]> (n_clients n1)) n1
      | None => n1 end) = dtr n1) by (by destruct (n_clients n1 !! c)).
  set (n2 := match n_clients n1 !! c with Some cl => _ | None => n1 end) in *.
  assert (Hregs : forall y cl' u, n_clients n2 !! y = Some cl' -> MUnregister u ∈ cl_up cl' ->
     regs (dtr n1) y (ur_registration u)).
  { intros y cl' u Hy Hu. destruct (Hpop _ _ Hy) as (cl & Hcl & Eu).
    assert (Hold : regs (dtr n) y (ur_registration u)).
    { eapply (li_unreg _ L); [exact Hcl|]. rewrite Eu. apply elem_of_app. by right. }
    destruct Htr as [[-> _]|(out & s & s' & d' & -> & I & T & I')]; [done|].
    destruct Hold as [p Hp]. exists p. cbn [owns]. right. split; [done|].
    destruct m; try (cbn [is_unregistered]; destruct out; tauto). cbn [is_unregistered]. destruct out as [| | |a to]; try tauto. destruct a; try tauto.
    intros [-> E]. pose proof (li_once _ L _ _ Hcl) as Hnd. rewrite Eu, decide_True in Hnd by done.
    unfold unreg_ids in Hnd. cbn [app omap list_omap] in Hnd. apply NoDup_cons in Hnd as [Hnd _]. apply Hnd.
    apply elem_of_list_omap. exists (MUnregister u). split; [done|]. by rewrite E. }
  constructor; rewrite ?Hd; try done.
  - intros y cl' r Hy Hr. destruct (Hpop _ _ Hy) as (cl & Hcl & Eu). eapply (li_reg _ L); [exact Hcl|].
    rewrite Eu. apply elem_of_app. by right.
  - intros y cl' Hy. destruct (Hpop _ _ Hy) as (cl & Hcl & Eu). pose proof (li_once _ L _ _ Hcl) as Hnd.
    rewrite Eu in Hnd. unfold unreg_ids in *. rewrite omap_app in Hnd. by apply NoDup_app in Hnd as (_ & _ & ?).
  - destruct Htr as [[-> _]|(out & s & s' & d' & -> & I & T & I')]; [apply (li_sole _ L)|].
    eapply owns_sole; [done|done|done| |apply (li_sole _ L)].
    intros c' r [= <- ->]. eapply (li_reg _ L); [exact Hc|]. by left.
Qed.

Lemma linv_step n k e : ninv n k -> N.of_nat k < two53 -> linv n -> careful n e -> linv (nstep n e).
Proof.
  intros Hn Hk L H. destruct e.
  - by eapply linv_join.
  - by eapply linv_leave.
  - by eapply linv_send.
  - by eapply linv_route.
  - by eapply linv_deliver.
  - by eapply linv_disclose.
Qed.
Lemma linv_empty : linv empty_net.
Proof. constructor; cbn; try done; intros c cl; rewrite lookup_empty; done. Qed.

Lemma careful_follows es : N.of_nat (length es) <= two53 -> carefully empty_net es -> follows empty_net es.
Proof.
  assert (K : forall es n k, ginv n k -> linv n -> N.of_nat (k + length es) <= two53 -> carefully n es -> follows n es).
  { clear. induction es as [|e es IH]; intros n k Hn L Hk H; [done|]. destruct H as [H1 H2]. cbn [length] in Hk.
    assert (Hr : rules n e) by (eapply linv_rules; [apply Hn|done|done]). split; [done|].
    eapply (IH _ (S k)); [apply ginv_step; [done|lia|done]|eapply linv_step; [apply Hn|lia|done|done]|lia|done]. }
  intros Hl H. eapply (K es empty_net 0%nat); [apply ginv_empty|apply linv_empty|cbn; lia|done].
Qed.
