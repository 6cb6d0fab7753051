(** Only the callee an invocation went to can answer it, if nobody answers what
    it has not read; when that callee is gone, the call is never answered. *)
From Verif Require Import Prelude Value Msg IdGen Types PathMatch Mutex Broker Dealer Session Network.
From Verif Require Import BrokerSpec BrokerFacts BrokerSim BrokerTrace BrokerProofs.
From Verif Require Import DealerSpec DealerFacts DealerCalls DealerSim DealerStep DealerProofs DealerPolite DealerShare DealerFinal.
From Verif Require Import NetworkSpec NetworkClient NetworkSync NetworkProofs NetworkCalls NetworkLocal NetworkOrigin NetworkFinal.
From Verif Require Import NetworkReplies NetworkRest NetworkComplete NetworkCompletion.

(** ** What a step does *)

Lemma ever_step n e c : c ∈ n_ever n -> c ∈ n_ever (nstep n e).
Proof.
  intros H. destruct e as [d|o x|x m|o x|x|p x]; cbn [nstep].
  - unfold call_broker, call_dealer. net_cbn. destruct (bstep _ _ _); net_cbn; destruct (dstep _ _ _); net_cbn; by right.
  - unfold call_broker, call_dealer. net_cbn. destruct (bstep _ _ _); net_cbn; by destruct (dstep _ _ _).
  - destruct (n_clients n !! x); [|done]. destruct (sstep _ _) as [s' r]. by destruct r.
  - destruct (n_clients n !! x) as [[s [|m up] down used]|]; [done| |done].
    destruct (n_clients (handle o x m n) !! x); net_cbn; by rewrite handle_ever.
  - destruct (n_clients n !! x) as [[s up [|m down] used]|]; [done| |done]. destruct (sstep _ _) as [s' r]. by destruct r.
  - unfold call_broker, call_dealer. net_cbn. destruct (bstep _ _ _); net_cbn; by destruct (dstep _ _ _).
Qed.

Lemma queue_step n k e x cl' : ninv n k -> N.of_nat k < two53 -> rules n e -> n_clients (nstep n e) !! x = Some cl' ->
  (cl_up cl' = [] /\ x ∉ n_ever n)
  \/ exists cl, n_clients n !! x = Some cl
     /\ ((cl_up cl' = cl_up cl /\ cl_used cl' = cl_used cl /\ forall o, e = NRoute o x -> cl_up cl = [])
         \/ (exists o m, e = NRoute o x /\ cl_up cl = m :: cl_up cl' /\ cl_used cl' = cl_used cl)
         \/ (exists m, e = NSend x m /\ cl_up cl' = cl_up cl ++ [m]
               /\ cl_used cl' = match request_of m with Some r => r :: cl_used cl | None => cl_used cl end)).
Proof.
  intros Hn Hk Hr. destruct e as [d|o c|c m|o c|c|p c].
  - cbn [nstep]. rewrite call_dealer_clients, call_broker_clients. net_cbn. destruct (decide (x = se_id d)) as [->|Hne].
    + rewrite lookup_insert. intros [= <-]. by left.
    + rewrite lookup_insert_ne by done. right. exists cl'. split; [done|]. by left.
  - cbn [nstep]. rewrite call_dealer_clients, call_broker_clients. net_cbn. intros [_ Hx]%lookup_delete_Some.
    right. exists cl'. split; [done|]. by left.
  - cbn [nstep]. destruct (n_clients n !! c) as [cl|] eqn:Hc.
    2:{ intros Hx. right. exists cl'. split; [done|]. by left. }
    destruct (sstep _ _) as [s' r]. destruct (decide (x = c)) as [->|Hne].
    + intros Hx. right. exists cl. split; [done|].
      destruct r; net_cbn; cbn in Hx; rewrite lookup_insert in Hx; injection Hx as <-; cbn [cl_up cl_used]; [|by left..].
      right; right. by exists m.
    + intros Hx. right. exists cl'. destruct r; cbn in Hx; rewrite lookup_insert_ne in Hx by done; (split; [done|]; by left).
  - destruct (n_clients n !! c) as [cl|] eqn:Hc.
    2:{ cbn [nstep]. rewrite Hc. intros Hx. right. exists cl'. split; [done|]. left. split; [done|]. split; [done|]. intros o' [= _ ->]. congruence. }
    destruct (cl_up cl) as [|m rest] eqn:Hu.
    { cbn [nstep]. rewrite Hc. destruct cl as [s0 up down used]. cbn in Hu. subst up.
      intros Hx. right. exists cl'. split; [done|]. left. split; [done|]. split; [done|]. intros o' [= _ ->].
      rewrite Hc in Hx. by injection Hx as <-. }
    rewrite (route_step _ _ _ _ _ _ Hc Hu). net_cbn. rewrite taken_lookup.
    assert (Hups : forall y cly, n_clients (handle o c m n) !! y = Some cly ->
      exists cl, n_clients n !! y = Some cl /\ cl_up cly = cl_up cl /\ cl_used cly = cl_used cl).
    { destruct (handle_effect n k o c m Hn Hk (Hr _ _ _ Hc Hu)) as [H _]. exact H. }
    case_decide as Hxc.
    + subst x. intros (cl1 & Hx & ->)%fmap_Some. destruct (Hups _ _ Hx) as (cl2 & Hx2 & E1 & E2).
      rewrite Hc in Hx2. injection Hx2 as <-. right. exists cl. split; [done|]. right; left.
      exists o, m. split; [done|]. cbn [cl_pop cl_up cl_used]. by rewrite E1, Hu.
    + intros Hx. destruct (Hups _ _ Hx) as (cl2 & Hx2 & E1 & E2). right. exists cl2. split; [done|]. left.
      split; [done|]. split; [done|]. intros o' [= _ ->]. done.
  - cbn [nstep]. destruct (n_clients n !! c) as [[s up [|m down] used]|] eqn:Hc.
    1,3: intros Hx; right; exists cl'; (split; [done|]); by left.
    destruct (sstep _ _) as [s' r]. destruct (decide (x = c)) as [->|Hne].
    + intros Hx. right. eexists. split; [done|]. left.
      destruct r; cbn in Hx; rewrite lookup_insert in Hx; by injection Hx as <-.
    + intros Hx. right. exists cl'. destruct r; cbn in Hx; rewrite lookup_insert_ne in Hx by done; (split; [done|]; by left).
  - cbn [nstep]. rewrite call_dealer_clients, call_broker_clients. intros Hx. right. exists cl'. split; [done|]. by left.
Qed.

Lemma called_in tr c call v to : (DReceive c (MCall call), DMsg (MInvocation v) to) ∈ tr -> called tr c (ca_request call) = true.
Proof.
  induction tr as [|[op out] tr IH]; [by intros ?%elem_of_nil|]. intros [[= <- <-]|H]%elem_of_cons.
  - cbn. by rewrite !N.eqb_refl.
  - specialize (IH H). cbn [called]. destruct op as [| | | |s m]; try done. destruct m; try done.
    destruct out as [| | |a to']; try done; [by rewrite IH, orb_true_r|]. destruct a; try done. by rewrite IH, orb_true_r.
Qed.

Lemma dtr_step n k e : ginv n k -> N.of_nat k < two53 -> rules n e ->
  dtr (nstep n e) = dtr n \/ exists op out, dtr (nstep n e) = (op, out) :: dtr n
    /\ (forall c m, op = DReceive c m -> exists o cl rest, e = NRoute o c /\ n_clients n !! c = Some cl /\ cl_up cl = m :: rest)
    /\ (forall v to, out = DMsg (MInvocation v) to -> to ∈ n_ever n /\
         forall op' v' to', (op', DMsg (MInvocation v') to') ∈ dtr n -> in_request v' < in_request v).
Proof.
  intros Hg Hk Hr. pose proof (proj1 Hg) as Hn. destruct e as [d|o c|c m|o c|c|p c]; cbn [nstep].
  - destruct (broker_call _ _ _ _ _ any_oracle (BAdd d) (nv_b _ _ Hn) Hk) as (b' & bo & s & s' & E & _).
    destruct (dealer_call _ _ _ _ _ _ any_oracle (DAdd d) (nv_d _ _ Hn) Hk Logic.I)
      as (d' & do & t & t' & E2 & _ & _ & Ht2 & _ & T & _).
    unfold call_broker, call_dealer, nset_ever, nset_clients. net_cbn. rewrite E. net_cbn. rewrite E2. net_cbn.
    right. eexists _, _. split; [exact Ht2|]. split; [done|]. intros v to ->. inversion T.
  - destruct (broker_call _ _ _ _ _ o (BRemove c) (nv_b _ _ Hn) Hk) as (b' & bo & s & s' & E & _).
    destruct (dealer_call _ _ _ _ _ _ o (DRemove c) (nv_d _ _ Hn) Hk Logic.I)
      as (d' & do & t & t' & E2 & _ & _ & Ht2 & _ & T & _).
    unfold call_broker, call_dealer, nset_ever, nset_clients. net_cbn. rewrite E. net_cbn. rewrite E2. net_cbn.
    right. eexists _, _. split; [exact Ht2|]. split; [done|]. intros v to ->. inversion T.
  - left. destruct (n_clients n !! c); [|done]. destruct (sstep _ _) as [s' r]. by destruct r.
  - destruct (n_clients n !! c) as [cl|] eqn:Hc; [|by left]. destruct cl as [s0 up down used].
    destruct up as [|m rest]; [by left|].
    pose proof (Hr _ _ _ Hc eq_refl) as Hpol.
    pose proof (cinv_uncalled _ (proj2 Hg)) as Hun.
    assert (Hgo : dtr (handle o c m n) = dtr n \/ exists op out, dtr (handle o c m n) = (op, out) :: dtr n
      /\ (forall c' m', op = DReceive c' m' -> exists o' cl rest, NRoute o c = NRoute o' c' /\ n_clients n !! c' = Some cl /\ cl_up cl = m' :: rest)
      /\ (forall v to, out = DMsg (MInvocation v) to -> to ∈ n_ever n /\
           forall op' v' to', (op', DMsg (MInvocation v') to') ∈ dtr n -> in_request v' < in_request v)).
    2:{ destruct (n_clients (handle o c m n) !! c); exact Hgo. }
    assert (Hdealer :
      let n' := match call_dealer o (DReceive c m) n with (n, Some (DMsg a to)) => post n a to | (n, _) => n end in
      exists op out, dtr n' = (op, out) :: dtr n
      /\ (forall c' m', op = DReceive c' m' -> exists o' cl rest, NRoute o c = NRoute o' c' /\ n_clients n !! c' = Some cl /\ cl_up cl = m' :: rest)
      /\ (forall v to, out = DMsg (MInvocation v) to -> to ∈ n_ever n /\
           forall op' v' to', (op', DMsg (MInvocation v') to') ∈ dtr n -> in_request v' < in_request v)).
    { cbv zeta. unfold call_dealer.
      destruct (dealer_call _ _ _ _ _ _ o _ (nv_d _ _ Hn) Hk Hpol)
        as (d' & out & s & s' & E & Hr' & Hph & Ht & I & T & I'). rewrite E.
      set (n1 := Net _ _ _ _ _ _ _ _ _ _).
      assert (H1 : dtr n1 = (DReceive c m, out) :: dtr n) by exact Ht.
      exists (DReceive c m), out. split; [|split].
      - destruct out as [e| |b|a to]; [done..|]. by rewrite post_dtr.
      - intros c' m' [= <- <-]. by eexists o, _, rest.
      - intros v to ->.
        assert (exists call, m = MCall call) as [call ->].
        { inversion T; subst; try done. by eexists. }
        assert (L : N.of_nat (length (n_dh n)) < two53) by (pose proof (dp_len _ _ _ _ _ _ (nv_d _ _ Hn)); lia).
        destruct (invocation_form _ _ _ _ _ _ _ _ _ L (dp_run _ _ _ _ _ _ (nv_d _ _ Hn)) E) as (d & who & Hp & _).
        split; [apply (nv_ever _ _ Hn), (dp_pres _ _ _ _ _ _ (nv_d _ _ Hn)), present_as_present; by exists d|].
        intros op' v' to' Hin.
        pose proof (invocation_id _ _ _ _ _ _ _ _ _ L (dp_run _ _ _ _ _ _ (nv_d _ _ Hn)) E) as Hi. cbv zeta in Hi.
        fold (dtr n) in Hi. unfold continues in Hi. pose proof (Hun c _ call rest Hc eq_refl) as Hc'.
        rewrite Hc', andb_false_r in Hi. apply used_bound in Hin. fold (dtr n) in Hin. lia. }
    destruct m; try (right; exact Hdealer); left; by apply handle_dtr.
  - left. destruct (n_clients n !! c) as [[s up [|m down] used]|]; [done| |done]. destruct (sstep _ _) as [s' r]. by destruct r.
  - destruct (broker_call _ _ _ _ _ any_oracle (BDisclose p) (nv_b _ _ Hn) Hk) as (b' & bo & s & s' & E & _).
    destruct (dealer_call _ _ _ _ _ _ any_oracle (DDisclose c) (nv_d _ _ Hn) Hk Logic.I)
      as (d' & do & t & t' & E2 & _ & _ & Ht2 & _ & T & _).
    unfold call_broker, call_dealer, nset_ever, nset_clients. net_cbn. rewrite E. net_cbn. rewrite E2. net_cbn.
    right. eexists _, _. split; [exact Ht2|]. split; [done|]. intros v to ->. inversion T.
Qed.

(** ** Every CALL reaches the dealer once, every invocation has one callee *)

Record dinv (n : net) : Prop := DInv {
  di_old : forall c call out, (DReceive c (MCall call), out) ∈ dtr n -> c ∈ n_ever n
    /\ forall cl, n_clients n !! c = Some cl -> ca_request call ∈ cl_used cl /\ ca_request call ∉ call_ids (cl_up cl);
  di_up : forall c cl, n_clients n !! c = Some cl -> NoDup (call_ids (cl_up cl))
    /\ forall r, r ∈ call_ids (cl_up cl) -> r ∈ cl_used cl;
  di_one : forall c call out call' out', (DReceive c (MCall call), out) ∈ dtr n -> (DReceive c (MCall call'), out') ∈ dtr n ->
    ca_request call' = ca_request call -> call' = call /\ out' = out;
  di_inv : forall op v k op' v' k', (op, DMsg (MInvocation v) k) ∈ dtr n -> (op', DMsg (MInvocation v') k') ∈ dtr n ->
    in_request v' = in_request v -> op' = op /\ k' = k;
  di_callee : forall op v k, (op, DMsg (MInvocation v) k) ∈ dtr n -> k ∈ n_ever n }.

Lemma call_ids_app q q' : call_ids (q ++ q') = call_ids q ++ call_ids q'.
Proof. apply omap_app. Qed.

Lemma dinv_step n k e : ginv n k -> N.of_nat k < two53 -> rules n e -> dinv n -> dinv (nstep n e).
Proof.
  intros Hg Hk Hr H. pose proof (proj1 Hg) as Hn.
  assert (Hever : forall c cl, n_clients n !! c = Some cl -> c ∈ n_ever n) by (intros c cl Hc; apply (nv_ever _ _ Hn); by rewrite Hc).
  assert (Hup : forall c cl', n_clients (nstep n e) !! c = Some cl' -> NoDup (call_ids (cl_up cl'))
    /\ forall r, r ∈ call_ids (cl_up cl') -> r ∈ cl_used cl').
  { intros c cl' Hc'. destruct (queue_step _ _ _ _ _ Hn Hk Hr Hc') as [[-> _]|(cl & Hc & [(-> & -> & _)|[(o & m & -> & E & ->)|(m & -> & -> & ->)]])].
    - split; [constructor|]. intros r Hr'. by apply elem_of_nil in Hr'.
    - by apply (di_up _ H _ _ Hc).
    - destruct (di_up _ H _ _ Hc) as [D1 D2]. rewrite E in D1, D2. change (m :: cl_up cl') with ([m] ++ cl_up cl') in D1, D2.
      rewrite call_ids_app in D1, D2. apply NoDup_app in D1 as (_ & _ & D1). split; [done|]. intros r Hr'. apply D2, elem_of_app. by right.
    - destruct (di_up _ H _ _ Hc) as [D1 D2]. specialize (Hr _ Hc). rewrite call_ids_app.
      assert (Hm : call_ids [m] = [] \/ exists r, call_ids [m] = [r] /\ request_of m = Some r).
      { destruct m; try (by left). right. by eexists. }
      destruct Hm as [->|(r & -> & Er)].
      + rewrite app_nil_r. split; [done|]. intros r Hr'. destruct (request_of m); [right|]; by apply D2.
      + rewrite Er. specialize (Hr _ Er). split.
        * apply NoDup_app. split; [done|]. split; [|apply NoDup_singleton]. intros q Hq ->%elem_of_list_singleton. by apply Hr, D2.
        * intros q [Hq| ->%elem_of_list_singleton]%elem_of_app; [right; by apply D2|by left]. }
  assert (Hold : forall c call out, (DReceive c (MCall call), out) ∈ dtr n ->
    forall cl', n_clients (nstep n e) !! c = Some cl' -> ca_request call ∈ cl_used cl' /\ ca_request call ∉ call_ids (cl_up cl')).
  { intros c call out Hin cl' Hc'. destruct (di_old _ H _ _ _ Hin) as [O1 O2].
    destruct (queue_step _ _ _ _ _ Hn Hk Hr Hc') as [[_ Hne]|(cl & Hc & [(-> & -> & _)|[(o & m & -> & E & ->)|(m & -> & -> & ->)]])].
    - done.
    - by apply O2.
    - destruct (O2 _ Hc) as [O3 O4]. split; [done|]. intros Hx. apply O4. rewrite E.
      change (m :: cl_up cl') with ([m] ++ cl_up cl'). rewrite call_ids_app, elem_of_app. by right.
    - destruct (O2 _ Hc) as [O3 O4]. specialize (Hr _ Hc). split; [destruct (request_of m); [by right|done]|].
      rewrite call_ids_app, elem_of_app. intros [Hx|Hx]; [done|]. destruct m; try (by apply elem_of_nil in Hx).
      apply elem_of_list_singleton in Hx. by apply (Hr _ eq_refl); rewrite <- Hx. }
  destruct (dtr_step _ _ _ Hg Hk Hr) as [E|(op & out & E & Hop & Hinv)]; constructor; try exact Hup; rewrite E.
  - intros c call out Hin. split; [by apply ever_step, (di_old _ H _ _ _ Hin)|by eapply Hold].
  - apply H.
  - apply H.
  - intros op v k0 Hin. by eapply ever_step, (di_callee _ H).
  - intros c call out'. intros [[= <- <-]|Hin]%elem_of_cons.
    + destruct (Hop _ _ eq_refl) as (o & cl & rest & -> & Hc & Hu). split; [by eapply ever_step, Hever|].
      intros cl' Hc'. destruct (di_up _ H _ _ Hc) as [D1 D2].
      destruct (queue_step _ _ _ _ _ Hn Hk Hr Hc') as [[_ Hne]|(cl2 & Hc2 & [(_ & _ & Hno)|[(o' & m & _ & E' & ->)|(m & [=] & _)]])].
      * by apply Hever in Hc.
      * rewrite Hc in Hc2. injection Hc2 as <-. specialize (Hno _ eq_refl). congruence.
      * rewrite Hc in Hc2. injection Hc2 as <-. rewrite Hu in E'. injection E' as <- <-. rewrite Hu in D1, D2.
        split; [apply D2; by left|]. cbn in D1. by apply NoDup_cons in D1 as [D1 _].
    + split; [by apply ever_step, (di_old _ H _ _ _ Hin)|by eapply Hold].
  - assert (Hnew : forall c call call' out', op = DReceive c (MCall call) -> (DReceive c (MCall call'), out') ∈ dtr n ->
      ca_request call' <> ca_request call).
    { intros c call call' out' -> Hin Heq. destruct (Hop _ _ eq_refl) as (o & cl & rest & -> & Hc & Hu).
      apply (proj2 (di_old _ H _ _ _ Hin) _ Hc). rewrite Hu, Heq. by left. }
    intros c call out1 call' out1' [E1|H1]%elem_of_cons [E2|H2]%elem_of_cons Heq.
    + split; congruence.
    + injection E1 as E1 ->. exfalso. eapply Hnew; [by symmetry|exact H2|done].
    + injection E2 as E2 ->. exfalso. eapply Hnew; [by symmetry|exact H1|done].
    + by eapply (di_one _ H).
  - intros op1 v k1 op2 v' k2 [E1|H1]%elem_of_cons [E2|H2]%elem_of_cons Heq.
    + split; congruence.
    + injection E1 as _ E1. pose proof (proj2 (Hinv _ _ (eq_sym E1)) _ _ _ H2). lia.
    + injection E2 as _ E2. pose proof (proj2 (Hinv _ _ (eq_sym E2)) _ _ _ H1). lia.
    + by eapply (di_inv _ H).
  - intros op1 v k1 [E1|H1]%elem_of_cons; apply ever_step.
    + injection E1 as _ E1. by destruct (Hinv _ _ (eq_sym E1)).
    + by eapply (di_callee _ H).
Qed.
Lemma dinv_run es : forall n k, ginv n k -> N.of_nat (k + length es) <= two53 -> follows n es -> dinv n -> dinv (nrun n es).
Proof.
  induction es as [|e es IH]; intros n k Hn Hk Hf H; [exact H|]. destruct Hf as [Hr Hf]. cbn [length] in Hk.
  assert (Hk' : N.of_nat k < two53) by lia. cbn [nrun].
  apply (IH _ (S k)); [by apply ginv_step|lia|done|]. by eapply dinv_step.
Qed.
Lemma dinv_empty : dinv empty_net.
Proof.
  constructor; intros; try (match goal with H : _ ∈ dtr empty_net |- _ => by apply elem_of_nil in H end).
  match goal with H : n_clients empty_net !! _ = Some _ |- _ => cbn in H; by rewrite lookup_empty in H end.
Qed.

(** ** Answers go back to where they were sent *)

Definition upto (n : net) (P : N -> N -> Prop) : Prop :=
  (forall c cl m i, n_clients n !! c = Some cl -> m ∈ cl_up cl -> answering m = Some i -> P c i)
  /\ (forall c m out i, (DReceive c m, out) ∈ dtr n -> answering m = Some i -> P c i).
Lemma upto_step n k e (P P' : N -> N -> Prop) : ginv n k -> N.of_nat k < two53 -> rules n e ->
  (forall c i, P c i -> P' c i) ->
  (forall c m i, e = NSend c m -> is_Some (n_clients n !! c) -> answering m = Some i -> P' c i) ->
  upto n P -> upto (nstep n e) P'.
Proof.
  intros Hg Hk Hr HP Hs [H1 H2]. pose proof (proj1 Hg) as Hn. split.
  - intros c cl' m i Hc' Hm Hi.
    destruct (queue_step _ _ _ _ _ Hn Hk Hr Hc') as [[E _]|(cl & Hc & [(E & _)|[(o & m' & -> & E & _)|(m' & -> & E & _)]])].
    + rewrite E in Hm. by apply elem_of_nil in Hm.
    + rewrite E in Hm. eapply HP, H1; eauto.
    + eapply HP, H1; [exact Hc| |exact Hi]. rewrite E. by right.
    + rewrite E in Hm. apply elem_of_app in Hm as [Hm|Hm]; [by eapply HP, H1|].
      apply elem_of_list_singleton in Hm. subst m'. eapply Hs; [done|by rewrite Hc|done].
  - intros c m out i. destruct (dtr_step _ _ _ Hg Hk Hr) as [->|(op & out' & -> & Hop & _)]; [by intros; eapply HP, H2|].
    intros [E|Hin]%elem_of_cons Hi; [|by eapply HP, H2]. injection E as <- <-.
    destruct (Hop _ _ eq_refl) as (o & cl & rest & _ & Hc & Hu). eapply HP, H1; [exact Hc| |exact Hi]. rewrite Hu. by left.
Qed.
Lemma upto_empty P : upto empty_net P.
Proof. split; [intros c cl m i Hc; cbn in Hc; by rewrite lookup_empty in Hc|]. intros c m out i Hin. by apply elem_of_nil in Hin. Qed.

Lemma heard_run es : forall n k log, ginv n k -> N.of_nat (k + length es) <= two53 -> follows n es -> honestly log n es ->
  upto n (fun c i => i ∈ inv_ids (log c)) -> upto (nrun n es) (fun c i => i ∈ inv_ids (log c ++ delivered c n es)).
Proof.
  induction es as [|e es IH]; intros n k log Hn Hk Hf Hh H.
  - cbn. destruct H as [H1 H2]. split; intros; rewrite app_nil_r; eauto.
  - destruct Hf as [Hr Hf], Hh as [Hh1 Hh]. cbn [length] in Hk. assert (Hk' : N.of_nat k < two53) by lia. cbn [nrun delivered].
    assert (H' : upto (nstep n e) (fun c i => i ∈ inv_ids (log c ++ delivers c n e))).
    { eapply upto_step; [exact Hn|done|done| | |exact H]; cbv beta.
      - intros c i Hi. rewrite inv_ids_app, elem_of_app. by left.
      - intros c m i -> Hc Hi. rewrite inv_ids_app, elem_of_app. left. by apply Hh1. }
    apply (IH _ (S k) (fun c => log c ++ delivers c n e)) in H'; [|by apply ginv_step|lia|done|done].
    destruct H' as [H1 H2]. split; intros; rewrite app_assoc; eauto.
Qed.
Lemma sent_run es : forall n k acc, ginv n k -> N.of_nat (k + length es) <= two53 -> follows n es ->
  upto n (fun c i => i ∈ acc c) -> upto (nrun n es) (fun c i => i ∈ (acc c ++ answers_sent c n es)).
Proof.
  induction es as [|e es IH]; intros n k acc Hn Hk Hf H.
  - cbn. destruct H as [H1 H2]. split; intros; rewrite app_nil_r; eauto.
  - destruct Hf as [Hr Hf]. cbn [length] in Hk. assert (Hk' : N.of_nat k < two53) by lia. cbn [nrun answers_sent].
    assert (H' : upto (nstep n e) (fun c i => i ∈ acc c ++ sends_answer c n e)).
    { eapply upto_step; [exact Hn|done|done| | |exact H]; cbv beta.
      - intros c i Hi. rewrite elem_of_app. by left.
      - intros c m i -> Hc Hi. rewrite elem_of_app. right. cbn [sends_answer]. rewrite N.eqb_refl, bool_decide_eq_true_2 by done.
        cbn [andb]. rewrite Hi. by left. }
    apply (IH _ (S k) (fun c => acc c ++ sends_answer c n e)) in H'; [|by apply ginv_step|lia|done].
    destruct H' as [H1 H2]. split; intros; rewrite app_assoc; eauto.
Qed.

Lemma inv_ids_in i q : i ∈ inv_ids q -> exists v, MInvocation v ∈ q /\ in_request v = i.
Proof. unfold inv_ids. rewrite elem_of_list_omap. intros (m & Hm & E). destruct m; try discriminate E. injection E as <-. by eexists. Qed.

(** Everything in the dealer's trace that answers invocation [in_request v]
    came from the session [v] went to. *)
Lemma answer_from es op v k s m out : N.of_nat (length es) <= two53 -> follows empty_net es -> honestly (fun _ => []) empty_net es ->
  (op, DMsg (MInvocation v) k) ∈ dtr (nrun empty_net es) -> (DReceive s m, out) ∈ dtr (nrun empty_net es) ->
  answering m = Some (in_request v) -> s = k /\ in_request v ∈ answers_sent k empty_net es.
Proof.
  intros Hb Hf Hh Hv Hm Ha.
  pose proof (proj2 (heard_run es _ _ _ ginv_empty Hb Hf Hh (upto_empty _)) _ _ _ _ Hm Ha) as Hr. cbn [app] in Hr.
  pose proof (proj2 (sent_run es _ _ (fun _ => []) ginv_empty Hb Hf (upto_empty _)) _ _ _ _ Hm Ha) as Hs. cbn [app] in Hs.
  apply inv_ids_in in Hr as (v' & Hin & Hi). apply (provenance es _ _ Hb Hf) in Hin. cbn in Hin.
  destruct Hin as (s' & call & d & who & _ & _ & _ & _ & _ & Hv').
  destruct (di_inv _ (dinv_run es _ _ ginv_empty Hb Hf dinv_empty) _ _ _ _ _ _ Hv Hv' Hi) as [_ ->]. done.
Qed.

Lemma only_callee es c call v k : N.of_nat (length es) <= two53 -> follows empty_net es -> honestly (fun _ => []) empty_net es ->
  (DReceive c (MCall call), DMsg (MInvocation v) k) ∈ dtr (nrun empty_net es) ->
  ca_request call ∈ answer_ids (delivered c empty_net es) -> in_request v ∈ answers_sent k empty_net es.
Proof.
  intros Hb Hf Hh Hv Hr. pose proof (dinv_run es _ _ ginv_empty Hb Hf dinv_empty) as D.
  unfold answer_ids in Hr. apply elem_of_list_omap in Hr as (a & Ha & Er).
  apply (provenance es _ _ Hb Hf) in Ha. destruct a; try discriminate Er; cbn [explained] in Ha.
  - destruct (N.eqb_spec (er_type m) tCall) as [Et|]; [|done]. injection Er as Er.
    destruct Ha as [(call' & _ & H1 & H2)|[(reg & _ & _ & H2)|(call' & v' & k' & s & y & _ & H1 & _ & H2 & H3 & H4 & H5)]].
    + assert (ca_request call' = ca_request call) as Hq by (injection H2 as ->; exact Er).
      destruct (di_one _ D _ _ _ _ _ Hv H1 Hq) as [_ Hx]. congruence.
    + injection H2 as ->. cbn in Et. discriminate Et.
    + assert (ca_request call' = ca_request call) as Hq by (subst m; exact Er).
      destruct (di_one _ D _ _ _ _ _ Hv H1 Hq) as [_ [= -> ->]].
      eapply answer_from; [done|done|done|exact Hv|exact H2|]. cbn. rewrite H3. cbn. by f_equal.
  - destruct (says _ _); [done|]. injection Er as Er.
    destruct Ha as (call' & v' & k' & s & y & d & _ & H1 & _ & H2 & H3 & _ & _ & H4).
    assert (ca_request call' = ca_request call) as Hq.
    { rewrite <- Er, H4. unfold result_for. by case_match. }
    destruct (di_one _ D _ _ _ _ _ Hv H1 Hq) as [_ [= -> ->]].
    eapply answer_from; [done|done|done|exact Hv|exact H2|]. cbn. by f_equal.
Qed.

(** ** Gone is gone *)

Lemma gone_step n k e c : ninv n k -> rules n e -> c ∈ n_ever n -> n_clients n !! c = None ->
  n_clients (nstep n e) !! c = None /\ sends_answer c n e = [].
Proof.
  intros Hn Hr Hev Hc. destruct e as [d|o x|x m|o x|x|p x].
  - split; [|done]. cbn [nstep]. rewrite call_dealer_clients, call_broker_clients. net_cbn.
    rewrite lookup_insert_ne; [done|]. intros <-. by apply Hr.
  - split; [|done]. cbn [nstep]. rewrite call_dealer_clients, call_broker_clients. net_cbn. apply lookup_delete_None. by right.
  - split.
    + cbn [nstep]. destruct (n_clients n !! x) as [cl|] eqn:Hx; [|done]. assert (c <> x) by congruence.
      destruct (sstep _ _) as [s' r]. destruct r; net_cbn; by rewrite lookup_insert_ne.
    + cbn [sends_answer]. destruct (N.eqb_spec x c) as [->|]; [|done]. by rewrite Hc, bool_decide_eq_false_2 by (by intros [? ?]).
  - split; [|done]. destruct (n_clients n !! x) as [cl|] eqn:Hx; [|by cbn [nstep]; rewrite Hx].
    assert (Hcx : c <> x) by congruence. destruct (cl_up cl) as [|m rest] eqn:Hu.
    + cbn [nstep]. rewrite Hx. destruct cl as [s0 up down used]. cbn in Hu. by subst up.
    + rewrite (route_step _ _ _ _ _ _ Hx Hu). net_cbn. rewrite taken_lookup, decide_False by done.
      pose proof (f_equal (fun q => q !! c) (handle_ups o x m n)) as E. unfold ups in E. rewrite !lookup_fmap, Hc in E.
      by destruct (n_clients (handle o x m n) !! c).
  - split; [|done]. cbn [nstep]. destruct (n_clients n !! x) as [[s up [|m down] used]|] eqn:Hx; [done| |done].
    assert (c <> x) by congruence. destruct (sstep _ _) as [s' r]. destruct r; net_cbn; by rewrite lookup_insert_ne.
  - split; [|done]. cbn [nstep]. by rewrite call_dealer_clients, call_broker_clients.
Qed.
Lemma gone_run es c : forall n k, ginv n k -> N.of_nat (k + length es) <= two53 -> follows n es ->
  c ∈ n_ever n -> n_clients n !! c = None -> answers_sent c n es = [].
Proof.
  induction es as [|e es IH]; intros n k Hn Hk Hf Hev Hc; [done|]. destruct Hf as [Hr Hf]. cbn [length] in Hk.
  destruct (gone_step _ _ _ _ (proj1 Hn) Hr Hev Hc) as [H1 H2]. cbn [answers_sent]. rewrite H2.
  apply (IH _ (S k)); [|lia|done|by apply ever_step|done]. apply ginv_step; [done|lia|done].
Qed.
Lemma answers_sent_app c es1 : forall n es2, answers_sent c n (es1 ++ es2) = answers_sent c n es1 ++ answers_sent c (nrun n es1) es2.
Proof. induction es1 as [|e es1 IH]; intros n es2; cbn [app nrun answers_sent]; [done|]. by rewrite IH, app_assoc. Qed.

Lemma dtr_grows es : forall n k x, ginv n k -> N.of_nat (k + length es) <= two53 -> follows n es -> x ∈ dtr n -> x ∈ dtr (nrun n es).
Proof.
  induction es as [|e es IH]; intros n k x Hn Hk Hf Hx; [done|]. destruct Hf as [Hr Hf]. cbn [length] in Hk.
  assert (Hk' : N.of_nat k < two53) by lia. cbn [nrun].
  apply (IH _ (S k)); [by apply ginv_step|lia|done|].
  destruct (dtr_step _ _ _ Hn Hk' Hr) as [->|(op & out & -> & _)]; [done|by right].
Qed.

Lemma never_answered es es' c call v k : N.of_nat (length (es ++ es')) <= two53 -> follows empty_net (es ++ es') ->
  honestly (fun _ => []) empty_net (es ++ es') ->
  (DReceive c (MCall call), DMsg (MInvocation v) k) ∈ dtr (nrun empty_net es) ->
  n_clients (nrun empty_net es) !! k = None -> in_request v ∉ answers_sent k empty_net es ->
  ca_request call ∉ answer_ids (delivered c empty_net (es ++ es')).
Proof.
  intros Hb Hf Hh Hv Hk Hno Hr. pose proof Hf as [Hf1 Hf2]%follows_app. rewrite app_length in Hb.
  assert (Hb1 : N.of_nat (length es) <= two53) by lia.
  pose proof (ginv_run es empty_net 0 ginv_empty Hb1 Hf1) as Hg.
  assert (Hv' : (DReceive c (MCall call), DMsg (MInvocation v) k) ∈ dtr (nrun empty_net (es ++ es'))).
  { rewrite nrun_app. eapply dtr_grows; [exact Hg|cbn [Nat.add]; lia|done|done]. }
  assert (Hb2 : N.of_nat (length (es ++ es')) <= two53) by (rewrite app_length; lia).
  apply Hno. pose proof (only_callee (es ++ es') c call v k Hb2 Hf Hh Hv' Hr) as Hs.
  rewrite answers_sent_app, (gone_run es' k _ _ Hg), app_nil_r in Hs; [done|cbn [Nat.add]; lia|done| |done].
  by eapply (di_callee _ (dinv_run es _ _ ginv_empty Hb1 Hf1 dinv_empty)).
Qed.
