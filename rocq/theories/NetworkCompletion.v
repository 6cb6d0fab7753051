(** Calls are answered when callees do their part. *)
From Verif Require Import Prelude Value Msg IdGen Types PathMatch Mutex Broker Dealer Session Network.
From Verif Require Import BrokerSpec BrokerFacts BrokerSim BrokerTrace BrokerProofs.
From Verif Require Import DealerSpec DealerFacts DealerCalls DealerSim DealerStep DealerProofs DealerPolite DealerShare DealerFinal.
From Verif Require Import NetworkSpec NetworkClient NetworkSync NetworkProofs NetworkCalls NetworkLocal NetworkOrigin NetworkFinal.
From Verif Require Import NetworkReplies NetworkRest NetworkComplete.

(** ** What handling a message does *)

(** Queues towards the router stay, queues towards clients grow. *)
Definition kept (cls cls' : gmap N client) : Prop :=
  forall x cl, cls !! x = Some cl -> exists cl' extra, cls' !! x = Some cl'
    /\ cl_up cl' = cl_up cl /\ cl_down cl' = cl_down cl ++ extra.
Lemma kept_refl cls : kept cls cls.
Proof. intros x cl H. exists cl, []. by rewrite app_nil_r. Qed.
Lemma kept_trans a b c : kept a b -> kept b c -> kept a c.
Proof.
  intros H1 H2 x cl Hx. destruct (H1 _ _ Hx) as (cl1 & e1 & Hx1 & E1 & F1). destruct (H2 _ _ Hx1) as (cl2 & e2 & Hx2 & E2 & F2).
  exists cl2, (e1 ++ e2). split; [done|]. split; [congruence|]. by rewrite F2, F1, app_assoc.
Qed.
Lemma kept_post n m to : kept (n_clients n) (n_clients (post n m to)).
Proof.
  unfold post. destruct (n_clients n !! to) as [cl|] eqn:E; [|apply kept_refl].
  intros x cl'. cbn. destruct (decide (x = to)) as [->|Hne].
  - rewrite E, lookup_insert. intros [= <-]. by exists (cl_post m cl), [m].
  - rewrite lookup_insert_ne by done. apply kept_refl.
Qed.
Lemma kept_post_all m tos : forall n, kept (n_clients n) (n_clients (post_all n m tos)).
Proof.
  induction tos as [|to tos IH]; intros n; [apply kept_refl|]. cbn [post_all]. eapply kept_trans; [apply kept_post|apply IH].
Qed.
Lemma kept_handle o c m n : kept (n_clients n) (n_clients (handle o c m n)).
Proof.
  assert (Hd : kept (n_clients n)
      (n_clients (match call_dealer o (DReceive c m) n with (n, Some (DMsg a to)) => post n a to | (n, _) => n end))).
  { pose proof (call_dealer_clients o (DReceive c m) n) as E. destruct (call_dealer _ _ _) as [n1 [out|]]; cbn in E; [|rewrite E; apply kept_refl].
    destruct out; try (rewrite E; apply kept_refl). rewrite <- E. apply kept_post. }
  assert (Hb : kept (n_clients n)
      (n_clients (match call_broker o (BReceive c m) n with (n, Some (BMsg a to)) => post n a to | (n, _) => n end))).
  { pose proof (call_broker_clients o (BReceive c m) n) as E. destruct (call_broker _ _ _) as [n1 [out|]]; cbn in E; [|rewrite E; apply kept_refl].
    destruct out; try (rewrite E; apply kept_refl). rewrite <- E. apply kept_post. }
  destruct m; cbn [handle]; try exact Hd; try exact Hb; try apply kept_refl. clear Hd Hb.
  match goal with |- context [BPublish c ?p] => pose proof (call_broker_clients o (BPublish c p) n) as E end.
  destruct (call_broker _ _ _) as [n1 [out|]]; cbn in E; [|rewrite E; apply kept_refl].
  destruct out as [| | | |ev rs ack]; try (rewrite E; apply kept_refl). rewrite <- E.
  set (n2 := match ev with Some e => post_all n1 (MEvent e) rs | None => n1 end).
  assert (kept (n_clients n1) (n_clients n2)) by (subst n2; destruct ev; [apply kept_post_all|apply kept_refl]).
  destruct ack as [[a to]|]; [|done]. eapply kept_trans; [done|apply kept_post].
Qed.

Lemma handle_dtr o c m n : match m with MCall _ | MYield _ | MRegister _ | MUnregister _ | MError _ => False | _ => True end ->
  dtr (handle o c m n) = dtr n.
Proof.
  assert (Hb : forall op, dtr (fst (call_broker o op n)) = dtr n) by (intros; unfold call_broker; by case_match).
  destruct m; try done; intros _; cbn [handle];
    match goal with |- context [call_broker o ?op n] => pose proof (Hb op) as E end;
    destruct (call_broker _ _ _) as [n1 [out|]]; cbn [fst] in E; try done;
    destruct out as [| | |a to|ev rs ack]; try done; try (by rewrite post_dtr).
  destruct ack as [[a to]|]; [rewrite post_dtr|]; (destruct ev; [by rewrite post_all_dtr|done]).
Qed.

(** An invocation that is open after a message was handled was open before and
    not ended by the message, or it was made just now and is on its way. *)
Lemma handle_open n k o c m i cl r rp : ninv n k -> N.of_nat k < two53 ->
  polite (dtr n) (DReceive c m) -> open_inv (dtr (handle o c m n)) i cl r rp ->
  (open_inv (dtr n) i cl r rp /\ ending m <> Some i)
  \/ exists x clx, n_clients (handle o c m n) !! x = Some clx /\ i ∈ inv_ids (cl_down clx).
Proof.
  intros Hn Hk Hpol.
  assert (Hdealer :
    open_inv (dtr (match call_dealer o (DReceive c m) n with (n, Some (DMsg a to)) => post n a to | (n, _) => n end)) i cl r rp ->
    (open_inv (dtr n) i cl r rp /\ ending m <> Some i)
    \/ exists x clx, n_clients (match call_dealer o (DReceive c m) n with (n, Some (DMsg a to)) => post n a to | (n, _) => n end) !! x
         = Some clx /\ i ∈ inv_ids (cl_down clx)).
  { unfold call_dealer.
    destruct (dealer_call _ _ _ _ _ _ o _ (nv_d _ _ Hn) Hk Hpol)
      as (d' & out & s & s' & E & Hr & Hph & Ht & I & T & I'). rewrite E.
    set (n1 := Net _ _ _ _ _ _ _ _ _ _).
    assert (H1 : dtr n1 = (DReceive c m, out) :: dtr n) by exact Ht.
    assert (Hold : open_inv (dtr n) i cl r rp -> ~ closes (DReceive c m, out) i rp ->
      open_inv (dtr n) i cl r rp /\ ending m <> Some i).
    { intros Ho Hcl. split; [done|]. intros He. apply Hcl. destruct m; try done; cbn [ending closes] in *.
      - destruct (N.eqb_spec (er_type m) tInvocation); [|done]. by injection He.
      - destruct (says _ _) eqn:Ep; [done|]. injection He. split; [done|]. by rewrite andb_false_r. }
    assert (Hmsg : forall a to, out = DMsg a to -> dtr (post n1 a to) = (DReceive c m, out) :: dtr n)
      by (intros a to ->; by rewrite post_dtr).
    destruct out as [e| |b|a to].
    1-3: rewrite H1; cbn [open_inv]; intros [Hop|[Ho Hcl]]; [|left; by apply Hold].
    - exfalso. destruct m; try done. inversion T; subst; done.
    - by destruct m.
    - by destruct m.
    - rewrite (Hmsg _ _ eq_refl). cbn [open_inv]. intros [Hop|[Ho Hcl]]; [|left; by apply Hold]. right.
      destruct m; try done. destruct a; try done. cbn [opens] in Hop. destruct Hop as (_ & _ & _ & _ & <-).
      assert (is_Some (n_clients n !! to)) as [clt Hto].
      { apply (dp_pres _ _ _ _ _ _ (nv_d _ _ Hn)).
        assert (L : N.of_nat (length (n_dh n)) < two53) by (pose proof (dp_len _ _ _ _ _ _ (nv_d _ _ Hn)); lia).
        destruct (invocation_form _ _ _ _ _ _ _ _ _ L (dp_run _ _ _ _ _ _ (nv_d _ _ Hn)) E) as (d & who & H2 & _). apply present_as_present. by exists d. }
      unfold post. subst n1. net_cbn. rewrite Hto. net_cbn. exists to. rewrite lookup_insert. eexists. split; [done|].
      cbn [cl_post cl_down]. unfold inv_ids. rewrite omap_app. apply elem_of_app. right. by left. }
  destruct m; try exact Hdealer; intros Ho; rewrite handle_dtr in Ho by done; left; by split.
Qed.

(** ** Where an open invocation is *)

Definition placed (n : net) (ow : N -> list N) (i : N) : Prop :=
  exists k, i ∈ ow k \/ exists cl, n_clients n !! k = Some cl /\ (i ∈ inv_ids (cl_down cl) \/ i ∈ end_ids (cl_up cl)).
Definition kinv (n : net) (ow : N -> list N) : Prop :=
  forall i c r rp, open_inv (dtr n) i c r rp -> placed n ow i.

Lemma placed_more n n' ow ow' i : (forall k, i ∈ ow k -> i ∈ ow' k) ->
  (forall k cl, n_clients n !! k = Some cl -> i ∈ inv_ids (cl_down cl) \/ i ∈ end_ids (cl_up cl) ->
     exists cl', n_clients n' !! k = Some cl' /\ (i ∈ inv_ids (cl_down cl') \/ i ∈ end_ids (cl_up cl'))) ->
  placed n ow i -> placed n' ow' i.
Proof. intros H1 H2 (k & [H|(cl & Hk & H)]); exists k; [left; auto|right]. by eapply H2. Qed.

Lemma inv_ids_app q q' : inv_ids (q ++ q') = inv_ids q ++ inv_ids q'.
Proof. apply omap_app. Qed.
Lemma end_ids_app q q' : end_ids (q ++ q') = end_ids q ++ end_ids q'.
Proof. apply omap_app. Qed.
Lemma end_ids_cons m q i : i ∈ end_ids (m :: q) -> ending m = Some i \/ i ∈ end_ids q.
Proof. unfold end_ids. cbn [omap list_omap]. destruct (ending m); [|by right]. intros H. apply elem_of_cons in H as [->|H]; [by left|by right]. Qed.
Lemma send_ending s m s' r i : ending m = Some i -> sstep s (SSend (Ok "") m) = (s', r) -> exists x, r = Ok x.
Proof.
  intros He H. destruct (send_noted _ _ _ _ _ H) as [(x & -> & _)|[_ [e ->]]]; [by eexists|exfalso].
  unfold sstep, sop_prog in H. destruct m; try done; cbn [send_prog run_prog load write ending] in *.
  - destruct (N.eqb_spec (er_type m) tInvocation) as [E|]; [|done]. discriminate H.
  - destruct (flag _ _); discriminate H.
Qed.

Lemma kinv_step n k e ow : ninv n k -> N.of_nat k < two53 -> rules n e -> takes_leave n e -> kinv n ow ->
  kinv (nstep n e) (fun c => owes c n e (ow c)).
Proof.
  intros Hn Hk Hr Hl H. destruct e as [d|o c|c m|o c|c|p c].
  - (* join *)
    cbn [nstep owes].
    destruct (broker_call _ _ _ _ _ any_oracle (BAdd d) (nv_b _ _ Hn) Hk) as (b' & bo & s & s' & E & _).
    destruct (dealer_call _ _ _ _ _ _ any_oracle (DAdd d) (nv_d _ _ Hn) Hk Logic.I)
      as (d' & do & t & t' & E2 & Hr2 & Hph2 & Ht2 & J & T2 & J').
    unfold call_broker, call_dealer, nset_ever, nset_clients. net_cbn. rewrite E. net_cbn. rewrite E2. net_cbn.
    intros i c r rp. unfold dtr at 1. net_cbn. rewrite Ht2. cbn [open_inv opens closes]. intros [[]|[Ho _]].
    eapply (placed_more n); [done| |by eapply H]. net_cbn. intros x cl Hx Hi.
    assert (x <> se_id d) by (intros ->; apply Hr, (nv_ever _ _ Hn); by rewrite Hx).
    rewrite lookup_insert_ne by done. eauto.
  - (* leave *)
    cbn [nstep owes].
    destruct (broker_call _ _ _ _ _ o (BRemove c) (nv_b _ _ Hn) Hk) as (b' & bo & s & s' & E & _).
    destruct (dealer_call _ _ _ _ _ _ o (DRemove c) (nv_d _ _ Hn) Hk Logic.I)
      as (d' & do & t & t' & E2 & Hr2 & Hph2 & Ht2 & J & T2 & J').
    unfold call_broker, call_dealer, nset_ever, nset_clients. net_cbn. rewrite E. net_cbn. rewrite E2. net_cbn.
    intros i c0 r rp. unfold dtr at 1. net_cbn. rewrite Ht2. cbn [open_inv opens closes]. intros [[]|[Ho _]].
    eapply (placed_more n); [done| |by eapply H]. net_cbn. intros x cl Hx Hi.
    destruct (decide (x = c)) as [->|Hne].
    + destruct (Hl _ Hx) as [E3 E4]. rewrite E3, E4 in Hi. exfalso. destruct Hi as [Hi|Hi]; by apply elem_of_nil in Hi.
    + rewrite lookup_delete_ne by done. eauto.
  - (* send *)
    cbn [nstep owes]. destruct (n_clients n !! c) as [cl|] eqn:Hc; [|exact H].
    destruct (sstep (cl_session cl) (SSend (Ok "") m)) as [s' r] eqn:E.
    set (n' := match r with Ok _ => _ | _ => _ end).
    assert (Hd : dtr n' = dtr n) by (subst n'; by destruct r).
    assert (Hkeep : forall x clx i, n_clients n !! x = Some clx -> i ∈ inv_ids (cl_down clx) \/ i ∈ end_ids (cl_up clx) ->
      exists cl', n_clients n' !! x = Some cl' /\ (i ∈ inv_ids (cl_down cl') \/ i ∈ end_ids (cl_up cl'))).
    { intros x clx i Hx Hi. destruct (decide (x = c)) as [->|Hne].
      - rewrite Hc in Hx. injection Hx as <-.
        subst n'. destruct r; net_cbn; rewrite lookup_insert; (eexists; split; [done|]); cbn [cl_up cl_down]; try done.
        rewrite end_ids_app, elem_of_app. tauto.
      - subst n'. destruct r; net_cbn; rewrite lookup_insert_ne by done; eauto. }
    intros i c0 r0 rp. rewrite Hd. intros Ho. specialize (H _ _ _ _ Ho).
    destruct (ending m) as [j|] eqn:Ej; [|eapply placed_more; [| |exact H]; [done|eauto]].
    destruct (decide (i = j)) as [->|Hij].
    + exists c. right. destruct (send_ending _ _ _ _ _ Ej E) as [y ->]. subst n'. net_cbn. rewrite lookup_insert.
      eexists. split; [done|]. right. cbn [cl_up]. rewrite end_ids_app, elem_of_app. right. unfold end_ids. cbn [omap list_omap]. rewrite Ej. by left.
    + eapply placed_more; [| |exact H]; [|eauto]. intros x Hx. destruct (c =? x); [|done]. apply elem_of_list_filter. by split.
  - (* route *)
    cbn [owes]. destruct (n_clients n !! c) as [cl|] eqn:Hc.
    2:{ cbn [nstep]. rewrite Hc. exact H. }
    destruct (cl_up cl) as [|m rest] eqn:Hu.
    { cbn [nstep]. rewrite Hc. destruct cl as [s0 up down used]. cbn in Hu. subst up. exact H. }
    pose proof (Hr _ _ _ Hc Hu) as Hpol.
    rewrite (route_step _ _ _ _ _ _ Hc Hu). intros i c0 r rp Ho.
    change (open_inv (dtr (handle o c m n)) i c0 r rp) in Ho.
    pose proof (kept_handle o c m n) as Hkept.
    destruct (handle_open _ _ _ _ _ _ _ _ _ Hn Hk Hpol Ho) as [[Ho' Hne]|(x & clx & Hx & Hi)].
    + eapply (placed_more n); [done| |by eapply H]. net_cbn. intros x clx Hx Hi.
      destruct (Hkept _ _ Hx) as (cl' & extra & Hx' & E1 & E2). rewrite taken_lookup.
      case_decide as Hxc.
      * subst x. rewrite Hc in Hx. injection Hx as <-. rewrite Hx'. cbn [fmap option_fmap option_map]. eexists. split; [done|].
        cbn [cl_pop cl_up cl_down]. rewrite E1, E2, Hu, inv_ids_app, elem_of_app. rewrite Hu in Hi. cbn [tail].
        destruct Hi as [Hi|Hi]; [tauto|]. apply end_ids_cons in Hi as [Hi|Hi]; [done|]. by right.
      * exists cl'. split; [done|]. rewrite E1, E2, inv_ids_app, elem_of_app. tauto.
    + exists x. right. net_cbn. rewrite taken_lookup, Hx. case_decide; cbn [fmap option_fmap option_map]; (eexists; split; [done|]); by left.
  - (* deliver *)
    destruct (n_clients n !! c) as [cl|] eqn:Hc.
    2:{ assert (Ed : forall x, delivers x n (NDeliver c) = []) by (intros x; cbn; rewrite Hc; by destruct (_ =? _)).
        cbn [nstep owes]. rewrite Hc. intros i c0 r rp Ho. eapply placed_more; [| |by eapply H]; [|eauto].
        intros x. rewrite Ed. cbn. by rewrite app_nil_r. }
    destruct cl as [s up [|m down] used].
    { cbn [nstep owes]. rewrite Hc. intros i c0 r rp Ho. eapply placed_more; [| |by eapply H]; [|eauto].
      intros x Hx. apply elem_of_app. by left. }
    cbn [nstep owes]. rewrite Hc. destruct (sstep s (SReceiveMessage m)) as [s' r] eqn:E.
    set (n' := match r with Ok _ => _ | _ => _ end).
    assert (Hd : dtr n' = dtr n) by (subst n'; by destruct r).
    assert (Hcl : n_clients n' = <[c := Client s' up down used]> (n_clients n)) by (subst n'; by destruct r).
    clearbody n'. intros i c0 r0 rp. rewrite Hd. intros Ho. destruct (H _ _ _ _ Ho) as (x & [Hi|(clx & Hx & Hi)]).
    + exists x. left. apply elem_of_app. by left.
    + destruct (decide (x = c)) as [->|Hne].
      * rewrite Hc in Hx. injection Hx as <-. cbn [cl_up cl_down] in Hi. exists c.
        destruct Hi as [Hi|Hi].
        -- change (m :: down) with ([m] ++ down) in Hi. rewrite inv_ids_app in Hi. apply elem_of_app in Hi as [Hi|Hi].
           ++ left. cbn [delivers]. rewrite N.eqb_refl, Hc. apply elem_of_app. by right.
           ++ right. rewrite Hcl, lookup_insert. eexists. split; [done|]. by left.
        -- right. rewrite Hcl, lookup_insert. eexists. split; [done|]. by right.
      * exists x. right. rewrite Hcl, lookup_insert_ne by done. eauto.
  - (* disclose *)
    cbn [nstep owes].
    destruct (broker_call _ _ _ _ _ any_oracle (BDisclose p) (nv_b _ _ Hn) Hk) as (b' & bo & s & s' & E & _).
    destruct (dealer_call _ _ _ _ _ _ any_oracle (DDisclose c) (nv_d _ _ Hn) Hk Logic.I)
      as (d' & do & t & t' & E2 & Hr2 & Hph2 & Ht2 & J & T2 & J').
    unfold call_broker, call_dealer, nset_ever, nset_clients. net_cbn. rewrite E. net_cbn. rewrite E2. net_cbn.
    intros i c0 r rp. unfold dtr at 1. net_cbn. rewrite Ht2. cbn [open_inv opens closes]. intros [[]|[Ho _]].
    eapply (placed_more n); [done| |by eapply H]. eauto.
Qed.

Lemma kinv_run es : forall n k ow, ginv n k -> N.of_nat (k + length es) <= two53 -> follows n es -> all_take_leave n es ->
  kinv n ow -> kinv (nrun n es) (fun c => owing_from c (ow c) n es).
Proof.
  induction es as [|e es IH]; intros n k ow Hn Hk Hf Hl H; [exact H|].
  destruct Hf as [Hr Hf], Hl as [Hl1 Hl]. cbn [length] in Hk. assert (Hk' : N.of_nat k < two53) by lia.
  pose proof (kinv_step _ _ _ _ (proj1 Hn) Hk' Hr Hl1 H) as H'. cbn [nrun owing_from].
  apply (IH _ (S k) _) in H'; [exact H'|by apply ginv_step|lia|done|done].
Qed.

(** With nothing on the way and nothing owed, no invocation is open. *)
Lemma open_owed es i c r rp : N.of_nat (length es) <= two53 -> follows empty_net es -> all_take_leave empty_net es ->
  at_rest (nrun empty_net es) -> open_inv (dtr (nrun empty_net es)) i c r rp -> exists k, i ∈ owing k es.
Proof.
  intros Hb Hf Hl Hrest Ho.
  assert (H : kinv (nrun empty_net es) (fun c => owing c es)).
  { apply (kinv_run es empty_net 0 (fun _ => [])); [apply ginv_empty|done|done|done|]. intros ? ? ? ? []. }
  destruct (H _ _ _ _ Ho) as (k & [Hk|(cl & Hk & Hi)]); [eauto|].
  destruct (Hrest _ _ Hk) as [E1 E2]. rewrite E1, E2 in Hi. destruct Hi as [Hi|Hi]; by apply elem_of_nil in Hi.
Qed.
Lemma calls_complete es c : N.of_nat (length es) <= two53 -> follows empty_net es -> all_take_leave empty_net es ->
  at_rest (nrun empty_net es) -> (forall k, owing k es = []) -> is_Some (n_clients (nrun empty_net es) !! c) ->
  answer_ids (delivered c empty_net es) ≡ₚ calls_made c empty_net es.
Proof.
  intros Hb Hf Hl Hrest How [cl Hc]. destruct (answered_once es c Hb Hf) as (N1 & N2 & Hsub).
  apply NoDup_Permutation; [done|done|]. intros r. split; [apply Hsub|]. intros Hr.
  pose proof (accounted es c cl r Hb Hf Hc Hr) as Hone. destruct (Hrest _ _ Hc) as [E1 E2]. rewrite E1, E2 in Hone.
  cbn [exactly_one] in Hone.
  destruct Hone as [[Hin _]|[_ [[(i & rp & Ho) _]|[_ [[Hin _]|[_ [[Hin _]|[_ []]]]]]]]]; [by apply elem_of_nil in Hin| |by apply elem_of_nil in Hin|done].
  exfalso. destruct (open_owed es i c r rp) as [k Hi]; [done..|]. rewrite How in Hi. by apply elem_of_nil in Hi.
Qed.

(** ** Every call can still be completed *)

Lemma owing_from_app c es1 : forall l n es2, owing_from c l n (es1 ++ es2) = owing_from c (owing_from c l n es1) (nrun n es1) es2.
Proof. induction es1 as [|e es1 IH]; intros l n es2; [done|]. cbn [app owing_from nrun]. apply IH. Qed.
Lemma carefully_app es1 : forall n es2, carefully n (es1 ++ es2) <-> carefully n es1 /\ carefully (nrun n es1) es2.
Proof. induction es1 as [|e es1 IH]; intros n es2; cbn [app carefully nrun]; [tauto|]. rewrite IH. tauto. Qed.
Lemma take_leave_app es1 : forall n es2, all_take_leave n (es1 ++ es2) <-> all_take_leave n es1 /\ all_take_leave (nrun n es1) es2.
Proof. induction es1 as [|e es1 IH]; intros n es2; cbn [app all_take_leave nrun]; [tauto|]. rewrite IH. tauto. Qed.
Lemma all_finish_app es1 : forall n es2, all_finish n (es1 ++ es2) <-> all_finish n es1 /\ all_finish (nrun n es1) es2.
Proof. induction es1 as [|e es1 IH]; intros n es2; cbn [app all_finish nrun]; [tauto|]. rewrite IH. tauto. Qed.
Lemma moves_finish es : forall n, all_moves n es -> all_finish n es.
Proof. induction es as [|e es IH]; intros n; [done|]. intros [H H']. split; [by left|by apply IH]. Qed.

Lemma finish_plain n e : finishes n e -> careful n e /\ takes_leave n e /\ forall c, makes_call c n e = [].
Proof.
  intros [H|(c & m & -> & Hc & i & Hi)].
  - by destruct e.
  - split; [|split; [done|]].
    + intros cl _. destruct m; try done; (split; [by intros r|done]).
    + intros x. by destruct m.
Qed.
Lemma all_finish_plain es : forall n, all_finish n es ->
  carefully n es /\ all_take_leave n es /\ forall c, calls_made c n es = [].
Proof.
  induction es as [|e es IH]; intros n; [done|]. intros [H H']. destruct (finish_plain _ _ H) as (A1 & A2 & A3).
  destruct (IH _ H') as (B1 & B2 & B3). split; [done|]. split; [done|]. intros c. cbn [calls_made]. by rewrite A3, B3.
Qed.

(** Who is there does not change. *)
Lemma finish_dom n e c : finishes n e -> n_clients (nstep n e) !! c = None <-> n_clients n !! c = None.
Proof.
  assert (Hins : forall (cls : gmap N client) x cl cl', cls !! x = Some cl -> <[x := cl']> cls !! c = None <-> cls !! c = None).
  { intros cls x cl cl' Hx. destruct (decide (c = x)) as [->|]; [rewrite lookup_insert, Hx|rewrite lookup_insert_ne by done]; done. }
  intros [H|(x & m & -> & [cl Hc] & _)].
  - destruct e as [| | |o x|x|]; try done; destruct H as (cl & Hc & Hne).
    + destruct (cl_up cl) as [|m rest] eqn:Hu; [done|]. rewrite (route_step _ _ _ _ _ _ Hc Hu). net_cbn. rewrite taken_lookup.
      pose proof (f_equal (fun q => q !! c) (handle_ups o x m n)) as E. unfold ups in E. rewrite !lookup_fmap in E.
      case_decide; [subst x|]; destruct (n_clients (handle o c m n) !! c), (n_clients n !! c) eqn:Hc2; try done.
      all: destruct (n_clients (handle o x m n) !! c); done.
    + destruct cl as [s up [|m down] used]; [done|]. cbn [nstep]. rewrite Hc. destruct (sstep _ _) as [s' r].
      destruct r; net_cbn; by eapply Hins.
  - cbn [nstep]. rewrite Hc. destruct (sstep _ _) as [s' r]. destruct r; net_cbn; by eapply Hins.
Qed.
Lemma all_finish_dom es c : forall n, all_finish n es -> n_clients (nrun n es) !! c = None <-> n_clients n !! c = None.
Proof.
  induction es as [|e es IH]; intros n; [done|]. intros [H H']. cbn [nrun]. rewrite (IH _ H'). by apply finish_dom.
Qed.
Lemma owing_absent es c : forall l n, all_finish n es -> n_clients n !! c = None -> owing_from c l n es = l.
Proof.
  induction es as [|e es IH]; intros l n; [done|]. intros [H H'] Hc. cbn [owing_from].
  rewrite IH; [|done|by apply finish_dom]. destruct e as [| |x m| |x|]; try done; cbn [owes delivers].
  - destruct (N.eqb_spec x c) as [->|]; [by rewrite Hc|]. destruct (n_clients n !! x), (ending m); done.
  - destruct (N.eqb_spec x c) as [->|]; [rewrite Hc|]; cbn; by rewrite app_nil_r.
Qed.

(** Ending a list of invocations. *)
Definition plain_yield (i : N) : message := MYield (Yield i None None None no_bin).
Definition end_all (l : list (N * N)) : list nevent := map (fun x => NSend x.1 (plain_yield x.2)) l.
Lemma end_all_runs l : forall n, (forall x, x ∈ l -> is_Some (n_clients n !! x.1)) ->
  all_finish n (end_all l)
  /\ (forall c l0, owing_from c l0 n (end_all l) = filter (fun j => (c, j) ∉ l) l0)
  /\ ((forall c cl, n_clients n !! c = Some cl -> (forall m, m ∈ cl_up cl -> exists y, m = MYield y) /\ cl_down cl = []) ->
      forall c cl, n_clients (nrun n (end_all l)) !! c = Some cl -> (forall m, m ∈ cl_up cl -> exists y, m = MYield y) /\ cl_down cl = []).
Proof.
  induction l as [|[k i] l IH]; intros n Hp.
  - split; [done|]. split; [|done]. intros c l0. cbn. induction l0 as [|j l0 IH]; [done|].
    rewrite filter_cons_True by apply not_elem_of_nil. by rewrite <- IH.
  - assert (Hk : is_Some (n_clients n !! k)) by (apply (Hp (k, i)); by left).
    assert (Hfin : finishes n (NSend k (plain_yield i))).
    { right. exists k, (plain_yield i). split; [done|]. split; [done|]. by exists i. }
    destruct (IH (nstep n (NSend k (plain_yield i)))) as (A1 & A2 & A3).
    { intros x Hx. apply not_eq_None_Some. rewrite finish_dom by done. apply not_eq_None_Some, Hp. by right. }
    split; [by split|]. split.
    + intros c l0. cbn [end_all map owing_from fst snd]. fold (end_all l). rewrite A2. cbn [owes plain_yield ending yi_options yi_request says].
      destruct Hk as [cl Hk]. rewrite Hk. change (says None "progress") with false. cbv iota.
      induction l0 as [|j l0 IHl]; [by destruct (k =? c)|].
      destruct (N.eqb_spec k c) as [->|Hne].
      * destruct (decide (j = i)) as [->|Hji].
        -- rewrite (filter_cons_False (fun j => j <> i)) by tauto. rewrite IHl, (filter_cons_False _ i); [done|]. intros H. apply H. by left.
        -- rewrite (filter_cons_True (fun j => j <> i)) by done. destruct (decide ((c, j) ∈ l)) as [Hin|Hin].
           ++ rewrite filter_cons_False by tauto. rewrite IHl, filter_cons_False; [done|]. intros H. apply H. by right.
           ++ rewrite filter_cons_True by done. rewrite IHl, filter_cons_True; [done|]. intros [[= ->]|H]%elem_of_cons; done.
      * destruct (decide ((c, j) ∈ l)) as [Hin|Hin].
        -- rewrite filter_cons_False by tauto. rewrite IHl, filter_cons_False; [done|]. intros H. apply H. by right.
        -- rewrite filter_cons_True by done. rewrite IHl, filter_cons_True; [done|]. intros [[= -> ->]|H]%elem_of_cons; done.
    + intros Hq. cbn [end_all map nrun fst snd]. apply A3. intros c cl. cbn [nstep]. destruct Hk as [clk Hk]. rewrite Hk.
      destruct (sstep _ _) as [s' r] eqn:E. destruct (send_ending _ (plain_yield i) _ _ i eq_refl E) as [y ->]. net_cbn.
      destruct (decide (c = k)) as [->|Hne]; [rewrite lookup_insert|rewrite lookup_insert_ne by done; apply Hq].
      intros [= <-]. destruct (Hq _ _ Hk) as [Q1 Q2]. cbn [cl_up cl_down]. split; [|done].
      intros m [Hm| ->%elem_of_list_singleton]%elem_of_app; [by apply Q1|by eexists].
Qed.

(** Once there are only YIELDs on the way to the router, no client is sent
    INVOCATIONs. *)
Definition calm (n : net) : Prop :=
  forall c cl, n_clients n !! c = Some cl -> (forall m, m ∈ cl_up cl -> exists y, m = MYield y) /\ inv_ids (cl_down cl) = [].
Lemma yield_answer o d c y d' a to : dstep o d (DReceive c (MYield y)) = Ret d' (DMsg a to) -> inv_ids [a] = [].
Proof.
  cbn [dstep d_receive_message]. unfold d_yield. intros H.
  repeat (match type of H with context [match ?x with _ => _ end] => destruct x end; try discriminate H); by injection H as <- <- <-.
Qed.
Lemma calm_move n e c : moves n e -> calm n -> calm (nstep n e) /\ inv_ids (delivers c n e) = [].
Proof.
  intros H Hn. destruct e as [| | |o x|x|]; try done; destruct H as (cl & Hc & Hne).
  - split; [|done]. destruct (cl_up cl) as [|m rest] eqn:Hu; [done|]. rewrite (route_step _ _ _ _ _ _ Hc Hu).
    destruct (Hn _ _ Hc) as [Hy _]. destruct (Hy m) as [y ->]; [rewrite Hu; by left|].
    assert (Hh : calm (handle o x (MYield y) n)).
    { cbn [handle]. unfold call_dealer. destruct (dstep _ _ _) as [d' out|w] eqn:E; [|exact Hn].
      destruct out as [e| |b|a to]; try exact Hn. apply yield_answer in E. unfold post. net_cbn.
      destruct (n_clients n !! to) as [clt|] eqn:Ht; [|exact Hn]. intros z clz. net_cbn.
      destruct (decide (z = to)) as [->|Hz]; [rewrite lookup_insert|rewrite lookup_insert_ne by done; apply Hn].
      intros [= <-]. destruct (Hn _ _ Ht) as [H1 H2]. cbn [cl_post cl_up cl_down]. by rewrite inv_ids_app, H2, E. }
    intros z clz. net_cbn. rewrite taken_lookup. case_decide; [|apply Hh].
    intros (cl' & Hz & ->)%fmap_Some. destruct (Hh _ _ Hz) as [H1 H2]. cbn [cl_pop cl_up cl_down]. split; [|done].
    intros m Hm. apply H1. destruct (cl_up cl'); [done|by right].
  - destruct cl as [s up [|m down] used]; [done|]. destruct (Hn _ _ Hc) as [H1 H2]. cbn [cl_up cl_down] in *.
    assert (Hm : inv_ids [m] = [] /\ inv_ids down = []).
    { change (m :: down) with ([m] ++ down) in H2. rewrite inv_ids_app in H2. by apply app_eq_nil in H2. }
    split; [|cbn [delivers]; rewrite Hc; destruct (x =? c); [apply Hm|done]].
    cbn [nstep]. rewrite Hc. destruct (sstep _ _) as [s' r]. intros z clz.
    destruct (decide (z = x)) as [->|Hz].
    + destruct r; net_cbn; rewrite lookup_insert; intros [= <-]; cbn [cl_up cl_down]; split; first [done|apply Hm].
    + destruct r; net_cbn; rewrite lookup_insert_ne by done; apply Hn.
Qed.
Lemma calm_owing es c : forall n l, all_moves n es -> calm n -> owing_from c l n es = l.
Proof.
  induction es as [|e es IH]; intros n l; [done|]. intros [H H'] Hn. destruct (calm_move n e c H Hn) as [Hn' Hd].
  cbn [owing_from]. rewrite IH by done. destruct e; try done. cbn [owes]. by rewrite Hd, app_nil_r.
Qed.

Lemma completable es : carefully empty_net es -> all_take_leave empty_net es ->
  (forall k, n_clients (nrun empty_net es) !! k = None -> owing k es = []) ->
  exists es', all_finish (nrun empty_net es) es' /\ at_rest (nrun empty_net (es ++ es')) /\
    (N.of_nat (length (es ++ es')) <= two53 ->
     forall c, is_Some (n_clients (nrun empty_net (es ++ es')) !! c) ->
     answer_ids (delivered c empty_net (es ++ es')) ≡ₚ calls_made c empty_net es).
Proof.
  intros Hcare Hleave Hgone. set (n := nrun empty_net es) in *.
  destruct (comes_to_rest n) as (es1 & M1 & R1). set (n1 := nrun n es1) in *.
  pose proof (moves_finish _ _ M1) as F1.
  set (ow := fun k => owing k (es ++ es1)).
  assert (Hgone1 : forall k, n_clients n1 !! k = None -> ow k = []).
  { intros k Hk. apply (all_finish_dom es1 k n F1) in Hk. unfold ow, owing. rewrite owing_from_app.
    fold (owing k es). rewrite Hgone by done. apply owing_absent; done. }
  set (todo := flat_map (fun x : N * client => map (fun i => (x.1, i)) (ow x.1)) (map_to_list (n_clients n1))).
  assert (Htodo : forall k i, (k, i) ∈ todo <-> is_Some (n_clients n1 !! k) /\ i ∈ ow k).
  { intros k i. unfold todo. rewrite elem_of_list_In, in_flat_map. split.
    - intros ([k' cl] & H1 & (j & [= <- <-] & H2)%in_map_iff). apply elem_of_list_In in H1, H2.
      apply elem_of_map_to_list in H1. by rewrite H1.
    - intros [[cl Hk] Hi]. exists (k, cl). split; [by apply elem_of_list_In, elem_of_map_to_list|].
      apply in_map_iff. exists i. split; [done|]. by apply elem_of_list_In. }
  destruct (end_all_runs todo n1) as (F2 & O2 & Q2).
  { intros [k i] Hx. by apply Htodo in Hx as [Hx _]. }
  set (n2 := nrun n1 (end_all todo)) in *.
  assert (C2 : calm n2).
  { intros c cl Hc. destruct (Q2 ltac:(intros x clx Hx; destruct (R1 _ _ Hx) as [-> ->]; split; [intros m Hm; by apply elem_of_nil in Hm|done]) _ _ Hc) as [H1 ->]. done. }
  destruct (comes_to_rest n2) as (es3 & M3 & R3). pose proof (moves_finish _ _ M3) as F3.
  set (es' := es1 ++ end_all todo ++ es3).
  assert (Erun : nrun empty_net (es ++ es') = nrun n2 es3).
  { unfold es'. rewrite !nrun_app. done. }
  assert (F : all_finish n es').
  { unfold es'. apply all_finish_app. split; [done|]. apply all_finish_app. done. }
  exists es'. split; [done|]. rewrite Erun. split; [done|]. intros Hb c Hc.
  destruct (all_finish_plain _ _ F) as (P1 & P2 & P3).
  assert (How : forall k, owing k (es ++ es') = []).
  { intros k. unfold es'. unfold owing. rewrite app_assoc, owing_from_app. fold (owing k (es ++ es1)).
    rewrite nrun_app. fold n. fold n1. rewrite owing_from_app, O2, calm_owing by done. fold (ow k).
    destruct (n_clients n1 !! k) eqn:Hk; [|by rewrite Hgone1].
    apply elem_of_nil_inv. intros j [Hno Hj]%elem_of_list_filter. apply Hno, Htodo. by rewrite Hk. }
  rewrite (calls_complete (es ++ es') c); [| |apply careful_follows| | | |]; try done.
  - by rewrite calls_made_app, P3, app_nil_r.
  - apply carefully_app. done.
  - apply take_leave_app. done.
  - by rewrite Erun.
  - by rewrite Erun.
Qed.
