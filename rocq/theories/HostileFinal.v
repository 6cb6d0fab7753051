(** What honest clients can rely on among hostile ones. *)
From Verif Require Import Prelude Value Msg IdGen Types PathMatch Mutex Broker Dealer Session Network.
From Verif Require Import BrokerSpec BrokerFacts BrokerSim BrokerTrace BrokerProofs.
From Verif Require Import DealerSpec DealerFacts DealerCalls DealerSim DealerStep DealerProofs DealerPolite DealerShare.
From Verif Require Import NetworkSpec NetworkClient NetworkSync NetworkProofs NetworkCalls NetworkLocal NetworkOrigin NetworkFinal.
From Verif Require Import Hostile HostileDealer HostileProofs HostileStep.

(** ** The router's work leaves the sessions of clients alone *)

Definition kept (cls cls' : gmap N client) : Prop :=
  forall x cl', cls' !! x = Some cl' -> exists cl, cls !! x = Some cl
    /\ cl_session cl' = cl_session cl /\ cl_used cl' = cl_used cl.
Lemma kept_refl cls : kept cls cls.
Proof. intros x cl' H. eauto. Qed.
Lemma kept_trans a b c : kept a b -> kept b c -> kept a c.
Proof. intros H1 H2 x cl' H. destruct (H2 _ _ H) as (cl & E & -> & ->). by apply H1. Qed.
Lemma kept_post n m to : kept (n_clients n) (n_clients (post n m to)).
Proof.
  unfold post. destruct (n_clients n !! to) as [cl|] eqn:E; [|apply kept_refl]. intros x cl'. cbn.
  destruct (decide (x = to)) as [->|Hne]; [rewrite lookup_insert; intros [= <-]; eauto|].
  rewrite lookup_insert_ne by done. eauto.
Qed.
Lemma kept_post_all m tos : forall n, kept (n_clients n) (n_clients (post_all n m tos)).
Proof.
  induction tos as [|to tos IH]; intros n; [apply kept_refl|]. cbn. eapply kept_trans; [apply kept_post|apply IH].
Qed.
Lemma kept_broker o op n : n_clients (fst (call_broker o op n)) = n_clients n.
Proof. unfold call_broker. by destruct (bstep _ _ _). Qed.
Lemma kept_dealer o op n : n_clients (fst (call_dealer o op n)) = n_clients n.
Proof. unfold call_dealer. by destruct (dstep _ _ _). Qed.
Lemma kept_handle o c m n : kept (n_clients n) (n_clients (handle o c m n)).
Proof.
  assert (D : kept (n_clients n) (n_clients (match call_dealer o (DReceive c m) n with (n, Some (DMsg a to)) => post n a to | (n, _) => n end))).
  { pose proof (kept_dealer o (DReceive c m) n) as H. destruct (call_dealer _ _ _) as [n1 [[]|]]; cbn in *; rewrite <- H;
      first [apply kept_refl|apply kept_post]. }
  assert (B : kept (n_clients n) (n_clients (match call_broker o (BReceive c m) n with (n, Some (BMsg a to)) => post n a to | (n, _) => n end))).
  { pose proof (kept_broker o (BReceive c m) n) as H. destruct (call_broker _ _ _) as [n1 [[]|]]; cbn in *; rewrite <- H;
      first [apply kept_refl|apply kept_post]. }
  destruct m; cbn [handle]; try exact D; try exact B; try apply kept_refl.
  clear D B. pose proof (kept_broker o (BPublish c m) n) as H.
  destruct (call_broker o (BPublish c m) n) as [n1 bo]. cbn in H. rewrite <- H.
  destruct bo as [[e| |b|a to|ev rs ack]|]; try apply kept_refl.
  assert (H1 : kept (n_clients n1) (n_clients (match ev with Some e => post_all n1 (MEvent e) rs | None => n1 end))).
  { destruct ev; [apply kept_post_all|apply kept_refl]. }
  destruct ack as [[a to]|]; [|exact H1]. eapply kept_trans; [exact H1|apply kept_post].
Qed.

Section Hostile.
Context (honest : N -> Prop).

(** ** What has been read and called *)

Record tinv (n : net) (log : N -> list message) (made : N -> list N) : Prop := TInv {
  tv_new : forall c, c ∉ n_ever n -> log c = [] /\ made c = [];
  tv_tally : forall c cl, honest c -> n_clients n !! c = Some cl -> tally cl (log c) (made c) }.

Definition hlogged (log : N -> list message) n e : N -> list message := fun c => log c ++ hreads c n e.
Definition hcounted (made : N -> list N) n e : N -> list N := fun c => made c ++ hcalls c n e.

Lemma tinv_quiet n n' log made log' made' : tinv n log made ->
  (forall c, log' c = log c) -> (forall c, made' c = made c) ->
  (forall c, c ∉ n_ever n' -> c ∉ n_ever n) ->
  (forall c cl', n_clients n' !! c = Some cl' -> (cl' = Client new_session [] [] [] /\ c ∉ n_ever n)
     \/ exists cl, n_clients n !! c = Some cl
                   /\ cs_calls (cl_session cl') = cs_calls (cl_session cl)
                   /\ (forall r, r ∈ cl_used cl -> r ∈ cl_used cl')) ->
  tinv n' log' made'.
Proof.
  intros H EL EM Hev Hc. constructor.
  - intros c Hx. rewrite EL, EM. by apply (tv_new _ _ _ H), Hev.
  - intros c cl' Hh Hx. rewrite EL, EM. destruct (Hc _ _ Hx) as [[-> Hne]|(cl & Hx' & Ec & Eu)].
    + destruct (tv_new _ _ _ H _ Hne) as [-> ->]. unfold tally. cbn.
      split; [constructor|]. split; [constructor|]. set_solver.
    + destruct (tv_tally _ _ _ H _ _ Hh Hx') as (T1 & T2 & T3 & T4 & T5). unfold tally. rewrite Ec. split; [done|]. split; [done|].
      split; [done|]. split; [done|]. auto.
Qed.

Lemma handle_quiet n o c m : n_ever (handle o c m n) = n_ever n
  /\ forall x cl', n_clients (handle o c m n) !! x = Some cl' ->
       exists cl, n_clients n !! x = Some cl /\ cs_calls (cl_session cl') = cs_calls (cl_session cl)
                  /\ (forall r, r ∈ cl_used cl -> r ∈ cl_used cl').
Proof.
  split; [apply handle_ever|]. intros x cl' Hx. destruct (kept_handle _ _ _ _ _ _ Hx) as (cl & E & -> & ->). eauto.
Qed.

Lemma tinv_step n k log made e : hninv honest n k -> decent honest n e -> tinv n log made ->
  tinv (hstep n e) (hlogged log n e) (hcounted made n e).
Proof.
  intros Hn Hd H. unfold hlogged, hcounted.
  destruct e as [e|o c m].
  2:{ cbn [hstep hreads hcalls]. eapply (tinv_quiet n); [done|intros; by rewrite app_nil_r|intros; by rewrite app_nil_r| |].
      - destruct (n_clients n !! c); [|done]. by rewrite (proj1 (handle_quiet n o c m)).
      - intros x cl' Hx. right. destruct (n_clients n !! c); [by eapply handle_quiet|eauto]. }
  destruct e as [d|o c|c m|o c|c|p c]; cbn [hstep].
  - cbn [hreads hcalls delivers makes_call nstep].
    eapply (tinv_quiet n); [done|intros; by rewrite app_nil_r|intros; by rewrite app_nil_r| |].
    + set (n1 := nset_clients _ _). intros c Hc Hin. apply Hc.
      assert (X : forall a b c0 (y : net), n_ever (fst (call_dealer a b (fst (call_broker a c0 y)))) = n_ever y).
      { intros a b c0 y. unfold call_dealer. destruct (dstep _ _ _); cbn; unfold call_broker; by destruct (bstep _ _ _). }
      rewrite X. subst n1. cbn. by right.
    + intros c cl'. rewrite kept_dealer, kept_broker. cbn. destruct (decide (c = se_id d)) as [->|Hne].
      * rewrite lookup_insert. intros [= <-]. left. by split.
      * rewrite lookup_insert_ne by done. intros Hx. right. eauto.
  - cbn [hreads hcalls delivers makes_call nstep].
    eapply (tinv_quiet n); [done|intros; by rewrite app_nil_r|intros; by rewrite app_nil_r| |].
    + set (n1 := nset_clients _ _). intros x Hc Hin. apply Hc.
      assert (X : forall a b c0 (y : net), n_ever (fst (call_dealer a b (fst (call_broker a c0 y)))) = n_ever y).
      { intros a b c0 y. unfold call_dealer. destruct (dstep _ _ _); cbn; unfold call_broker; by destruct (bstep _ _ _). }
      by rewrite X.
    + intros x cl'. rewrite kept_dealer, kept_broker. cbn. destruct (decide (x = c)) as [->|Hne]; [by rewrite lookup_delete|].
      rewrite lookup_delete_ne by done. intros Hx. right. eauto.
  - (* send *)
    cbn [nstep]. destruct (n_clients n !! c) as [cl|] eqn:Hc.
    2:{ eapply (tinv_quiet n); [done|intros; cbn; by rewrite app_nil_r| |done|intros; right; eauto].
        intros x. cbn. destruct m; try by rewrite app_nil_r. rewrite Hc, bool_decide_eq_false_2 by (by intros []).
        by rewrite andb_false_r, app_nil_r. }
    destruct (sstep (cl_session cl) (SSend (Ok "") m)) as [s' r] eqn:E.
    destruct (send_noted _ _ _ _ _ E) as [(x & -> & X & ->)|[-> [e ->]]].
    2:{ eapply (tinv_quiet n); [done|intros; cbn; by rewrite app_nil_r| |done|].
        - intros x. cbn. destruct m; try by rewrite app_nil_r. cbn in E. discriminate.
        - intros x cl' Hx. right. cbn in Hx. destruct (decide (x = c)) as [->|Hne].
          + rewrite lookup_insert in Hx. injection Hx as <-. exists cl. cbn. auto.
          + rewrite lookup_insert_ne in Hx by done. eauto. }
    assert (Hcase : (exists call, m = MCall call) \/ forall call, m <> MCall call).
    { destruct m; try (right; done). left. by eexists. }
    destruct Hcase as [[call ->]|Hnc].
    + cbn [request_of noted]. constructor.
      * intros y Hy. cbn [hreads hcalls delivers makes_call]. destruct (tv_new _ _ _ H _ Hy) as [-> ->].
        destruct (N.eqb_spec c y) as [<-|]; [|done]. exfalso. apply Hy, (hv_ever _ _ _ Hn). by rewrite Hc.
      * net_cbn. intros y cl' Hh Hy. cbn [hreads hcalls delivers makes_call]. rewrite app_nil_r.
        destruct (decide (y = c)) as [->|Hne].
        -- assert (Hf : ca_request call ∉ cl_used cl) by (destruct (Hd Hh cl Hc) as [Hf _]; by apply Hf).
           rewrite lookup_insert in Hy. injection Hy as <-.
           rewrite N.eqb_refl, bool_decide_eq_true_2 by (by rewrite Hc). cbn [andb].
           destruct (tv_tally _ _ _ H _ _ Hh Hc) as (T1 & T2 & T3 & T4 & T5). unfold tally. cbn.
           split; [done|]. split; [|split; [|split]].
           ++ apply NoDup_app. split; [done|]. split; [|apply NoDup_singleton].
              intros r Hr ->%elem_of_list_singleton. by apply Hf, T5.
           ++ intros r. rewrite elem_of_app, elem_of_list_singleton, T3, elem_of_union, elem_of_singleton. tauto.
           ++ intros r. rewrite elem_of_union, elem_of_singleton. intros [->|Hr]; [|by apply T4].
              intros Hr. apply Hf, T5, T3. by right.
           ++ intros r [Hr| ->%elem_of_list_singleton]%elem_of_app; [right; by apply T5|by left].
        -- rewrite lookup_insert_ne in Hy by done. destruct (N.eqb_spec c y) as [|]; [congruence|]. cbn [andb].
           rewrite app_nil_r. by apply (tv_tally _ _ _ H).
    + eapply (tinv_quiet n); [done|intros; cbn; by rewrite app_nil_r| |done|].
      * intros y. cbn. destruct m; try by rewrite app_nil_r. exfalso. by eapply Hnc.
      * net_cbn. intros y cl' Hy. right. destruct (decide (y = c)) as [->|Hne].
        -- rewrite lookup_insert in Hy. injection Hy as <-. exists cl. cbn. split; [done|]. split.
           ++ destruct m; cbn; try done; [|exfalso; by eapply Hnc]. by destruct (flag _ _).
           ++ intros r Hr. destruct (request_of m); [by right|done].
        -- rewrite lookup_insert_ne in Hy by done. eauto.
  - (* route *)
    eapply (tinv_quiet n); [done|intros; cbn; by rewrite app_nil_r|intros; cbn; by rewrite app_nil_r| |]; cbn [nstep].
    + destruct (n_clients n !! c) as [[s0 [|m rest] down used]|]; [done| |done].
      pose proof (proj1 (handle_quiet n o c m)) as X. set (n1 := handle o c m n) in *. intros x.
      destruct (n_clients n1 !! c); cbn; by rewrite X.
    + intros x cl'. destruct (n_clients n !! c) as [[s0 [|m rest] down used]|] eqn:Hc; [right; eauto| |right; eauto].
      pose proof (proj2 (handle_quiet n o c m)) as X. set (n1 := handle o c m n) in *. intros Hx. right.
      destruct (n_clients n1 !! c) as [cl1|] eqn:E1; [|by eapply X]. cbn in Hx.
      destruct (decide (x = c)) as [->|Hne].
      * rewrite lookup_insert in Hx. injection Hx as <-. cbn. by eapply X.
      * rewrite lookup_insert_ne in Hx by done. by eapply X.
  - (* deliver *)
    cbn [nstep]. destruct (n_clients n !! c) as [[s up down used]|] eqn:Hc.
    2:{ eapply (tinv_quiet n); [done| |intros; cbn; by rewrite app_nil_r|done|intros; right; eauto].
        intros x. cbn. rewrite Hc. destruct (c =? x); by rewrite app_nil_r. }
    destruct down as [|m down].
    { eapply (tinv_quiet n); [done| |intros; cbn; by rewrite app_nil_r|done|intros; right; eauto].
      intros x. cbn. rewrite Hc. destruct (c =? x); by rewrite app_nil_r. }
    destruct (sstep s (SReceiveMessage m)) as [s' r] eqn:Es.
    assert (K : tinv (nset_clients (<[c := Client s' up down used]> (n_clients n)) n)
              (fun c0 => log c0 ++ hreads c0 n (HNet (NDeliver c))) (fun c0 => made c0 ++ hcalls c0 n (HNet (NDeliver c)))).
    2:{ destruct r; [exact K| |]; destruct K as [K1 K2]; by constructor. }
    constructor.
    + intros y Hy. cbn [hreads hcalls delivers makes_call]. destruct (tv_new _ _ _ H _ Hy) as [-> ->].
      destruct (N.eqb_spec c y) as [<-|]; [|done]. exfalso. apply Hy, (hv_ever _ _ _ Hn). by rewrite Hc.
    + net_cbn. intros y cl' Hh Hy. cbn [hreads hcalls delivers makes_call]. rewrite app_nil_r.
      destruct (decide (y = c)) as [->|Hne].
      * rewrite lookup_insert in Hy. injection Hy as <-. rewrite N.eqb_refl, Hc.
        destruct (hv_sync _ _ _ Hn _ _ Hh Hc) as [s1 I1]. pose proof (is_replay _ _ _ _ _ I1) as Hrep. cbn in Hrep.
        destruct (replay_cons _ _ _ _ Hrep) as (s2 & Eacc & _). destruct (acc_ok _ _ _ Eacc) as [x Ex].
        rewrite Es in Ex. injection Ex as -> ->.
        destruct (tv_tally _ _ _ H _ _ Hh Hc) as (T1 & T2 & T3 & T4 & T5). cbn [cl_session cl_used] in *.
        pose proof (fun r => acc_calls _ _ _ r Eacc) as Ha.
        unfold tally. cbn [cl_session cl_used]. unfold answer_ids in *. rewrite omap_app. fold (answer_ids [m]) in *.
        split; [|split; [done|split; [|split; [|done]]]].
        -- apply NoDup_app. split; [done|]. split.
           ++ intros r Hr Hin. apply (T4 r); [|done]. apply Ha. by right.
           ++ unfold answer_ids. cbn [omap list_omap]. generalize (match m with MResult x => if says (re_details x) "progress" then None else Some (re_request x) | MError x => if er_type x =? tCall then Some (er_request x) else None | _ => None end). intros [y|]; [apply NoDup_singleton|constructor].
        -- intros r. rewrite T3, elem_of_app. destruct (Ha r) as [-> _]. tauto.
        -- intros r Hr. rewrite elem_of_app. intros [Hin|Hin].
           ++ apply (T4 r); [|done]. apply Ha. by left.
           ++ by apply (proj2 (Ha r)).
      * rewrite lookup_insert_ne in Hy by done. destruct (N.eqb_spec c y) as [|]; [congruence|]. rewrite app_nil_r.
        by apply (tv_tally _ _ _ H).
  - cbn [hreads hcalls delivers makes_call nstep].
    eapply (tinv_quiet n); [done|intros; by rewrite app_nil_r|intros; by rewrite app_nil_r| |].
    + intros x Hc Hin. apply Hc.
      assert (X : forall a b c0 (y : net), n_ever (fst (call_dealer a b (fst (call_broker a c0 y)))) = n_ever y).
      { intros a b c0 y. unfold call_dealer. destruct (dstep _ _ _); cbn; unfold call_broker; by destruct (bstep _ _ _). }
      by rewrite X.
    + intros x cl'. rewrite kept_dealer, kept_broker. intros Hx. right. eauto.
Qed.

Lemma tinv_run es : forall n k log made, hninv honest n k -> N.of_nat (k + length es) <= two53 -> decently honest n es ->
  n_crashed (hrun n es) = [] -> tinv n log made ->
  tinv (hrun n es) (fun c => log c ++ hread c n es) (fun c => made c ++ hcalled c n es).
Proof.
  induction es as [|e es IH]; intros n k log made Hn Hk Hd Hcr H.
  - cbn. destruct H as [H1 H2]. constructor; intros; rewrite ?app_nil_r; auto.
  - destruct Hd as [Hd1 Hd2]. cbn [length hrun] in *.
    assert (Hn1 : hninv honest (hstep n e) (S k)).
    { apply hninv_step; [done|lia|done|]. eapply crashes_nil; [apply crashes_hrun|exact Hcr]. }
    destruct (IH _ (S k) _ _ Hn1 ltac:(lia) Hd2 Hcr (tinv_step _ _ _ _ _ Hn Hd1 H)) as [K1 K2].
    unfold hlogged, hcounted in *. constructor.
    + intros c Hc. cbn [hread hcalled]. rewrite !app_assoc. by apply K1.
    + intros c cl Hh Hc. cbn [hread hcalled]. rewrite !app_assoc. by apply K2.
Qed.

(** ** The properties *)

Lemma hreached es : N.of_nat (length es) <= two53 -> decently honest empty_net es ->
  n_crashed (hrun empty_net es) = [] -> hninv honest (hrun empty_net es) (length es).
Proof. intros Hl Hd Hcr. apply (hninv_run honest es empty_net 0 (hninv_empty honest)); done. Qed.
Lemma htold es : N.of_nat (length es) <= two53 -> decently honest empty_net es ->
  n_crashed (hrun empty_net es) = [] ->
  tinv (hrun empty_net es) (fun c => hread c empty_net es) (fun c => hcalled c empty_net es).
Proof.
  intros Hl Hd Hcr. assert (tinv empty_net (fun _ => []) (fun _ => [])) as H0 by (constructor; [done|intros c cl _ H; cbn in H; by rewrite lookup_empty in H]).
  pose proof (tinv_run es _ _ _ _ (hninv_empty honest) Hl Hd Hcr H0) as [H1 H2]. by constructor.
Qed.

Lemma h_accepted es c a : N.of_nat (length es) <= two53 -> decently honest empty_net es ->
  n_crashed (hrun empty_net es) = [] -> honest c -> (c, a) ∉ n_rejected (hrun empty_net es).
Proof. intros Hl Hd Hcr Hh H. by eapply (hv_rejected _ _ _ (hreached es Hl Hd Hcr)). Qed.

Lemma h_agreement es c cl : N.of_nat (length es) <= two53 -> decently honest empty_net es ->
  n_crashed (hrun empty_net es) = [] -> honest c ->
  n_clients (hrun empty_net es) !! c = Some cl -> cl_down cl = [] ->
  (forall g, g ∈ cs_subscriptions (cl_session cl) <-> exists t, holds (btr (hrun empty_net es)) c t g)
  /\ (forall g, g ∈ cs_registrations (cl_session cl) <-> exists p, owns (dtr (hrun empty_net es)) c p g)
  /\ (forall r, r ∈ cs_calls (cl_session cl) <->
        r ∈ call_ids (cl_up cl) \/ exists i rp, open_inv (dtr (hrun empty_net es)) i c r rp).
Proof.
  intros Hl Hf Hcr Hh Hc Hd. destruct (hv_sync _ _ _ (hreached es Hl Hf Hcr) _ _ Hh Hc) as [s I].
  pose proof (is_replay _ _ _ _ _ I) as E. rewrite Hd in E. cbn in E. injection E as E. rewrite E.
  split; [apply I|]. split; [apply I|]. intros r. apply (is_calls _ _ _ _ _ I).
Qed.

Lemma h_accounted es c cl r : N.of_nat (length es) <= two53 -> decently honest empty_net es ->
  n_crashed (hrun empty_net es) = [] -> honest c ->
  n_clients (hrun empty_net es) !! c = Some cl -> r ∈ hcalled c empty_net es ->
  exactly_one [ r ∈ call_ids (cl_up cl);
                exists i rp, open_inv (dtr (hrun empty_net es)) i c r rp;
                r ∈ answer_ids (cl_down cl);
                r ∈ answer_ids (hread c empty_net es) ].
Proof.
  intros Hl Hf Hcr Hh Hc Hr. destruct (hv_sync _ _ _ (hreached es Hl Hf Hcr) _ _ Hh Hc) as [s I].
  destruct (tv_tally _ _ _ (htold es Hl Hf Hcr) _ _ Hh Hc) as (_ & _ & T3 & T4 & _).
  destruct (replay_calls _ _ _ (is_replay _ _ _ _ _ I)) as [_ R]. destruct (R r) as [R1 R2].
  pose proof (is_calls _ _ _ _ _ I r) as C1. pose proof (is_new _ _ _ _ _ I r) as C2.
  apply T3 in Hr. cbn [exactly_one]. rewrite !Forall_cons, !Forall_nil.
  set (O := exists i rp, open_inv (dtr (hrun empty_net es)) i c r rp).
  assert (C3 : r ∈ call_ids (cl_up cl) -> ~ O) by (intros ? (i & rp & ?); by eapply C2).
  change (exists i rp, opn (dtr (hrun empty_net es)) c i r rp) with O in C1.
  specialize (T4 r).
  destruct (decide (r ∈ answer_ids (hread c empty_net es))) as [Ha|Ha].
  { assert (Hn : r ∉ cs_calls (cl_session cl)) by tauto. tauto. }
  assert (Hin : r ∈ cs_calls (cl_session cl)) by tauto.
  destruct (decide (r ∈ answer_ids (cl_down cl))); [tauto|].
  destruct (decide (r ∈ call_ids (cl_up cl))); [tauto|]. tauto.
Qed.
Lemma h_one_invocation es c cl r i i' rp rp' : N.of_nat (length es) <= two53 -> decently honest empty_net es ->
  n_crashed (hrun empty_net es) = [] -> honest c ->
  n_clients (hrun empty_net es) !! c = Some cl ->
  open_inv (dtr (hrun empty_net es)) i c r rp -> open_inv (dtr (hrun empty_net es)) i' c r rp' -> i' = i.
Proof.
  intros Hl Hf Hcr Hh Hc H1 H2. destruct (hv_sync _ _ _ (hreached es Hl Hf Hcr) _ _ Hh Hc) as [s I].
  by eapply (is_one _ _ _ _ _ I).
Qed.

Lemma h_event_reaches es o c cl p rest y g : N.of_nat (length es) < two53 -> decently honest empty_net es ->
  let n := hrun empty_net es in
  n_crashed n = [] -> n_clients n !! c = Some cl -> cl_up cl = MPublish p :: rest -> holds (btr n) y (pu_topic p) g ->
  exists e pid, ev_subscription e = g /\ ev_args e = pu_args p /\ ev_kwargs e = pu_kwargs p /\
  forall x clx, n_clients n !! x = Some clx ->
  exists cl', n_clients (hstep n (HNet (NRoute o c))) !! x = Some cl' /\
    let ack := if (x =? c) && says (pu_options p) "acknowledge"
               then [MPublished (Published (pu_request p) pid)] else [] in
    (holds (btr n) x (pu_topic p) g -> cl_down cl' = cl_down clx ++ MEvent e :: ack)
    /\ (~ holds (btr n) x (pu_topic p) g -> cl_down cl' = cl_down clx ++ ack).
Proof.
  intros Hl Hf n Hcr. apply (publish_reaches n (length es)); [|done].
  assert (N.of_nat (length es) <= two53) as Hl' by lia. apply (hv_b _ _ _ (hreached es Hl' Hf Hcr)).
Qed.

End Hostile.

Lemma decently_app honest es1 : forall n es2, decently honest n (es1 ++ es2) <-> decently honest n es1 /\ decently honest (hrun n es1) es2.
Proof.
  induction es1 as [|e es1 IH]; intros n es2; cbn [app decently hrun]; [tauto|]. rewrite IH. tauto.
Qed.
Lemma hrun_app es1 : forall n es2, hrun n (es1 ++ es2) = hrun (hrun n es1) es2.
Proof. induction es1; intros n es2; cbn [app hrun]; auto. Qed.
Lemma hread_app c es1 : forall n es2, hread c n (es1 ++ es2) = hread c n es1 ++ hread c (hrun n es1) es2.
Proof. induction es1 as [|e es1 IH]; intros n es2; cbn [app hrun hread]; [done|]. by rewrite IH, app_assoc. Qed.
Lemma hcalled_app c es1 : forall n es2, hcalled c n (es1 ++ es2) = hcalled c n es1 ++ hcalled c (hrun n es1) es2.
Proof. induction es1 as [|e es1 IH]; intros n es2; cbn [app hrun hcalled]; [done|]. by rewrite IH, app_assoc. Qed.

Lemma h_answered_once honest es c : N.of_nat (length es) <= two53 -> decently honest empty_net es ->
  n_crashed (hrun empty_net es) = [] -> honest c ->
  NoDup (hcalled c empty_net es) /\ NoDup (answer_ids (hread c empty_net es))
  /\ forall r, r ∈ answer_ids (hread c empty_net es) -> r ∈ hcalled c empty_net es.
Proof.
  induction es as [|e es IH] using rev_ind; intros Hl Hf Hcr Hh.
  - split; [constructor|]. split; [constructor|done].
  - pose proof (htold _ _ Hl Hf Hcr) as H.
    destruct (n_clients (hrun empty_net (es ++ [e])) !! c) as [cl|] eqn:Hc.
    + destruct (tv_tally _ _ _ _ H _ _ Hh Hc) as (T1 & T2 & T3 & _). split; [done|]. split; [done|].
      intros r Hr. apply T3. by right.
    + rewrite hrun_app in Hc, Hcr. cbn [hrun] in Hc, Hcr.
      assert (hreads c (hrun empty_net es) e = [] /\ hcalls c (hrun empty_net es) e = []) as [E1 E2].
      { destruct e as [e|]; [by apply still_there|done]. }
      rewrite hread_app, hcalled_app. cbn [hread hcalled]. rewrite E1, E2. cbn. rewrite !app_nil_r.
      apply IH; [rewrite app_length in Hl; cbn in Hl; lia| | |done]; [by apply decently_app in Hf as [Hf _]|].
      eapply crashes_nil; [apply crashes_hstep|exact Hcr].
Qed.
