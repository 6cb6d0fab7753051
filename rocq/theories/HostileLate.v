(** What a client reads after it gave a subscription or registration up. *)
From Verif Require Import Prelude Value Msg IdGen Types PathMatch Mutex Broker Dealer Session Network.
From Verif Require Import BrokerSpec DealerSpec NetworkSpec NetworkProofs NetworkCalls NetworkOrigin.
From Verif Require Import Hostile HostileStep HostileFinal HostileOrderSpec HostileRead.

Local Open Scope N_scope.

(** ** How a client changes in a step *)

Definition same (cl cl' : client) : Prop := cl_session cl' = cl_session cl /\ cl_used cl' = cl_used cl.
Lemma same_refl cl : same cl cl.
Proof. by split. Qed.
Local Hint Resolve same_refl : core.
Lemma client_step c n e cl' : n_clients (hstep n e) !! c = Some cl' ->
  (exists d, e = HNet (NJoin d) /\ se_id d = c /\ cl_session cl' = new_session)
  \/ exists cl, n_clients n !! c = Some cl
     /\ ((same cl cl' /\ hreads c n e = [] /\ sends c n e = [])
         \/ (exists m r, e = HNet (NSend c m) /\ sstep (cl_session cl) (SSend (Ok "") m) = (cl_session cl', r) /\ hreads c n e = []
             /\ match r with
                | Ok _ => sends c n e = [m] /\ cl_used cl' = match request_of m with Some i => i :: cl_used cl | None => cl_used cl end
                | _ => sends c n e = [] /\ cl_used cl' = cl_used cl
                end)
         \/ (exists m r, e = HNet (NDeliver c) /\ hreads c n e = [m] /\ sends c n e = []
             /\ sstep (cl_session cl) (SReceiveMessage m) = (cl_session cl', r) /\ cl_used cl' = cl_used cl)).
Proof.
  intros Hc.
  assert (Q : forall o x m, n_clients (handle o x m n) !! c = Some cl' -> exists cl, n_clients n !! c = Some cl /\ same cl cl').
  { intros o x m H. destruct (kept_handle o x m n _ _ H) as (cl & H0 & H1 & H2). by exists cl. }
  destruct e as [e|o x m]; cbn [hstep] in Hc.
  2:{ right. destruct (n_clients n !! x); [|by exists cl'; auto].
      destruct (Q _ _ _ Hc) as (cl & H1 & H2). exists cl. auto. }
  destruct e as [d|o x|x m|o x|x|p q]; cbn [nstep] in Hc.
  - rewrite kept_dealer, kept_broker in Hc. cbn in Hc. destruct (decide (c = se_id d)) as [->|Hne].
    + rewrite lookup_insert in Hc. injection Hc as <-. left. by exists d.
    + rewrite lookup_insert_ne in Hc by done. right. exists cl'. auto.
  - rewrite kept_dealer, kept_broker in Hc. cbn in Hc. apply lookup_delete_Some in Hc as [_ Hc]. right. exists cl'. auto.
  - right. destruct (n_clients n !! x) as [cl0|] eqn:Hx.
    2:{ exists cl'. split; [done|]. left. split; [auto|]. split; [done|]. cbn. rewrite Hx. by destruct (x =? c). }
    destruct (sstep _ _) as [s' r] eqn:E. destruct (decide (c = x)) as [->|Hne].
    + exists cl0. split; [done|]. right. left. exists m, r. split; [done|]. cbn [sends]. rewrite N.eqb_refl, Hx, E.
      destruct r; cbn in Hc; rewrite lookup_insert in Hc; injection Hc as <-; done.
    + exists cl'. split; [destruct r; cbn in Hc; by rewrite lookup_insert_ne in Hc by done|]. left. split; [auto|]. split; [done|].
      cbn. by rewrite (proj2 (N.eqb_neq x c)) by done.
  - right. destruct (n_clients n !! x) as [[s [|m up] down used]|] eqn:Hx; try (by exists cl'; auto).
    cbv zeta in Hc. destruct (n_clients (handle o x m n) !! x) as [cl1|] eqn:H1.
    2:{ destruct (Q _ _ _ Hc) as (cl & K1 & K2). exists cl. auto. }
    cbn in Hc. destruct (decide (c = x)) as [->|Hne].
    + rewrite lookup_insert in Hc. injection Hc as <-. destruct (kept_handle o x m n _ _ H1) as (cl & H0 & K1 & K2).
      exists cl. split; [done|]. left. split; [by split|done].
    + rewrite lookup_insert_ne in Hc by done. destruct (Q _ _ _ Hc) as (cl & K1 & K2). exists cl. auto.
  - right. destruct (n_clients n !! x) as [[s up [|m down] used]|] eqn:Hx.
    1,3: exists cl'; split; [done|]; left; split; [by auto|]; split; [|done]; cbn; rewrite Hx; by destruct (x =? c).
    destruct (sstep _ _) as [s' r] eqn:E. destruct (decide (c = x)) as [->|Hne].
    + exists (Client s up (m :: down) used). split; [done|]. right. right. exists m, r. split; [done|].
      cbn [hreads delivers]. rewrite N.eqb_refl, Hx. cbn [cl_session cl_used]. rewrite E.
      destruct r; cbn in Hc; rewrite lookup_insert in Hc; injection Hc as <-; done.
    + exists cl'. split; [destruct r; cbn in Hc; by rewrite lookup_insert_ne in Hc by done|]. left. split; [auto|].
      split; [|done]. cbn. by rewrite (proj2 (N.eqb_neq x c)) by done.
  - rewrite kept_dealer, kept_broker in Hc. right. exists cl'. auto.
Qed.

(** ** What becomes known after some point *)

Definition learns (c : N) (G R : N -> Prop) (n : net) (log : list message) : Prop :=
  forall cl, n_clients n !! c = Some cl ->
  (forall g, G g -> g ∈ cs_subscriptions (cl_session cl) -> exists x, MSubscribed x ∈ log /\ sd_subscription x = g)
  /\ (forall g, R g -> g ∈ cs_registrations (cl_session cl) -> exists x, MRegistered x ∈ log /\ rd_registration x = g).
Lemma send_keeps s m s' r : sstep s (SSend (Ok "") m) = (s', r) ->
  cs_subscriptions s' = cs_subscriptions s /\ cs_registrations s' = cs_registrations s.
Proof.
  intros E. unfold sstep in E. destruct m; cbn in E; try (by injection E as <- <-);
    repeat (match type of E with context[if ?b then _ else _] => destruct b; cbn in E end); by injection E as <- <-.
Qed.
Lemma receive_learns s m s' r : sstep s (SReceiveMessage m) = (s', r) ->
  (forall g, g ∈ cs_subscriptions s' -> g ∈ cs_subscriptions s \/ exists x, m = MSubscribed x /\ sd_subscription x = g)
  /\ (forall g, g ∈ cs_registrations s' -> g ∈ cs_registrations s \/ exists x, m = MRegistered x /\ rd_registration x = g).
Proof.
  intros E. unfold sstep in E. destruct m; cbn in E; try (injection E as <- <-; split; auto; fail);
    repeat (match type of E with
            | context[if ?b then _ else _] => destruct b; cbn in E
            | context[match ?b with Some _ => _ | None => _ end] => destruct b; cbn in E
            end); injection E as <- <-; (split; cbn; intros g' Hg; [try (left; set_solver; fail)|try (left; set_solver; fail)]).
  all: apply elem_of_union in Hg as [->%elem_of_singleton|Hg]; [right; eauto|by left].
Qed.
Lemma learns_step c G R n log e : learns c G R n log -> learns c G R (hstep n e) (log ++ hreads c n e).
Proof.
  intros H cl' Hc. destruct (client_step _ _ _ _ Hc) as [(d & -> & _ & ->)|(cl & H0 & K)].
  { split; intros g _ Hg; cbn in Hg; set_solver. }
  specialize (H _ H0) as [H1 H2].
  destruct K as [([E _] & -> & _)|[(m & r & -> & E & -> & _)|(m & r & -> & -> & _ & E & _)]].
  - rewrite app_nil_r, E. done.
  - destruct (send_keeps _ _ _ _ E) as [-> ->]. rewrite app_nil_r. done.
  - destruct (receive_learns _ _ _ _ E) as [L1 L2]. split; intros g Hin Hg.
    + destruct (L1 _ Hg) as [K|(x & -> & K)]; [destruct (H1 _ Hin K) as (x & K1 & K2)|]; exists x; (split; [apply elem_of_app|done]).
      * by left.
      * right. by left.
    + destruct (L2 _ Hg) as [K|(x & -> & K)]; [destruct (H2 _ Hin K) as (x & K1 & K2)|]; exists x; (split; [apply elem_of_app|done]).
      * by left.
      * right. by left.
Qed.
Lemma learns_run c G R es : forall n log, learns c G R n log -> learns c G R (hrun n es) (log ++ hread c n es).
Proof.
  induction es as [|e es IH]; intros n log H; cbn [hread hrun]; [by rewrite app_nil_r|].
  rewrite app_assoc. by apply IH, learns_step.
Qed.

(** ** What is being given up was asked to be *)

Section Hostile.
Context (honest : N -> Prop).

Record asked (c : N) (n : net) (snt : list message) : Prop := Asked {
  a_new : c ∉ n_ever n -> snt = [] /\ n_clients n !! c = None;
  a_unsub : forall cl r g, n_clients n !! c = Some cl -> cs_unsubscribes (cl_session cl) !! r = Some g -> MUnsubscribe (Unsubscribe r g) ∈ snt;
  a_unreg : forall cl r g, n_clients n !! c = Some cl -> cs_unregisters (cl_session cl) !! r = Some g -> MUnregister (Unregister r g) ∈ snt;
  a_used : forall cl m r, n_clients n !! c = Some cl -> m ∈ snt -> request_of m = Some r -> r ∈ cl_used cl;
  a_one : forall m m' r, m ∈ snt -> m' ∈ snt -> request_of m = Some r -> request_of m' = Some r -> m = m' }.

Lemma send_asks s m s' r : sstep s (SSend (Ok "") m) = (s', r) ->
  (forall i g, cs_unsubscribes s' !! i = Some g -> cs_unsubscribes s !! i = Some g \/ m = MUnsubscribe (Unsubscribe i g) /\ exists x, r = Ok x)
  /\ (forall i g, cs_unregisters s' !! i = Some g -> cs_unregisters s !! i = Some g \/ m = MUnregister (Unregister i g) /\ exists x, r = Ok x).
Proof.
  intros E. unfold sstep in E. destruct m; cbn in E; try (injection E as <- <-; split; auto; fail);
    repeat (match type of E with context[if ?b then _ else _] => destruct b; cbn in E end);
    injection E as <- <-; (split; cbn; intros i g Hg; [try (by left)|try (by left)]).
  all: apply lookup_insert_Some in Hg as [[<- <-]|[_ Hg]]; [|by left]; right; (split; [|by eexists]).
  all: match goal with |- _ = _ ?y => by match goal with m : _ |- _ => destruct m end end.
Qed.
Lemma receive_asks s m s' r : sstep s (SReceiveMessage m) = (s', r) ->
  (forall i g, cs_unsubscribes s' !! i = Some g -> cs_unsubscribes s !! i = Some g)
  /\ (forall i g, cs_unregisters s' !! i = Some g -> cs_unregisters s !! i = Some g).
Proof.
  intros E. unfold sstep in E. destruct m; cbn in E; try (injection E as <- <-; split; auto; fail);
    repeat (match type of E with
            | context[if ?b then _ else _] => destruct b; cbn in E
            | context[match ?b with Some _ => _ | None => _ end] => destruct b; cbn in E
            end); injection E as <- <-; (split; cbn; intros i g' Hg; try done; by apply lookup_delete_Some in Hg as [_ Hg]).
Qed.
Lemma join_ever n d : n_ever (hstep n (HNet (NJoin d))) = se_id d :: n_ever n.
Proof.
  assert (B : forall o op y, n_ever (fst (call_broker o op y)) = n_ever y) by (intros; unfold call_broker; by destruct (bstep _ _ _)).
  assert (D : forall o op y, n_ever (fst (call_dealer o op y)) = n_ever y) by (intros; unfold call_dealer; by destruct (dstep _ _ _)).
  cbn [hstep nstep]. by rewrite D, B.
Qed.
Lemma step_ever n e : (exists d, e = HNet (NJoin d) /\ n_ever (hstep n e) = se_id d :: n_ever n) \/ n_ever (hstep n e) = n_ever n.
Proof.
  assert (B : forall o op y, n_ever (fst (call_broker o op y)) = n_ever y) by (intros; unfold call_broker; by destruct (bstep _ _ _)).
  assert (D : forall o op y, n_ever (fst (call_dealer o op y)) = n_ever y) by (intros; unfold call_dealer; by destruct (dstep _ _ _)).
  destruct e as [e|o x m]; cbn [hstep]; [|right; destruct (n_clients n !! x); [apply handle_ever|done]].
  destruct e as [d|o x|x m|o x|x|p q]; cbn [nstep].
  - left. exists d. split; [done|]. by rewrite D, B.
  - right. by rewrite D, B.
  - right. destruct (n_clients n !! x); [|done]. destruct (sstep _ _) as [s' []]; done.
  - right. destruct (n_clients n !! x) as [[s [|m up] down used]|]; try done. cbv zeta.
    destruct (n_clients (handle o x m n) !! x); cbn; apply handle_ever.
  - right. destruct (n_clients n !! x) as [[s up [|m down] used]|]; try done. destruct (sstep _ _) as [s' []]; done.
  - right. by rewrite D, B.
Qed.
Lemma sends_some c n e : sends c n e = [] \/ exists cl m, e = HNet (NSend c m) /\ n_clients n !! c = Some cl /\ sends c n e = [m].
Proof.
  destruct e as [e|]; [|by left]. destruct e as [| |x m| | |]; try by left. cbn [sends]. destruct (N.eqb_spec x c) as [->|]; [|by left].
  destruct (n_clients n !! c) as [cl|]; [|by left]. destruct (sstep (cl_session cl) (SSend (Ok "") m)) as [s' []]; [|by left|by left]. right. by exists cl, m.
Qed.
Lemma asked_step c n snt e : honest c -> decent honest n e -> asked c n snt -> asked c (hstep n e) (snt ++ sends c n e).
Proof.
  intros Hh Hd [A1 A2 A3 A4 A5].
  assert (Hone : forall m m' r, m ∈ snt ++ sends c n e -> m' ∈ snt ++ sends c n e -> request_of m = Some r -> request_of m' = Some r -> m = m').
  { destruct (sends_some c n e) as [E|(cl & m0 & -> & Hc & E)]; rewrite E; [by rewrite app_nil_r|].
    specialize (Hd Hh _ Hc) as [Hf _].
    intros m m' r [Hm| ->%elem_of_list_singleton]%elem_of_app [Hm'| ->%elem_of_list_singleton]%elem_of_app Hr Hr'; [eauto| | |done].
    - exfalso. apply (Hf _ Hr'). eauto.
    - exfalso. apply (Hf _ Hr). eauto. }
  assert (Hnew : c ∉ n_ever (hstep n e) -> snt ++ sends c n e = [] /\ n_clients (hstep n e) !! c = None).
  { intros Hc. assert (Hc0 : c ∉ n_ever n) by (destruct (step_ever n e) as [(d & _ & E)| E]; rewrite E in Hc; [set_solver|done]).
    destruct (A1 Hc0) as [-> Hn]. split.
    - destruct (sends_some c n e) as [E|(cl & m0 & -> & Hc1 & E)]; [by rewrite E|congruence].
    - destruct (n_clients (hstep n e) !! c) as [cl'|] eqn:H; [exfalso|done].
      destruct (client_step _ _ _ _ H) as [(d & -> & <- & _)|(cl & H0 & _)]; [|congruence].
      rewrite join_ever in Hc. apply Hc. by left. }
  assert (Hcl : forall cl', n_clients (hstep n e) !! c = Some cl' ->
    (forall r g, cs_unsubscribes (cl_session cl') !! r = Some g -> MUnsubscribe (Unsubscribe r g) ∈ snt ++ sends c n e)
    /\ (forall r g, cs_unregisters (cl_session cl') !! r = Some g -> MUnregister (Unregister r g) ∈ snt ++ sends c n e)
    /\ (forall m r, m ∈ snt ++ sends c n e -> request_of m = Some r -> r ∈ cl_used cl')).
  { intros cl' H. destruct (client_step _ _ _ _ H) as [(d & -> & <- & E)|(cl & H0 & K)].
    - destruct (A1 Hd) as [-> _]. rewrite E. cbn. split; [intros r g Hx; by rewrite lookup_empty in Hx|].
      split; [intros r g Hx; by rewrite lookup_empty in Hx|]. intros m r Hm. by apply elem_of_nil in Hm.
    - destruct K as [([E1 E2] & _ & ->)|[(m & r & -> & E & _ & K)|(m & r & -> & _ & -> & E & E2)]].
      + rewrite app_nil_r, E1, E2. split; [eauto|]. split; eauto.
      + destruct (send_asks _ _ _ _ E) as [L1 L2]. destruct r as [x|t|t].
        * destruct K as [-> ->]. split; [|split].
          -- intros i g Hg. apply elem_of_app. destruct (L1 _ _ Hg) as [K|[-> _]]; [left; eauto|right; by left].
          -- intros i g Hg. apply elem_of_app. destruct (L2 _ _ Hg) as [K|[-> _]]; [left; eauto|right; by left].
          -- intros m' i [Hm| ->%elem_of_list_singleton]%elem_of_app Hr; [|rewrite Hr; by left].
             destruct (request_of m); [right|]; eauto.
        * destruct K as [-> ->]. rewrite app_nil_r. split; [|split; [|eauto]]; intros i g Hg;
            [destruct (L1 _ _ Hg) as [?|[_ [? ?]]]|destruct (L2 _ _ Hg) as [?|[_ [? ?]]]]; [eauto|done|eauto|done].
        * destruct K as [-> ->]. rewrite app_nil_r. split; [|split; [|eauto]]; intros i g Hg;
            [destruct (L1 _ _ Hg) as [?|[_ [? ?]]]|destruct (L2 _ _ Hg) as [?|[_ [? ?]]]]; [eauto|done|eauto|done].
      + destruct (receive_asks _ _ _ _ E) as [L1 L2]. rewrite app_nil_r, E2. split; [|split]; eauto. }
  constructor; [done| | | |done].
  - intros cl' r g Hc. by apply (Hcl cl' Hc).
  - intros cl' r g Hc. by apply (Hcl cl' Hc).
  - intros cl' m r Hc. by apply (Hcl cl' Hc).
Qed.
Lemma asked_run c es : honest c -> forall n snt, decently honest n es -> asked c n snt -> asked c (hrun n es) (snt ++ sent c n es).
Proof.
  intros Hh. induction es as [|e es IH]; intros n snt Hd H; cbn [sent hrun]; [by rewrite app_nil_r|].
  destruct Hd as [Hd1 Hd2]. rewrite app_assoc. apply IH; [done|]. by apply asked_step.
Qed.
Lemma was_asked c es : honest c -> decently honest empty_net es -> asked c (hrun empty_net es) (sent c empty_net es).
Proof.
  intros Hh Hd. apply (asked_run c es Hh empty_net []); [done|].
  constructor; [done|by intros cl r g H; cbn in H; rewrite lookup_empty in H|by intros cl r g H; cbn in H; rewrite lookup_empty in H| |].
  - intros cl m r _ H. by apply elem_of_nil in H.
  - intros m m' r H. by apply elem_of_nil in H.
Qed.
Lemma sent_app c es1 es2 : forall n, sent c n (es1 ++ es2) = sent c n es1 ++ sent c (hrun n es1) es2.
Proof. induction es1 as [|e es1 IH]; intros n; cbn; [done|]. by rewrite IH, app_assoc. Qed.

(** Between reading [m] and reading [m']. *)
Lemma between es c a m b m' d : N.of_nat (length es) <= two53 -> decently honest empty_net es ->
  n_crashed (hrun empty_net es) = [] -> honest c -> hread c empty_net es = a ++ m :: b ++ m' :: d ->
  exists s s1 x s2 s3 y, sstep s (SReceiveMessage m) = (s1, Ok x) /\ sstep s2 (SReceiveMessage m') = (s3, Ok y)
    /\ (forall r g, cs_unsubscribes s !! r = Some g -> MUnsubscribe (Unsubscribe r g) ∈ sent c empty_net es)
    /\ (forall r g, cs_unregisters s !! r = Some g -> MUnregister (Unregister r g) ∈ sent c empty_net es)
    /\ (forall g, g ∉ cs_subscriptions s1 -> g ∈ cs_subscriptions s2 -> exists x, MSubscribed x ∈ b /\ sd_subscription x = g)
    /\ (forall g, g ∉ cs_registrations s1 -> g ∈ cs_registrations s2 -> exists x, MRegistered x ∈ b /\ rd_registration x = g).
Proof.
  intros Hl Hd Hcr Hh H. destruct (read_split _ _ _ _ _ _ H) as (es1 & es2 & s & up & down & used & -> & H1 & H2 & H3).
  destruct (reads_accepted_at honest _ _ _ _ _ _ _ _ Hl Hd Hcr Hh H2) as (s1 & x & E).
  destruct (read_split _ _ _ _ _ _ H3) as (es3 & es4 & s2 & up2 & down2 & used2 & -> & H4 & H5 & _).
  set (n1 := hstep (hrun empty_net es1) (HNet (NDeliver c))) in *.
  assert (E2 : es1 ++ HNet (NDeliver c) :: es3 ++ HNet (NDeliver c) :: es4 = (es1 ++ HNet (NDeliver c) :: es3) ++ HNet (NDeliver c) :: es4)
    by (by rewrite <- app_assoc).
  assert (H6 : n_clients (hrun empty_net (es1 ++ HNet (NDeliver c) :: es3)) !! c = Some (Client s2 up2 (m' :: down2) used2))
    by (by rewrite hrun_app).
  pose proof Hd as [Hd1 _]%decently_app. pose proof (was_asked c es1 Hh Hd1) as A.
  pose proof Hl as Hl'. pose proof Hd as Hd'. pose proof Hcr as Hcr'. rewrite E2 in Hl', Hd', Hcr'.
  destruct (reads_accepted_at honest _ _ _ _ _ _ _ _ Hl' Hd' Hcr' Hh H6) as (s3 & y & E3).
  exists s, s1, x, s2, s3, y. split; [done|]. split; [done|]. rewrite sent_app.
  split; [intros r g Hr; apply elem_of_app; left; exact (a_unsub _ _ _ A _ _ _ H2 Hr)|].
  split; [intros r g Hr; apply elem_of_app; left; exact (a_unreg _ _ _ A _ _ _ H2 Hr)|].
  assert (Hn1 : n_clients n1 !! c = Some (Client s1 up down used)).
  { subst n1. cbn [hstep nstep]. rewrite H2, E. cbn. by rewrite lookup_insert. }
  assert (L : learns c (fun g => g ∉ cs_subscriptions s1) (fun g => g ∉ cs_registrations s1) n1 []).
  { intros cl. rewrite Hn1. intros [= <-]. done. }
  pose proof (learns_run _ _ _ es3 _ _ L _ H5) as [L1 L2]. cbn [app cl_session] in L1, L2. rewrite H4 in L1, L2. by split.
Qed.

Lemma no_late_event es c a u b e d x : N.of_nat (length es) <= two53 -> decently honest empty_net es ->
  n_crashed (hrun empty_net es) = [] -> honest c -> hread c empty_net es = a ++ MUnsubscribed u :: b ++ MEvent e :: d ->
  MUnsubscribe x ∈ sent c empty_net es -> us_request x = ud_request u -> us_subscription x = ev_subscription e ->
  exists y, MSubscribed y ∈ b /\ sd_subscription y = ev_subscription e.
Proof.
  intros Hl Hd Hcr Hh H Hx Hr Hg. destruct (between _ _ _ _ _ _ _ Hl Hd Hcr Hh H) as (s & s1 & r1 & s2 & s3 & r2 & E1 & E2 & U & _ & L & _).
  apply L.
  - unfold sstep in E1. cbn in E1. destruct (cs_unsubscribes s !! ud_request u) as [g|] eqn:Eu; [|discriminate].
    specialize (U _ _ Eu). assert (Ex : MUnsubscribe x = MUnsubscribe (Unsubscribe (ud_request u) g)).
    { apply (a_one _ _ _ (was_asked c es Hh Hd) _ _ (ud_request u)); try done. cbn. by rewrite Hr. }
    injection Ex as ->. cbn in Hg. subst g. cbn in E1. case_bool_decide; [|discriminate]. injection E1 as <- _. cbn. set_solver.
  - unfold sstep in E2. cbn in E2. case_bool_decide; [done|discriminate].
Qed.
Lemma no_late_invocation es c a u b v d x : N.of_nat (length es) <= two53 -> decently honest empty_net es ->
  n_crashed (hrun empty_net es) = [] -> honest c -> hread c empty_net es = a ++ MUnregistered u :: b ++ MInvocation v :: d ->
  MUnregister x ∈ sent c empty_net es -> ur_request x = un_request u -> ur_registration x = in_registration v ->
  exists y, MRegistered y ∈ b /\ rd_registration y = in_registration v.
Proof.
  intros Hl Hd Hcr Hh H Hx Hr Hg. destruct (between _ _ _ _ _ _ _ Hl Hd Hcr Hh H) as (s & s1 & r1 & s2 & s3 & r2 & E1 & E2 & _ & U & _ & L).
  apply L.
  - unfold sstep in E1. cbn in E1. destruct (cs_unregisters s !! un_request u) as [g|] eqn:Eu; [|discriminate].
    specialize (U _ _ Eu). assert (Ex : MUnregister x = MUnregister (Unregister (un_request u) g)).
    { apply (a_one _ _ _ (was_asked c es Hh Hd) _ _ (un_request u)); try done. cbn. by rewrite Hr. }
    injection Ex as ->. cbn in Hg. subst g. cbn in E1. case_bool_decide; [|discriminate]. injection E1 as <- _. cbn. set_solver.
  - unfold sstep in E2. cbn in E2. case_bool_decide; [done|discriminate].
Qed.
Lemma not_invoked es c a u b x : N.of_nat (length es) <= two53 -> decently honest empty_net es ->
  n_crashed (hrun empty_net es) = [] -> honest c -> hread c empty_net es = a ++ MUnregistered u :: b ->
  MUnregister x ∈ sent c empty_net es -> ur_request x = un_request u ->
  (forall y, MRegistered y ∈ b -> rd_registration y <> ur_registration x) ->
  forall v, MInvocation v ∈ b -> in_registration v <> ur_registration x.
Proof.
  intros Hl Hd Hcr Hh H Hx Hr Hno v (b1 & b2 & ->)%elem_of_list_split Hv.
  destruct (no_late_invocation _ _ _ _ _ _ _ _ Hl Hd Hcr Hh H Hx Hr (eq_sym Hv)) as (y & Hy & E).
  apply (Hno y); [apply elem_of_app; by left|by rewrite E].
Qed.
End Hostile.
