(** The topic table, in terms of the trace. *)
From Verif Require Import Prelude Value Msg IdGen Types PathMatch Broker BrokerSpec BaseFacts TypesFacts BrokerFacts BrokerSim.

Record tinv (tr : btrace) (s : table) : Prop := {
  ti_hold : forall sid t id, holds tr sid t id <->
    exists r, tb_rows s !! t = Some r /\ t_id r = id /\ sid ∈ t_subs r;
  ti_att : forall sid, attached tr sid <-> is_Some (tb_sessions s !! sid);
  ti_added : forall sid d, added tr sid d <-> tb_sessions s !! sid = Some d;
  ti_disc : disclosing tr = tb_disclose s;
  ti_search : forall t pol id, searchable tr t pol id <->
    exists r, tb_rows s !! t = Some r /\ t_id r = id /\ t_policy r = pol /\ t_indexed r = true;
  ti_row : forall t r, tb_rows s !! t = Some r -> t_subs r <> ∅ /\ 1 <= t_id r <= tb_ids s;
  ti_inj : forall t1 t2 r1 r2, tb_rows s !! t1 = Some r1 -> tb_rows s !! t2 = Some r2 ->
    t_id r1 = t_id r2 -> t1 = t2;
  ti_subs : forall t r sid, tb_rows s !! t = Some r -> sid ∈ t_subs r -> is_Some (tb_sessions s !! sid);
  (* ids seen so far *)
  ti_sub_ids : forall c sid t id, c ∈ tr -> is_subscribed c sid t id ->
    1 <= id <= tb_ids s /\ forall t' r, tb_rows s !! t' = Some r -> t_id r = id -> t' = t;
  ti_sub_inj : forall c1 c2 sid1 sid2 t1 t2 id, c1 ∈ tr -> c2 ∈ tr ->
    is_subscribed c1 sid1 t1 id -> is_subscribed c2 sid2 t2 id -> t1 = t2;
  ti_pub_ids : forall op out pid, (op, out) ∈ tr -> shows_publication out pid ->
    1 <= pid <= tb_ids s /\ (forall t r, tb_rows s !! t = Some r -> t_id r <> pid)
    /\ forall c sid t, c ∈ tr -> ~ is_subscribed c sid t pid }.

Lemma tinv_empty : tinv [] empty_table.
Proof.
  constructor; cbn; try done; try (intros; set_solver).
  intros sid. split; [done|]. intros [x H]. discriminate H.
Qed.

(** What a step does to the rows. *)
Lemma leave_some sid r r' : leave sid r = Some r' ->
  t_id r' = t_id r /\ t_policy r' = t_policy r /\ t_subs r' = t_subs r ∖ {[sid]}
  /\ t_indexed r' = (if decide (sid ∈ t_subs r) then false else t_indexed r) /\ (t_subs r <> ∅ -> t_subs r' <> ∅).
Proof.
  unfold leave. destruct (decide (sid ∈ t_subs r)).
  - destruct (decide (t_subs r ∖ {[sid]} = ∅)); [done|]. intros [= <-]. done.
  - intros [= <-]. repeat split; try done. set_solver.
Qed.
Lemma leave_none sid r : leave sid r = None -> t_subs r ⊆ {[sid]}.
Proof.
  unfold leave. destruct (decide (sid ∈ t_subs r)); [|done].
  destruct (decide (t_subs r ∖ {[sid]} = ∅)); [|done]. intros _ x Hx. destruct (decide (x = sid)); set_solver.
Qed.

(** A step that leaves rows and sessions alone and shows at most the next id. *)
Lemma tinv_quiet tr s op out s' :
  tinv tr s -> tb_rows s' = tb_rows s -> tb_sessions s' = tb_sessions s -> tb_ids s <= tb_ids s' ->
  (forall sid t id, ~ is_subscribed (op, out) sid t id) ->
  (forall sid id, ~ is_ended (op, out) sid id) ->
  (forall t pol id, ~ is_created (op, out) t pol id) ->
  (forall d, (op, out) <> (BAdd d, BOk)) ->
  disclosing ((op, out) :: tr) = tb_disclose s' ->
  (forall pid, shows_publication out pid -> pid = tb_ids s + 1 /\ tb_ids s' = tb_ids s + 1) ->
  tinv ((op, out) :: tr) s'.
Proof.
  intros I E1 E2 E3 Hs He Hc Ha Hd Hp. constructor; rewrite ?E1, ?E2.
  - intros sid t id. cbn [holds]. rewrite (ti_hold _ _ I). naive_solver.
  - intros sid. cbn [attached].
    destruct op, out; try apply (ti_att _ _ I); [by destruct (Ha d)|by destruct (He id 0)].
  - intros sid d. cbn [added].
    destruct op, out; try apply (ti_added _ _ I); [by destruct (Ha d0)|by destruct (He id 0)].
  - done.
  - intros t pol id. cbn [searchable]. rewrite (ti_search _ _ I). naive_solver.
  - intros t r Hr. destruct (ti_row _ _ I t r Hr). split; [done|lia].
  - apply (ti_inj _ _ I).
  - apply (ti_subs _ _ I).
  - intros c sid t id [->|Hin]%elem_of_cons Hc1; [by apply Hs in Hc1|].
    destruct (ti_sub_ids _ _ I c sid t id Hin Hc1). split; [lia|done].
  - intros c1 c2 sid1 sid2 t1 t2 id [->|Hin1]%elem_of_cons [->|Hin2]%elem_of_cons H1 H2; try (by apply Hs in H1); try (by apply Hs in H2).
    by eapply (ti_sub_inj _ _ I c1 c2).
  - intros op0 out0 pid [[= -> ->]|Hin]%elem_of_cons Hsh.
    + apply Hp in Hsh as [-> Hi]. split; [lia|]. split.
      * intros t r Hr. destruct (ti_row _ _ I t r Hr). lia.
      * intros c sid t [->|Hin]%elem_of_cons H; [by apply Hs in H|].
        destruct (ti_sub_ids _ _ I c sid t _ Hin H). lia.
    + destruct (ti_pub_ids _ _ I op0 out0 pid Hin Hsh) as (H1 & H2 & H3). split; [lia|]. split; [done|].
      intros c sid t [->|Hin']%elem_of_cons H; [by apply Hs in H|]. by eapply H3.
Qed.

(** A step in which [sid] leaves the rows selected by [P]. *)
Lemma tinv_leave tr s op out s' sid (P : string -> bool) :
  tinv tr s ->
  (forall t, tb_rows s' !! t = if P t then tb_rows s !! t ≫= leave sid else tb_rows s !! t) ->
  tb_ids s' = tb_ids s -> tb_disclose s' = tb_disclose s ->
  (forall x t id, ~ is_subscribed (op, out) x t id) ->
  (forall t pol id, ~ is_created (op, out) t pol id) ->
  disclosing ((op, out) :: tr) = disclosing tr ->
  (forall pid, ~ shows_publication out pid) ->
  (forall x t r, tb_rows s !! t = Some r -> x ∈ t_subs r ->
     (is_ended (op, out) x (t_id r) <-> x = sid /\ P t = true)) ->
  (forall x, attached ((op, out) :: tr) x <-> is_Some (tb_sessions s' !! x)) ->
  (forall x d, added ((op, out) :: tr) x d <-> tb_sessions s' !! x = Some d) ->
  (forall t r x, tb_rows s' !! t = Some r -> x ∈ t_subs r -> is_Some (tb_sessions s' !! x)) ->
  tinv ((op, out) :: tr) s'.
Proof.
  intros I Hrows E2 E3 Hs Hc Hd Hp He Hatt Hadd Hsubs.
  assert (Hback : forall t r', tb_rows s' !! t = Some r' -> exists r, tb_rows s !! t = Some r
     /\ t_id r' = t_id r /\ t_policy r' = t_policy r /\ (t_subs r <> ∅ -> t_subs r' <> ∅)
     /\ (forall x, x ∈ t_subs r' <-> x ∈ t_subs r /\ ~ (x = sid /\ P t = true))
     /\ (t_indexed r' = true <-> t_indexed r = true /\ ~ (sid ∈ t_subs r /\ P t = true))).
  { intros t r'. rewrite Hrows. destruct (P t).
    - destruct (tb_rows s !! t) as [r|]; [|done]. cbn. intros H. exists r.
      apply leave_some in H as (-> & -> & -> & -> & Hne). split; [done|]. split; [done|]. split; [done|].
      split; [done|]. split; [set_solver|]. destruct (decide (sid ∈ t_subs r)); naive_solver.
    - intros ->. exists r'. naive_solver. }
  assert (Hforth : forall t r x, tb_rows s !! t = Some r -> x ∈ t_subs r -> ~ (x = sid /\ P t = true) ->
     exists r', tb_rows s' !! t = Some r').
  { intros t r x Hr Hx Hn. rewrite Hrows, Hr. destruct (P t); [|eauto]. cbn.
    destruct (leave sid r) as [r'|] eqn:El; [eauto|]. apply leave_none in El.
    exfalso. apply Hn. split; [|done]. clear -Hx El. set_solver. }
  constructor.
  - intros x t id. cbn [holds]. rewrite (ti_hold _ _ I). split.
    + intros [H|[(r & Hr & Hri & Hx) Hne]]; [by apply Hs in H|]. subst id.
      rewrite (He x t r Hr Hx) in Hne.
      destruct (Hforth t r x Hr Hx Hne) as [r' Hr']. exists r'. split; [done|].
      destruct (Hback t r' Hr') as (r0 & Hr0 & Hi & _ & _ & Hsub & _).
      assert (r0 = r) as -> by congruence. split; [done|]. by apply Hsub.
    + intros (r' & Hr' & Hi' & Hx). right. destruct (Hback t r' Hr') as (r & Hr & Hi & _ & _ & Hsub & _).
      destruct (proj1 (Hsub x) Hx) as [Hx0 Hn]. split; [exists r; split; [done|]; split; [congruence|done]|].
      assert (id = t_id r) as -> by congruence. by rewrite (He x t r Hr Hx0).
  - done.
  - done.
  - by rewrite Hd, E3, (ti_disc _ _ I).
  - intros t pol id. cbn [searchable]. rewrite (ti_search _ _ I). split.
    + intros [[H _]|[(r & Hr & <- & <- & Hix) Hn]]; [by apply Hc in H|].
      assert (Hns : ~ (sid ∈ t_subs r /\ P t = true)).
      { intros [H1 H2]. apply (Hn sid); [apply (ti_hold _ _ I); eauto|]. by apply (He sid t r Hr H1). }
      assert (exists x, x ∈ t_subs r /\ ~ (x = sid /\ P t = true)) as (x & Hx & Hxn).
      { destruct (set_choose_L (t_subs r)) as [x Hx]; [by apply (ti_row _ _ I t)|]. exists x. split; [done|].
        intros [-> ?]. auto. }
      destruct (Hforth t r x Hr Hx Hxn) as [r' Hr']. exists r'.
      destruct (Hback t r' Hr') as (r0 & Hr0 & Hi & Hpol & _ & _ & Hidx).
      assert (r0 = r) as -> by congruence. split; [done|]. split; [done|]. split; [done|]. by apply Hidx.
    + intros (r' & Hr' & Hi' & Hp' & Hx'). right.
      destruct (Hback t r' Hr') as (r & Hr & Hi & Hpol & _ & _ & Hidx). destruct (proj1 Hidx Hx') as [Hx0 Hn].
      split; [exists r; split; [done|]; split; [congruence|]; split; [congruence|done]|].
      intros x Hx Hend. apply (ti_hold _ _ I) in Hx as (r0 & Hr0 & Hi0 & Hx).
      assert (r0 = r) as -> by congruence. rewrite <- Hi0 in Hend. apply (He x t r Hr Hx) in Hend as [-> ?]. auto.
  - intros t r' Hr'. destruct (Hback t r' Hr') as (r & Hr & -> & _ & Hne & _). rewrite E2.
    destruct (ti_row _ _ I t r Hr). auto.
  - intros t1 t2 r1 r2 H1 H2. destruct (Hback t1 r1 H1) as (ra & Ha & -> & _).
    destruct (Hback t2 r2 H2) as (rb & Hb & -> & _). by apply (ti_inj _ _ I).
  - done.
  - intros c x t id [->|Hin]%elem_of_cons H; [by apply Hs in H|]. rewrite E2.
    destruct (ti_sub_ids _ _ I c x t id Hin H) as [? Hu]. split; [done|].
    intros t' r' Hr' Hi. destruct (Hback t' r' Hr') as (r & Hr & Hi' & _). eapply Hu; [done|congruence].
  - intros c1 c2 sid1 sid2 t1 t2 id [->|Hin1]%elem_of_cons [->|Hin2]%elem_of_cons H1 H2; try (by apply Hs in H1); try (by apply Hs in H2).
    by eapply (ti_sub_inj _ _ I c1 c2).
  - intros op0 out0 pid [[= -> ->]|Hin]%elem_of_cons Hsh; [by apply Hp in Hsh|].
    destruct (ti_pub_ids _ _ I op0 out0 pid Hin Hsh) as (H1 & H2 & H3). rewrite E2. split; [done|]. split.
    + intros t r' Hr'. destruct (Hback t r' Hr') as (r & Hr & -> & _). eauto.
    + intros c x t [->|Hin']%elem_of_cons H; [by apply Hs in H|]. by eapply H3.
Qed.

(** A step in which [sid] joins topic [t]. *)
Lemma tinv_join tr s s' sid m id pol subs ix :
  tinv tr s ->
  let t := su_topic m in
  let out := BMsg (MSubscribed (Subscribed (su_request m) id)) sid in
  is_Some (tb_sessions s !! sid) ->
  tb_rows s' = <[t := TopicRow id pol ({[sid]} ∪ subs) ix]> (tb_rows s) ->
  tb_sessions s' = tb_sessions s -> tb_disclose s' = tb_disclose s ->
  (tb_rows s !! t = Some (TopicRow id pol subs ix) /\ tb_ids s' = tb_ids s
   \/ tb_rows s !! t = None /\ id = tb_ids s + 1 /\ tb_ids s' = tb_ids s + 1 /\ subs = ∅ /\ ix = true
      /\ pol = requested_policy (su_options m)) ->
  tinv ((BReceive sid (MSubscribe m), out) :: tr) s'.
Proof.
  intros I t out Hatt Hrows E2 E3 Hcase.
  assert (Hle : tb_ids s <= tb_ids s') by (destruct Hcase as [[_ ->]|(_ & _ & -> & _)]; lia).
  assert (Hid : 1 <= id <= tb_ids s').
  { destruct Hcase as [[Hr ->]|(_ & -> & -> & _)]; [|lia]. by destruct (ti_row _ _ I _ _ Hr). }
  assert (Huniq : forall t' r, tb_rows s !! t' = Some r -> t_id r = id -> t' = t).
  { intros t' r Hr Hi. destruct Hcase as [[Hr0 _]|(_ & -> & _)].
    - by eapply (ti_inj _ _ I); [done..|].
    - destruct (ti_row _ _ I _ _ Hr). lia. }
  assert (Hsubsin : forall x, x ∈ subs -> exists r, tb_rows s !! t = Some r /\ t_id r = id /\ x ∈ t_subs r).
  { intros x Hx. destruct Hcase as [[Hr0 _]|(_ & _ & _ & -> & _)]; [eauto|set_solver]. }
  assert (Hold : forall r, tb_rows s !! t = Some r -> r = TopicRow id pol subs ix).
  { intros r Hr. destruct Hcase as [[Hr0 _]|(Hn & _)]; congruence. }
  constructor.
  - intros x t0 i. cbn [holds is_subscribed is_ended out]. rewrite Hrows, (ti_hold _ _ I). split.
    + intros [(<- & <- & <- & _)|[(r & Hr & Hi & Hx) _]].
      * eexists. split; [apply lookup_insert|]. cbn. set_solver.
      * destruct (decide (t0 = t)) as [->|Hne]; [|exists r; by rewrite lookup_insert_ne].
        eexists. split; [apply lookup_insert|]. rewrite (Hold r Hr) in Hi, Hx. cbn in *. set_solver.
    + intros (r & Hr & Hi & Hx). destruct (decide (t0 = t)) as [->|Hne].
      * rewrite lookup_insert in Hr. injection Hr as <-. cbn in Hi, Hx. subst i.
        apply elem_of_union in Hx as [->%elem_of_singleton|Hx]; [by left|]. right. split; [|tauto].
        destruct (Hsubsin x Hx) as (r & ? & ? & ?). eauto.
      * rewrite lookup_insert_ne in Hr by done. right. split; [eauto|tauto].
  - intros x. cbn [attached]. rewrite E2. apply (ti_att _ _ I).
  - intros x d. cbn [added]. rewrite E2. apply (ti_added _ _ I).
  - cbn [disclosing]. by rewrite E3, (ti_disc _ _ I).
  - intros t0 pol0 i. cbn [searchable is_created is_ended out sd_subscription]. rewrite Hrows, (ti_search _ _ I). split.
    + intros [[(<- & <- & <-) Hnone]|[(r & Hr & Hi & Hp & Hx) _]].
      * eexists. split; [apply lookup_insert|]. cbn.
        destruct Hcase as [[Hr0 _]|(_ & _ & _ & _ & -> & ->)]; [|done]. exfalso.
        destruct (ti_row _ _ I _ _ Hr0) as [Hne _].
        destruct (set_choose_L _ Hne) as [x Hx]. apply (Hnone x id). apply (ti_hold _ _ I). eauto.
      * destruct (decide (t0 = t)) as [->|Hne]; [|exists r; by rewrite lookup_insert_ne].
        eexists. split; [apply lookup_insert|]. rewrite (Hold r Hr) in Hi, Hp, Hx. done.
    + intros (r & Hr & Hi & Hp & Hx). destruct (decide (t0 = t)) as [->|Hne].
      * rewrite lookup_insert in Hr. injection Hr as <-. cbn in Hi, Hp, Hx. subst i pol0.
        destruct Hcase as [[Hr0 _]|(Hn & _ & _ & _ & _ & ->)].
        -- right. split; [eauto|tauto].
        -- left. split; [done|]. intros x i (r & Hr & _)%(ti_hold _ _ I). congruence.
      * rewrite lookup_insert_ne in Hr by done. right. split; [eauto|tauto].
  - intros t0 r0. rewrite Hrows. intros [[<- <-]|[Hne H]]%lookup_insert_Some; [cbn; split; [set_solver|done]|].
    destruct (ti_row _ _ I _ _ H). split; [done|lia].
  - intros t1 t2 r1 r2. rewrite Hrows. intros [[<- <-]|[Hne1 H1]]%lookup_insert_Some [[<- <-]|[Hne2 H2]]%lookup_insert_Some; cbn; intros Hi; try done.
    + symmetry. eauto.
    + eauto.
    + by eapply (ti_inj _ _ I).
  - intros t0 r0 x. rewrite Hrows, E2. intros [[<- <-]|[Hne H]]%lookup_insert_Some; [|by apply (ti_subs _ _ I _ _ _ H)].
    cbn. intros [->%elem_of_singleton|Hx]%elem_of_union; [done|].
    destruct (Hsubsin x Hx) as (r & Hr & _ & Hx'). by apply (ti_subs _ _ I _ _ _ Hr).
  - intros c x t0 i [->|Hin]%elem_of_cons H.
    + cbn in H. destruct H as (<- & <- & <- & _). split; [done|]. intros t' r. rewrite Hrows.
      intros [[<- _]|[_ Hr]]%lookup_insert_Some; [done|]. eauto.
    + destruct (ti_sub_ids _ _ I c x t0 i Hin H) as [? Hu]. split; [lia|]. intros t' r. rewrite Hrows.
      intros [[<- <-]|[_ Hr]]%lookup_insert_Some Hi; [|eauto]. cbn in Hi. subst i.
      destruct Hcase as [[Hr0 _]|(_ & -> & _)]; [by eapply Hu|lia].
  - assert (HH : forall c x t0, c ∈ tr -> is_subscribed c x t0 id -> t0 = t).
    { intros c x t0 Hin H. destruct (ti_sub_ids _ _ I c x t0 id Hin H) as [? Hu].
      destruct Hcase as [[Hr0 _]|(_ & -> & _)]; [symmetry; by eapply Hu|lia]. }
    intros c1 c2 sid1 sid2 t1 t2 i [->|Hin1]%elem_of_cons [->|Hin2]%elem_of_cons H1 H2.
    + cbn in H1, H2. destruct H1 as (_ & <- & _), H2 as (_ & <- & _). done.
    + cbn in H1. destruct H1 as (_ & <- & <- & _). symmetry. by eapply HH.
    + cbn in H2. destruct H2 as (_ & <- & <- & _). by eapply HH.
    + by eapply (ti_sub_inj _ _ I c1 c2).
  - intros op0 out0 pid [[= -> ->]|Hin]%elem_of_cons Hsh; [done|].
    destruct (ti_pub_ids _ _ I op0 out0 pid Hin Hsh) as (H1 & H2 & H3). split; [lia|].
    assert (id <> pid).
    { destruct Hcase as [[Hr0 _]|(_ & -> & _)]; [by apply H2 in Hr0|lia]. }
    split.
    + intros t0 r0. rewrite Hrows. intros [[<- <-]|[Hne Hr]]%lookup_insert_Some; [done|eauto].
    + intros c x t0 [->|Hin']%elem_of_cons H0; [|by eapply H3]. cbn in H0. by destruct H0 as (_ & _ & ? & _).
Qed.

Lemma ack_of_some p sid pid m to : ack_of p sid pid = Some (m, to) ->
  m = MPublished (Published (pu_request p) pid) /\ to = sid.
Proof. unfold ack_of. repeat case_match; try done. intros [= <- <-]. done. Qed.

Lemma tinv_step tr s op out s' : tinv tr s -> tstep s op out s' -> tinv ((op, out) :: tr) s'.
Proof.
  intros I T. destruct T as [d Hn|d e Hs|sid Hs|sid e Hn|t b Hb|x|sid m r Hs Hr|sid m Hs Hn|sid m t r Hs Hr Hi Hin|sid m e He|sid p e Hn|sid p Hs Hf|sid p pub t r rs Hs Hsv Hnd Hrs].
  - (* add *) constructor; cbn [tb_rows tb_sessions tb_disclose tb_ids].
    + intros x t id. cbn [holds is_subscribed is_ended]. rewrite (ti_hold _ _ I). tauto.
    + intros x. cbn [attached]. rewrite (ti_att _ _ I). destruct (decide (se_id d = x)) as [<-|Hne].
      * rewrite lookup_insert. split; [by eexists|by left].
      * rewrite lookup_insert_ne by done. tauto.
    + intros x d0. cbn [added]. rewrite (ti_added _ _ I), lookup_insert_Some. tauto.
    + cbn. apply (ti_disc _ _ I).
    + intros t pol id. cbn [searchable is_created is_ended]. rewrite (ti_search _ _ I). naive_solver.
    + apply (ti_row _ _ I).
    + apply (ti_inj _ _ I).
    + intros t r x Hr Hx. apply lookup_insert_is_Some'. right. by apply (ti_subs _ _ I _ _ _ Hr).
    + intros c x t id [->|Hin]%elem_of_cons H; [done|]. by apply (ti_sub_ids _ _ I c x).
    + intros c1 c2 sid1 sid2 t1 t2 i [->|Hin1]%elem_of_cons [->|Hin2]%elem_of_cons H1 H2; try done.
      by eapply (ti_sub_inj _ _ I c1 c2).
    + intros op0 out0 pid [[= -> ->]|Hin]%elem_of_cons Hsh; [done|].
      destruct (ti_pub_ids _ _ I op0 out0 pid Hin Hsh) as (H1 & H2 & H3). split; [done|]. split; [done|].
      intros c x t [->|Hin']%elem_of_cons H0; [done|]. by eapply H3.
  - apply (tinv_quiet tr s); try done; try exact (ti_disc _ _ I); try (intros; cbn; tauto); try lia. 
  - (* remove *) apply (tinv_leave tr s _ _ _ sid (fun _ => true)); try done; try (intros; cbn; tauto); cbn [tb_rows tb_sessions].
    + intros t. apply lookup_omap.
    + intros x t r Hr Hx. cbn. tauto || naive_solver.
    + intros x. cbn [attached]. rewrite (ti_att _ _ I), lookup_delete_is_Some. tauto.
    + intros x d. cbn [added]. rewrite (ti_added _ _ I), lookup_delete_Some. tauto.
    + intros t r x. rewrite lookup_omap. destruct (tb_rows s !! t) as [r0|] eqn:E; [|done]. cbn.
      intros (_ & _ & -> & _)%leave_some Hx. apply lookup_delete_is_Some. split; [set_solver|].
      apply (ti_subs _ _ I _ _ _ E). set_solver.
  - apply (tinv_quiet tr s); try done; try exact (ti_disc _ _ I); try (intros; cbn; tauto); try lia.
  - apply (tinv_quiet tr s); try done; try exact (ti_disc _ _ I); try (intros; cbn; tauto); try lia.
  - apply (tinv_quiet tr s); try done; try exact (ti_disc _ _ I); try (intros; cbn; tauto); cbn; try lia.
  - apply (tinv_join tr s _ sid m (t_id r) (t_policy r) (t_subs r) (t_indexed r)); try done.
    left. split; [|done]. by destruct r.
  - apply (tinv_join tr s _ sid m (tb_ids s + 1) (requested_policy (su_options m)) ∅ true); try done.
    + cbn. by rewrite (right_id_L ∅ (∪)).
    + right. done.
  - (* unsubscribe *)
    apply (tinv_leave tr s _ _ _ sid (fun t0 => bool_decide (t0 = t))); try done; try (intros; cbn; tauto); cbn [tb_rows tb_sessions set_rows].
    + intros t0. destruct (decide (t0 = t)) as [->|Hne].
      * rewrite bool_decide_true by done. by rewrite lookup_partial_alter.
      * rewrite bool_decide_false by done. by rewrite lookup_partial_alter_ne.
    + intros x t0 r0 Hr0 Hx. cbn. rewrite bool_decide_eq_true. split.
      * intros [<- He]. split; [done|]. eapply (ti_inj _ _ I); [done..|]. congruence.
      * intros [-> ->]. split; [done|]. congruence.
    + intros x. cbn [attached]. apply (ti_att _ _ I).
    + intros x d. cbn [added]. apply (ti_added _ _ I).
    + intros t0 r0 x. destruct (decide (t0 = t)) as [->|Hne].
      * rewrite lookup_partial_alter, Hr. cbn. intros (_ & _ & -> & _)%leave_some Hx.
        apply (ti_subs _ _ I _ _ _ Hr). set_solver.
      * rewrite lookup_partial_alter_ne by done. apply (ti_subs _ _ I).
  - apply (tinv_quiet tr s); try done; try exact (ti_disc _ _ I); try (intros; cbn; tauto); try lia; intros *; destruct m; cbn; tauto.
  - apply (tinv_quiet tr s); try done; try exact (ti_disc _ _ I); try (intros; cbn; tauto); try lia.
  - apply (tinv_quiet tr s); try done; try exact (ti_disc _ _ I); try (intros; cbn; tauto); cbn; try lia.
    intros pid [(e & [=] & _)|(q & to & Ha & <-)]. split; [|done].
    apply ack_of_some in Ha as [[= ->] _]. done.
  - apply (tinv_quiet tr s); try done; try exact (ti_disc _ _ I); try (intros; cbn; tauto); cbn; try lia.
    intros pid [(e & [= <-] & <-)|(q & to & Ha & <-)]; (split; [|done]); [done|].
    apply ack_of_some in Ha as [[= ->] _]. done.
Qed.
