(** The order of what a client reads. *)
From Verif Require Import Prelude Value Msg IdGen Types PathMatch Mutex Broker Dealer Session Network.
From Verif Require Import BrokerSpec DealerSpec NetworkSpec NetworkProofs NetworkOrigin.
From Verif Require Import Hostile HostileStep HostileFinal HostileReadSpec.

Local Open Scope N_scope.

Lemma hreads_one c n e : hreads c n e = [] \/ exists s up m down used, e = HNet (NDeliver c)
  /\ n_clients n !! c = Some (Client s up (m :: down) used) /\ hreads c n e = [m].
Proof.
  destruct e as [e|]; [|by left]. destruct e as [| | | |x|]; try by left. cbn. destruct (N.eqb_spec x c) as [->|].
  - destruct (n_clients n !! c) as [[s up [|m down] used]|]; [by left| |by left]. right. by exists s, up, m, down, used.
  - destruct (n_clients n !! x) as [[s up [|m down] used]|]; by left.
Qed.
Lemma read_split c es : forall n a m b, hread c n es = a ++ m :: b -> exists es1 es2 s up down used,
  es = es1 ++ HNet (NDeliver c) :: es2 /\ hread c n es1 = a /\ n_clients (hrun n es1) !! c = Some (Client s up (m :: down) used)
  /\ hread c (hstep (hrun n es1) (HNet (NDeliver c))) es2 = b.
Proof.
  induction es as [|e es IH]; intros n a m b; cbn [hread]; [by destruct a|].
  destruct (hreads_one c n e) as [E|(s & up & m' & down & used & -> & Hc & E)]; rewrite E; cbn [app].
  - intros H. destruct (IH _ _ _ _ H) as (es1 & es2 & s & up & down & used & -> & H1 & H2).
    exists (e :: es1), es2, s, up, down, used. split; [done|]. cbn [hread hrun]. by rewrite E.
  - remember (hstep n (HNet (NDeliver c))) as n1 eqn:En. destruct a as [|a0 a]; intros [= -> H].
    + exists [], es, s, up, down, used. cbn [hrun]. by rewrite <- En.
    + destruct (IH _ _ _ _ H) as (es1 & es2 & s1 & up1 & down1 & used1 & -> & H1 & H2).
      exists (HNet (NDeliver c) :: es1), es2, s1, up1, down1, used1. split; [done|]. cbn [hread hrun]. rewrite E, <- En. cbn [app]. by rewrite H1.
Qed.

(** ** A session knows only what it read *)

Definition knows (s : session) (log : list message) : Prop :=
  (forall g, g ∈ cs_subscriptions s -> exists x, MSubscribed x ∈ log /\ sd_subscription x = g)
  /\ (forall g, g ∈ cs_registrations s -> exists x, MRegistered x ∈ log /\ rd_registration x = g).
Lemma knows_new log : knows new_session log.
Proof. split; intros g H; cbn in H; set_solver. Qed.
Lemma knows_app s log log' : knows s log -> knows s (log ++ log').
Proof.
  intros [H1 H2]. split; intros g Hg; [destruct (H1 g Hg) as (x & ? & ?)|destruct (H2 g Hg) as (x & ? & ?)];
    exists x; (split; [apply elem_of_app; by left|done]).
Qed.
Lemma knows_send s m s' r log : knows s log -> sstep s (SSend (Ok "") m) = (s', r) -> knows s' log.
Proof.
  intros H E. unfold sstep in E. destruct m; cbn in E; try (injection E as <- <-; exact H);
    repeat (match type of E with context[if ?b then _ else _] => destruct b; cbn in E end); injection E as <- <-; exact H.
Qed.
Lemma knows_receive s m s' r log : knows s log -> sstep s (SReceiveMessage m) = (s', r) -> knows s' (log ++ [m]).
Proof.
  intros H E. pose proof (knows_app _ _ [m] H) as [H1 H2]. unfold sstep in E.
  destruct m; cbn in E; try (injection E as <- <-; split; assumption);
    repeat (match type of E with
            | context[if ?b then _ else _] => destruct b; cbn in E
            | context[match ?b with Some _ => _ | None => _ end] => destruct b; cbn in E
            end); injection E as <- <-; try (split; assumption);
    (split; cbn; intros g Hg; [try (apply H1; set_solver)|try (apply H2; set_solver)]).
  all: apply elem_of_union in Hg as [->%elem_of_singleton|Hg]; [|by first [apply H1|apply H2]];
    eexists; (split; [apply elem_of_app; right; by left|done]).
Qed.

Definition all_know (n : net) (log : N -> list message) : Prop :=
  forall c cl, n_clients n !! c = Some cl -> knows (cl_session cl) (log c).
Lemma all_know_kept cls' n log : all_know n log -> kept (n_clients n) cls' ->
  forall c cl, cls' !! c = Some cl -> knows (cl_session cl) (log c).
Proof. intros H K c cl Hc. destruct (K _ _ Hc) as (cl0 & H0 & -> & _). by apply H. Qed.
Lemma all_know_step n log e : all_know n log -> all_know (hstep n e) (hlogged log n e).
Proof.
  intros H c cl Hc. unfold hlogged.
  assert (Q : knows (cl_session cl) (log c) -> knows (cl_session cl) (log c ++ hreads c n e)) by apply knows_app.
  destruct e as [e|o x m]; cbn [hstep] in Hc.
  2:{ apply Q. destruct (n_clients n !! x); [|by apply H]. eapply all_know_kept; [exact H|apply kept_handle|exact Hc]. }
  destruct e as [d|o x|x m|o x|x|p q]; cbn [nstep] in Hc.
  - apply Q. rewrite kept_dealer, kept_broker in Hc. cbn in Hc. destruct (decide (c = se_id d)) as [->|Hne].
    + rewrite lookup_insert in Hc. injection Hc as <-. apply knows_new.
    + rewrite lookup_insert_ne in Hc by done. by apply H.
  - apply Q. rewrite kept_dealer, kept_broker in Hc. cbn in Hc. apply lookup_delete_Some in Hc as [_ Hc]. by apply H.
  - apply Q. destruct (n_clients n !! x) as [cl0|] eqn:Hx; [|by apply H].
    destruct (sstep _ _) as [s' r] eqn:E. pose proof (knows_send _ _ _ _ _ (H _ _ Hx) E) as K.
    destruct (decide (c = x)) as [->|Hne].
    + destruct r; cbn in Hc; rewrite lookup_insert in Hc; injection Hc as <-; exact K.
    + destruct r; cbn in Hc; rewrite lookup_insert_ne in Hc by done; by apply H.
  - apply Q. destruct (n_clients n !! x) as [[s [|m up] down used]|] eqn:Hx; try (by apply H).
    cbv zeta in Hc. pose proof (all_know_kept _ _ _ H (kept_handle o x m n)) as K.
    destruct (n_clients (handle o x m n) !! x) as [cl1|] eqn:H1; [|by apply K].
    cbn in Hc. destruct (decide (c = x)) as [->|Hne].
    + rewrite lookup_insert in Hc. injection Hc as <-. by apply (K x cl1).
    + rewrite lookup_insert_ne in Hc by done. by apply K.
  - destruct (n_clients n !! x) as [[s up [|m down] used]|] eqn:Hx; try (by apply Q, H).
    destruct (sstep _ _) as [s' r] eqn:E. destruct (decide (c = x)) as [->|Hne].
    + cbn [hreads delivers]. rewrite N.eqb_refl, Hx. pose proof (knows_receive _ _ _ _ _ (H _ _ Hx) E) as K.
      destruct r; cbn in Hc; rewrite lookup_insert in Hc; injection Hc as <-; exact K.
    + apply Q. destruct r; cbn in Hc; rewrite lookup_insert_ne in Hc by done; by apply H.
  - apply Q. rewrite kept_dealer, kept_broker in Hc. by apply H.
Qed.
Lemma all_know_run es : forall n log, all_know n log -> all_know (hrun n es) (fun c => log c ++ hread c n es).
Proof.
  induction es as [|e es IH]; intros n log H c cl Hc; cbn [hread hrun] in *; [rewrite app_nil_r; by apply H|].
  rewrite app_assoc. exact (IH _ _ (all_know_step _ _ e H) _ _ Hc).
Qed.
Lemma known es c cl : n_clients (hrun empty_net es) !! c = Some cl -> knows (cl_session cl) (hread c empty_net es).
Proof.
  intros Hc. refine (all_know_run es empty_net (fun _ => []) _ _ _ Hc). intros x cl0 Hx. cbn in Hx. by rewrite lookup_empty in Hx.
Qed.

Section Hostile.
Context (honest : N -> Prop).

(** What is read is accepted. *)
Lemma reads_accepted_at es1 es2 c s up m down used : let es := es1 ++ HNet (NDeliver c) :: es2 in
  N.of_nat (length es) <= two53 -> decently honest empty_net es -> n_crashed (hrun empty_net es) = [] -> honest c ->
  n_clients (hrun empty_net es1) !! c = Some (Client s up (m :: down) used) ->
  exists s' x, sstep s (SReceiveMessage m) = (s', Ok x).
Proof.
  intros es Hl Hd Hcr Hh H2.
  assert (E2 : es = (es1 ++ [HNet (NDeliver c)]) ++ es2) by (by subst es; rewrite <- app_assoc).
  rewrite E2 in Hl, Hd, Hcr. pose proof Hd as [Hd3 _]%decently_app. rewrite hrun_app in Hcr.
  pose proof (crashes_nil _ _ (crashes_hrun _ _) Hcr) as Hcr3. rewrite !app_length in Hl.
  assert (Hl3 : N.of_nat (length (es1 ++ [HNet (NDeliver c)])) <= two53) by (rewrite app_length; lia).
  pose proof (h_accepted honest _ c m Hl3 Hd3 Hcr3 Hh) as Hno. rewrite hrun_app in Hno. cbn [hrun hstep nstep] in Hno. rewrite H2 in Hno.
  destruct (sstep s (SReceiveMessage m)) as [s' r] eqn:E. exists s'.
  destruct r as [x|t|t]; [by exists x|exfalso; apply Hno; cbn; by left|exfalso; apply Hno; cbn; by left].
Qed.
Lemma reads_accepted es c a m b : N.of_nat (length es) <= two53 -> decently honest empty_net es ->
  n_crashed (hrun empty_net es) = [] -> honest c -> hread c empty_net es = a ++ m :: b ->
  exists es1 cl s' x, N.of_nat (length es1) <= two53 /\ decently honest empty_net es1 /\ n_crashed (hrun empty_net es1) = []
    /\ hread c empty_net es1 = a /\ n_clients (hrun empty_net es1) !! c = Some cl
    /\ sstep (cl_session cl) (SReceiveMessage m) = (s', Ok x) /\ exists es2, es = es1 ++ es2.
Proof.
  intros Hl Hd Hcr Hh H. destruct (read_split _ _ _ _ _ _ H) as (es1 & es2 & s & up & down & used & -> & H1 & H2 & _).
  pose proof Hd as [Hd1 _]%decently_app. pose proof Hcr as Hcr1. rewrite hrun_app in Hcr1.
  pose proof (crashes_nil _ _ (crashes_hrun _ _) Hcr1) as Hcr2.
  destruct (reads_accepted_at _ _ _ _ _ _ _ _ Hl Hd Hcr Hh H2) as (s' & x & E). rewrite app_length in Hl.
  exists es1, (Client s up (m :: down) used), s', x. split; [lia|]. repeat (split; [done|]). eauto.
Qed.

Lemma event_known es c a e b : N.of_nat (length es) <= two53 -> decently honest empty_net es ->
  n_crashed (hrun empty_net es) = [] -> honest c -> hread c empty_net es = a ++ MEvent e :: b ->
  exists x, MSubscribed x ∈ a /\ sd_subscription x = ev_subscription e.
Proof.
  intros Hl Hd Hcr Hh H. destruct (reads_accepted _ _ _ _ _ Hl Hd Hcr Hh H) as (es1 & cl & s' & x & _ & _ & _ & <- & Hc & E & _).
  destruct (known _ _ _ Hc) as [K _]. apply K. unfold sstep in E. cbn in E. case_bool_decide; [done|discriminate].
Qed.
Lemma invocation_known es c a v b : N.of_nat (length es) <= two53 -> decently honest empty_net es ->
  n_crashed (hrun empty_net es) = [] -> honest c -> hread c empty_net es = a ++ MInvocation v :: b ->
  exists x, MRegistered x ∈ a /\ rd_registration x = in_registration v.
Proof.
  intros Hl Hd Hcr Hh H. destruct (reads_accepted _ _ _ _ _ Hl Hd Hcr Hh H) as (es1 & cl & s' & x & _ & _ & _ & <- & Hc & E & _).
  destruct (known _ _ _ Hc) as [_ K]. apply K. unfold sstep in E. cbn in E. case_bool_decide; [done|discriminate].
Qed.

Lemma reply_pending s m s' x r : r ∈ reply_ids [m] -> sstep s (SReceiveMessage m) = (s', Ok x) -> r ∈ cs_calls s.
Proof.
  intros Hr E. unfold sstep in E. destruct m; cbn in Hr; try (by apply elem_of_nil in Hr); cbn in E.
  all: try destruct (_ =? tCall); try (by apply elem_of_nil in Hr); apply elem_of_list_singleton in Hr as ->; cbn in E;
    case_bool_decide; [done|discriminate].
Qed.
Lemma reply_split r q : r ∈ reply_ids q -> exists a m b, q = a ++ m :: b /\ r ∈ reply_ids [m].
Proof.
  intros (m & Hm & Hr)%elem_of_list_omap. apply elem_of_list_split in Hm as (a & b & ->). exists a, m, b. split; [done|].
  apply elem_of_list_omap. exists m. split; [by left|done].
Qed.
Lemma last_word es c a b r : N.of_nat (length es) <= two53 -> decently honest empty_net es ->
  n_crashed (hrun empty_net es) = [] -> honest c -> hread c empty_net es = a ++ b ->
  r ∈ answer_ids a -> r ∉ reply_ids b.
Proof.
  intros Hl Hd Hcr Hh H Ha (b1 & m & b2 & -> & Hm)%reply_split. rewrite app_assoc in H.
  destruct (reads_accepted _ _ _ _ _ Hl Hd Hcr Hh H) as (es1 & cl & s' & x & Hl1 & Hd1 & Hcr1 & Hr & Hc & E & _).
  destruct (tv_tally _ _ _ _ (htold honest es1 Hl1 Hd1 Hcr1) _ _ Hh Hc) as (_ & _ & _ & T4 & _).
  apply (T4 r (reply_pending _ _ _ _ _ Hm E)). rewrite Hr. unfold answer_ids. rewrite omap_app. apply elem_of_app. by left.
Qed.
Lemma hcalled_app c es1 : forall n es2, hcalled c n (es1 ++ es2) = hcalled c n es1 ++ hcalled c (hrun n es1) es2.
Proof. induction es1 as [|e es1 IH]; intros n es2; cbn [app hrun hcalled]; [done|]. by rewrite IH, app_assoc. Qed.
Lemma reply_called es c r : N.of_nat (length es) <= two53 -> decently honest empty_net es ->
  n_crashed (hrun empty_net es) = [] -> honest c -> r ∈ reply_ids (hread c empty_net es) -> r ∈ hcalled c empty_net es.
Proof.
  intros Hl Hd Hcr Hh (a & m & b & H & Hm)%reply_split.
  destruct (reads_accepted _ _ _ _ _ Hl Hd Hcr Hh H) as (es1 & cl & s' & x & Hl1 & Hd1 & Hcr1 & Hr & Hc & E & es2 & ->).
  destruct (tv_tally _ _ _ _ (htold honest es1 Hl1 Hd1 Hcr1) _ _ Hh Hc) as (_ & _ & T3 & _).
  rewrite hcalled_app. apply elem_of_app. left. apply T3. left. exact (reply_pending _ _ _ _ _ Hm E).
Qed.
End Hostile.
