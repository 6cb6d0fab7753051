(** Where the messages clients get come from, and what becomes of calls. *)
From Verif Require Import Prelude Value Msg IdGen Types PathMatch Mutex Broker Dealer Session Network.
From Verif Require Import BrokerSpec BrokerFacts BrokerSim BrokerTrace BrokerProofs.
From Verif Require Import DealerSpec DealerFacts DealerCalls DealerSim DealerStep DealerProofs DealerPolite DealerShare DealerFinal.
From Verif Require Import NetworkSpec NetworkClient NetworkSync NetworkProofs NetworkCalls.

Lemma explained_more n n' es es' c a : (forall e, e ∈ es -> e ∈ es') -> (forall x, x ∈ dtr n -> x ∈ dtr n') ->
  explained n es c a -> explained n' es' c a.
Proof.
  intros He Hd. destruct a; cbn [explained]; try done.
  - intros [(call & H & H0 & E)|[(reg & H & H0 & E)|(call & v & callee & s & y & H1 & H2 & H3 & H4 & H)]].
    + left. eauto 6.
    + right; left. eauto 6.
    + right; right. exists call, v, callee, s, y. split; [auto|]. split; [auto|]. split; [auto|]. split; [auto|]. exact H.
  - intros (x & H & E & E'). eauto.
  - intros (x & H & E). eauto.
  - intros (x & H & E). eauto.
  - intros (s & p & H & E). eauto.
  - intros (call & v & callee & s & y & d & H1 & H2 & H3 & H3' & H4 & H5 & H). exists call, v, callee, s, y, d.
    split; [auto|]. split; [auto|]. split; [auto|]. split; [auto|]. split; [exact H4|]. split; [auto|]. exact H.
  - intros (x & H & E). eauto.
  - intros (x & H & E). eauto.
  - intros (s & call & d & who & H1 & H2 & H3 & H4 & H5 & H6). exists s, call, d, who.
    split; [auto|]. split; [auto|]. split; [auto|]. split; [|auto].
    destruct H4 as [?|(w & ? & ? & ?)]; [by left|right]. eauto.
Qed.

(** ** Everything handed to the dealer was sent *)

Record oinv (n : net) (es : list nevent) : Prop := OInv {
  oi_up : forall c cl m, n_clients n !! c = Some cl -> m ∈ cl_up cl -> NSend c m ∈ es;
  oi_ops : forall c m out, (DReceive c m, out) ∈ dtr n -> NSend c m ∈ es;
  oi_calls : forall c m e, (DReceive c (MCall m), DErr e) ∉ dtr n;
  oi_join : forall c d, present_as (dtr n) c d -> NJoin d ∈ es /\ se_id d = c;
  oi_down : forall c cl a, n_clients n !! c = Some cl -> a ∈ cl_down cl -> explained n es c a }.

Lemma dealer_explains n k es o c m d' a to : ninv n k -> N.of_nat k < two53 -> oinv n es ->
  polite (dtr n) (DReceive c m) -> NSend c m ∈ es ->
  dstep o (n_dealer n) (DReceive c m) = Ret d' (DMsg a to) ->
  forall n', (forall x, x ∈ dtr n -> x ∈ dtr n') -> (DReceive c m, DMsg a to) ∈ dtr n' -> explained n' es to a.
Proof.
  intros Hn Hk Ho Hpol Hse E n' Hinc Hnew.
  pose proof (dp_run _ _ _ _ _ _ (nv_d _ _ Hn)) as Hrun. pose proof (dp_len _ _ _ _ _ _ (nv_d _ _ Hn)) as Hlen.
  assert (L1 : N.of_nat (length (n_dh n)) < two53) by lia. assert (L2 : N.of_nat (length (n_dh n)) <= two53) by lia.
  destruct (dealer_call _ _ _ _ _ _ o _ (nv_d _ _ Hn) Hk Hpol)
    as (d1 & out & s & s' & E1 & Hr & Hph & Ht & I & T & I').
  rewrite E in E1. injection E1 as <- <-.
  inversion T as [| | | | | |sid m0 g dead|sid m0 r|sid m0 r| |sid m0 p r dead| |sid m0|sid m0 p r callee turn v Hro Hpi Hi|sid m0 out0 Hm Hout];
    subst; cbn [explained].
  - eauto.
  - eauto.
  - right; left. eauto.
  - eauto.
  - left. eauto.
  - destruct (invocation_form _ _ _ _ _ _ _ _ _ L1 Hrun E) as (d & who & H1 & H2 & H3). fold (dtr n) in *.
    destruct (oi_join _ _ Ho _ _ H1) as [J1 J2].
    exists c, m0, d, who. split; [done|]. split; [done|]. split; [done|]. split; [|done].
    destruct (disclosing_caller (dtr n)); [|by left].
    destruct H2 as (w & -> & Hw). right. exists w. split; [done|]. by apply (oi_join _ _ Ho).
  - destruct m; try (by destruct Hm); try (cbn [dstep d_receive_message] in E; discriminate E).
    + destruct (error_origin _ _ _ _ _ _ _ _ _ L2 Hrun E) as (call & out & H1 & H2 & H3 & ->). fold (dtr n) in *.
      right; right. destruct out as [e| | |a to']; try done; [by apply (oi_calls _ _ Ho) in H1|].
      destruct a; try done. exists call, m0, to', c, m. split; [by eapply (oi_ops _ _ Ho)|].
      split; [by apply Hinc|]. done.
    + destruct (result_origin _ _ _ _ _ _ _ _ _ L2 Hrun E) as (call & out & d & H1 & H2 & H3 & ->). fold (dtr n) in *.
      destruct out as [e| | |a to']; try done; [by apply (oi_calls _ _ Ho) in H1|].
      destruct a; try done. destruct (oi_join _ _ Ho _ _ H3) as [J1 J2].
      exists call, m0, to', c, m, d. split; [by eapply (oi_ops _ _ Ho)|].
      split; [by apply Hinc|]. done.
Qed.

(** ** What handling a message does to the clients *)

Definition grown (P : N -> message -> Prop) (cls cls' : gmap N client) : Prop :=
  forall x cl', cls' !! x = Some cl' -> exists cl extra, cls !! x = Some cl
    /\ cl' = Client (cl_session cl) (cl_up cl) (cl_down cl ++ extra) (cl_used cl) /\ forall a, a ∈ extra -> P x a.
Lemma grown_refl P cls : grown P cls cls.
Proof.
  intros x cl H. exists cl, []. split; [done|]. rewrite app_nil_r. split; [by destruct cl|]. intros a Ha. by apply elem_of_nil in Ha.
Qed.
Lemma grown_trans P a b c : grown P a b -> grown P b c -> grown P a c.
Proof.
  intros H1 H2 x cl Hx. destruct (H2 _ _ Hx) as (cl1 & e1 & Hx1 & -> & Hp1).
  destruct (H1 _ _ Hx1) as (cl2 & e2 & Hx2 & -> & Hp2). exists cl2, (e2 ++ e1). split; [done|]. cbn. split; [by rewrite app_assoc|].
  intros m [Hm|Hm]%elem_of_app; auto.
Qed.
Lemma grown_post (P : N -> message -> Prop) n m to : P to m -> grown P (n_clients n) (n_clients (post n m to)).
Proof.
  intros HP. unfold post. destruct (n_clients n !! to) as [cl|] eqn:E; [|apply grown_refl].
  intros x cl'. cbn. destruct (decide (x = to)) as [->|Hne].
  - rewrite lookup_insert. intros [= <-]. exists cl, [m]. split; [done|]. split; [done|].
    intros a ->%elem_of_list_singleton. done.
  - rewrite lookup_insert_ne by done. apply grown_refl.
Qed.
Lemma grown_post_all (P : N -> message -> Prop) m tos : forall n, (forall to, to ∈ tos -> P to m) ->
  grown P (n_clients n) (n_clients (post_all n m tos)).
Proof.
  induction tos as [|to tos IH]; intros n HP; [apply grown_refl|]. cbn [post_all].
  eapply grown_trans; [apply grown_post|apply IH]; [apply HP; by left|]. intros t Ht. apply HP. by right.
Qed.
Lemma post_dtr n m to : dtr (post n m to) = dtr n.
Proof. unfold post. by destruct (n_clients n !! to). Qed.
Lemma post_all_dtr m tos : forall n, dtr (post_all n m tos) = dtr n.
Proof. induction tos as [|to tos IH]; intros n; [done|]. cbn [post_all]. by rewrite IH, post_dtr. Qed.

Lemma handle_keeps n k es o c m : ninv n k -> N.of_nat k < two53 -> oinv n es ->
  polite (dtr n) (DReceive c m) -> NSend c m ∈ es ->
  grown (explained (handle o c m n) es) (n_clients n) (n_clients (handle o c m n))
  /\ (dtr (handle o c m n) = dtr n
      \/ exists out, dtr (handle o c m n) = (DReceive c m, out) :: dtr n
           /\ forall call e, m = MCall call -> out <> DErr e).
Proof.
  intros Hn Hk Ho Hpol Hse.
  assert (Hdealer :
    let n' := match call_dealer o (DReceive c m) n with (n, Some (DMsg a to)) => post n a to | (n, _) => n end in
    grown (explained n' es) (n_clients n) (n_clients n')
    /\ exists out, dtr n' = (DReceive c m, out) :: dtr n /\ forall call e, m = MCall call -> out <> DErr e).
  { cbv zeta. unfold call_dealer.
    destruct (dealer_call _ _ _ _ _ _ o _ (nv_d _ _ Hn) Hk Hpol)
      as (d' & out & s & s' & E & Hr & Hph & Ht & I & T & I'). rewrite E.
    assert (Hc : forall call e, m = MCall call -> out <> DErr e).
    { intros call e -> ->. inversion T; subst; done. }
    set (n1 := Net _ _ _ _ _ _ _ _ _ _).
    assert (H1 : dtr n1 = (DReceive c m, out) :: dtr n) by exact Ht.
    assert (Hg : forall P, grown P (n_clients n) (n_clients n1)) by (intros P; apply grown_refl).
    destruct out as [e| |b|a to].
    1-3: split; [apply Hg|eauto].
    rewrite post_dtr. split; [|eauto]. eapply grown_trans; [apply Hg|]. apply grown_post.
    eapply dealer_explains; [done|done|done|done|done|exact E| |]; rewrite post_dtr, H1; [|by left].
    intros x Hx. by right. }
  assert (Hbroker : forall op n' bo, call_broker o op n = (n', bo) -> n_clients n' = n_clients n /\ dtr n' = dtr n).
  { intros op n' bo. unfold call_broker. destruct (bstep _ _ _); by intros [= <- <-]. }
  assert (Hstep : forall op n' bo, call_broker o op n = (n', Some bo) -> exists s s', tstep s op bo s').
  { intros op n' bo. unfold call_broker.
    destruct (broker_call _ _ _ _ _ o op (nv_b _ _ Hn) Hk) as (b' & out & s & s' & E & Hr & Ht & I & T & I').
    rewrite E. intros [= <- <-]. eauto. }
  destruct m; cbn [handle];
    try (destruct Hdealer as [H1 H2]; split; [exact H1|by right]);
    try (split; [apply grown_refl|by left]).
  - destruct (call_broker _ _ _) as [n1 bo] eqn:E. destruct (Hbroker _ _ _ E) as [H1 H2].
    destruct bo as [bo|]; [|split; [rewrite H1; apply grown_refl|by left]].
    destruct (Hstep _ _ _ E) as (s & s' & T).
    inversion T as [| | | | | | | | | |sid p e He|sid p He Hnone|sid p pub t r rs Hp Hsv Hnd Hrs]; subst.
    + split; [rewrite H1; apply grown_refl|by left].
    + unfold ack_of. destruct (mget (pu_options m) "acknowledge") as [|[]| | | | | | | | |] eqn:Eack;
        try (split; [rewrite H1; apply grown_refl|by left]).
      rewrite post_dtr. split; [|by left]. rewrite <- H1. apply grown_post. cbn. exists m. split; [done|]. split; [done|].
      unfold says. by rewrite Eack.
    + set (ev := Event _ _ _ _ _).
      assert (Hev : forall n' x, explained n' es x (MEvent ev)) by (intros n' x; cbn; eauto).
      unfold ack_of. destruct (mget (pu_options m) "acknowledge") as [|[]| | | | | | | | |] eqn:Eack;
        try (rewrite post_all_dtr; split; [rewrite <- H1; apply grown_post_all; intros; apply Hev|by left]).
      rewrite post_dtr, post_all_dtr. split; [|by left]. rewrite <- H1.
      eapply grown_trans; [apply grown_post_all; intros; apply Hev|]. apply grown_post. cbn. exists m. split; [done|]. split; [done|].
      unfold says. by rewrite Eack.
  - destruct (call_broker _ _ _) as [n1 bo] eqn:E. destruct (Hbroker _ _ _ E) as [H1 H2].
    destruct bo as [bo|]; [|split; [rewrite H1; apply grown_refl|by left]].
    destruct (Hstep _ _ _ E) as (s & s' & T).
    inversion T; subst.
    + rewrite post_dtr. split; [|by left]. rewrite <- H1. apply grown_post. cbn. eauto.
    + rewrite post_dtr. split; [|by left]. rewrite <- H1. apply grown_post. cbn. eauto.
    + split; [rewrite H1; apply grown_refl|by left].
  - destruct (call_broker _ _ _) as [n1 bo] eqn:E. destruct (Hbroker _ _ _ E) as [H1 H2].
    destruct bo as [bo|]; [|split; [rewrite H1; apply grown_refl|by left]].
    destruct (Hstep _ _ _ E) as (s & s' & T).
    inversion T; subst.
    + rewrite post_dtr. split; [|by left]. rewrite <- H1. apply grown_post. cbn. eauto.
    + split; [rewrite H1; apply grown_refl|by left].
Qed.

(** ** The whole run *)

Definition tally (cl : client) (log : list message) (made : list N) : Prop :=
  NoDup (answer_ids log) /\ NoDup made
  /\ (forall r, r ∈ made <-> r ∈ cs_calls (cl_session cl) \/ r ∈ answer_ids log)
  /\ (forall r, r ∈ cs_calls (cl_session cl) -> r ∉ answer_ids log)
  /\ (forall r, r ∈ made -> r ∈ cl_used cl).
Record hinv (n : net) (es : list nevent) (log : N -> list message) (made : N -> list N) : Prop := HInv {
  hi_o : oinv n es;
  hi_log : forall c a, a ∈ log c -> explained n es c a;
  hi_new : forall c, c ∉ n_ever n -> log c = [] /\ made c = [];
  hi_tally : forall c cl, n_clients n !! c = Some cl -> tally cl (log c) (made c) }.

Lemma present_as_quiet e tr c d : present_as (e :: tr) c d ->
  (exists s, e = (DAdd s, DOk) /\ se_id s = c /\ s = d) \/ present_as tr c d.
Proof.
  destruct e as [[s|x|p|x|c0 m] out]; cbn; try (by right).
  - destruct out; try (by right). intros [[H ->]|[_ H]]; [left; by eexists|by right].
  - destruct out; try (by right). intros [_ H]. by right.
Qed.

(** Events that hand nothing to the dealer from a client and send nothing. *)
Lemma oinv_quiet n n' es e op out : oinv n es ->
  dtr n' = dtr n \/ dtr n' = (op, out) :: dtr n /\ match op with DReceive _ _ => False | DAdd d => e = NJoin d | _ => True end ->
  (forall c cl', n_clients n' !! c = Some cl' -> (cl_up cl' = [] /\ cl_down cl' = [])
     \/ exists cl, n_clients n !! c = Some cl /\ (forall m, m ∈ cl_up cl' -> m ∈ cl_up cl \/ e = NSend c m)
                   /\ (forall a, a ∈ cl_down cl' -> a ∈ cl_down cl)) ->
  oinv n' (es ++ [e]).
Proof.
  intros Ho Hd Hc.
  assert (Hes : forall x, x ∈ es -> x ∈ es ++ [e]) by (intros x Hx; apply elem_of_app; by left).
  assert (Hinc : forall x, x ∈ dtr n -> x ∈ dtr n').
  { destruct Hd as [->|[-> _]]; [done|]. intros x Hx. by right. }
  constructor.
  - intros c cl' m Hx Hm. destruct (Hc _ _ Hx) as [[E _]|(cl & Hx' & Hu & _)]; [rewrite E in Hm; by apply elem_of_nil in Hm|].
    destruct (Hu _ Hm) as [Hm'| ->]; [apply Hes; by eapply (oi_up _ _ Ho)|]. apply elem_of_app. right. by left.
  - intros c m o Hx. apply Hes. destruct Hd as [Hd|[Hd Hop]]; rewrite Hd in Hx; [by eapply (oi_ops _ _ Ho)|].
    apply elem_of_cons in Hx as [[= <- <-]|Hx]; [done|by eapply (oi_ops _ _ Ho)].
  - intros c m x Hx. destruct Hd as [Hd|[Hd Hop]]; rewrite Hd in Hx; [by eapply (oi_calls _ _ Ho)|].
    apply elem_of_cons in Hx as [[= <- <-]|Hx]; [done|by eapply (oi_calls _ _ Ho)].
  - intros c d Hp. destruct Hd as [Hd|[Hd Hop]]; rewrite Hd in Hp.
    + destruct (oi_join _ _ Ho _ _ Hp). split; [by apply Hes|done].
    + apply present_as_quiet in Hp as [(s & [= -> ->] & <- & ->)|Hp].
      * subst e. split; [|done]. apply elem_of_app. right. by left.
      * destruct (oi_join _ _ Ho _ _ Hp). split; [by apply Hes|done].
  - intros c cl' a Hx Ha. destruct (Hc _ _ Hx) as [[_ E]|(cl & Hx' & _ & Hu)]; [rewrite E in Ha; by apply elem_of_nil in Ha|].
    eapply explained_more; [exact Hes|exact Hinc|]. eapply (oi_down _ _ Ho); [exact Hx'|]. by apply Hu.
Qed.

Definition logged (log : N -> list message) n e : N -> list message := fun c => log c ++ delivers c n e.
Definition counted (made : N -> list N) n e : N -> list N := fun c => made c ++ makes_call c n e.

Lemma hinv_quiet n n' es e log made op out : hinv n es log made ->
  (forall c, delivers c n e = []) -> (forall c, makes_call c n e = []) ->
  (forall c, c ∉ n_ever n' -> c ∉ n_ever n) ->
  dtr n' = dtr n \/ dtr n' = (op, out) :: dtr n /\ match op with DReceive _ _ => False | DAdd d => e = NJoin d | _ => True end ->
  (forall c cl', n_clients n' !! c = Some cl' -> (cl' = Client new_session [] [] [] /\ c ∉ n_ever n)
     \/ exists cl, n_clients n !! c = Some cl /\ (forall m, m ∈ cl_up cl' -> m ∈ cl_up cl \/ e = NSend c m)
                   /\ (forall a, a ∈ cl_down cl' -> a ∈ cl_down cl)
                   /\ cs_calls (cl_session cl') = cs_calls (cl_session cl)
                   /\ (forall r, r ∈ cl_used cl -> r ∈ cl_used cl')) ->
  hinv n' (es ++ [e]) (logged log n e) (counted made n e).
Proof.
  intros H Hdl Hmc Hev Hd Hc.
  assert (Hes : forall x, x ∈ es -> x ∈ es ++ [e]) by (intros x Hx; apply elem_of_app; by left).
  assert (Hinc : forall x, x ∈ dtr n -> x ∈ dtr n').
  { destruct Hd as [->|[-> _]]; [done|]. intros x Hx. by right. }
  assert (EL : forall c, logged log n e c = log c) by (intros c; unfold logged; by rewrite Hdl, app_nil_r).
  assert (EM : forall c, counted made n e c = made c) by (intros c; unfold counted; by rewrite Hmc, app_nil_r).
  constructor.
  - eapply oinv_quiet; [apply H|exact Hd|]. intros c cl' Hx.
    destruct (Hc _ _ Hx) as [[-> _]|(cl & Hx' & Hu & Hdn & _)]; [by left|]. right. eauto.
  - intros c a. rewrite EL. intros Ha. eapply explained_more; [exact Hes|exact Hinc|]. by apply (hi_log _ _ _ _ H).
  - intros c Hx. rewrite EL, EM. by apply (hi_new _ _ _ _ H), Hev.
  - intros c cl' Hx. rewrite EL, EM. destruct (Hc _ _ Hx) as [[-> Hne]|(cl & Hx' & _ & _ & Ec & Eu)].
    + destruct (hi_new _ _ _ _ H _ Hne) as [-> ->]. unfold tally. cbn.
      split; [constructor|]. split; [constructor|]. set_solver.
    + destruct (hi_tally _ _ _ _ H _ _ Hx') as (T1 & T2 & T3 & T4 & T5). unfold tally. rewrite Ec. split; [done|]. split; [done|].
      split; [done|]. split; [done|]. auto.
Qed.


Lemma hinv_step n k es log made e : ninv n k -> N.of_nat k < two53 -> rules n e -> hinv n es log made ->
  hinv (nstep n e) (es ++ [e]) (logged log n e) (counted made n e).
Proof.
  intros Hn Hk Hrules H.
  assert (Hes : forall x, x ∈ es -> x ∈ es ++ [e]) by (intros x Hx; apply elem_of_app; by left).
  destruct e as [d|o c|c m|o c|c|p c].
  - (* join *)
    cbn [nstep].
    destruct (broker_call _ _ _ _ _ any_oracle (BAdd d) (nv_b _ _ Hn) Hk) as (b' & bo & s & s' & E & _).
    destruct (dealer_call _ _ _ _ _ _ any_oracle (DAdd d) (nv_d _ _ Hn) Hk Logic.I)
      as (d' & do & t & t' & E2 & Hr2 & Hph2 & Ht2 & J & T2 & J').
    unfold call_broker, call_dealer, nset_ever, nset_clients. net_cbn. rewrite E. net_cbn. rewrite E2. net_cbn.
    eapply (hinv_quiet n _ _ _ _ _ (DAdd d) do); [done|done|done| | |]; net_cbn.
    + intros c Hc Hin. apply Hc. by right.
    + right. split; [exact Ht2|done].
    + intros c cl'. destruct (decide (c = se_id d)) as [->|Hne].
      * rewrite lookup_insert. intros [= <-]. left. by split.
      * rewrite lookup_insert_ne by done. intros Hx. right. exists cl'. auto 6.
  - (* leave *)
    cbn [nstep].
    destruct (broker_call _ _ _ _ _ o (BRemove c) (nv_b _ _ Hn) Hk) as (b' & bo & s & s' & E & _).
    destruct (dealer_call _ _ _ _ _ _ o (DRemove c) (nv_d _ _ Hn) Hk Logic.I)
      as (d' & do & t & t' & E2 & Hr2 & Hph2 & Ht2 & J & T2 & J').
    unfold call_broker, call_dealer, nset_ever, nset_clients. net_cbn. rewrite E. net_cbn. rewrite E2. net_cbn.
    eapply (hinv_quiet n _ _ _ _ _ (DRemove c) do); [done|done|done|done| |]; net_cbn.
    + right. split; [exact Ht2|done].
    + intros x cl'. destruct (decide (x = c)) as [->|Hne]; [by rewrite lookup_delete|].
      rewrite lookup_delete_ne by done. intros Hx. right. exists cl'. auto 6.
  - (* send *)
    cbn [nstep]. destruct (n_clients n !! c) as [cl|] eqn:Hc.
    2:{ eapply (hinv_quiet n _ _ _ _ _ (DDisclose true) DOk); [done|done| |done|by left|].
        - intros x. cbn. destruct m; try done. case_bool_decide as B; [|by rewrite andb_false_r].
          destruct (N.eqb_spec c x) as [<-|]; [|done]. rewrite Hc in B. by destruct B.
        - intros x cl' Hx. right. exists cl'. auto 6. }
    pose proof (Hrules cl Hc) as Hf.
    destruct (sstep (cl_session cl) (SSend (Ok "") m)) as [s' r] eqn:E.
    destruct (send_noted _ _ _ _ _ E) as [(x & -> & X & ->)|[-> [e ->]]].
    2:{ eapply (hinv_quiet n _ _ _ _ _ (DDisclose true) DOk); [done|done| |done|by left|].
        - intros x. cbn. destruct m; try done.
        - intros x cl' Hx. right. cbn in Hx. destruct (decide (x = c)) as [->|Hne].
          + rewrite lookup_insert in Hx. injection Hx as <-. exists cl. cbn. auto 6.
          + rewrite lookup_insert_ne in Hx by done. exists cl'. auto 6. }
    assert (Hcase : (exists call, m = MCall call) \/ forall call, m <> MCall call).
    { destruct m; try (right; done). left. by eexists. }
    destruct Hcase as [[call ->]|Hnc].
    + cbn [request_of noted].
      specialize (Hf _ eq_refl).
      constructor.
      * eapply (oinv_quiet n _ _ _ (DDisclose true) DOk); [apply H|by left|]. net_cbn. intros y cl' Hy. right.
        destruct (decide (y = c)) as [->|Hne].
        -- rewrite lookup_insert in Hy. injection Hy as <-. exists cl. cbn. split; [done|]. split; [|done].
           intros a [Ha|Ha]%elem_of_app; [by left|]. apply elem_of_list_singleton in Ha. subst a. by right.
        -- rewrite lookup_insert_ne in Hy by done. exists cl'. auto 6.
      * intros y a. unfold logged. cbn [delivers]. rewrite app_nil_r. intros Ha.
        eapply (explained_more n); [exact Hes|done|]. by apply (hi_log _ _ _ _ H).
      * intros y Hy. unfold logged, counted. cbn [delivers makes_call]. destruct (hi_new _ _ _ _ H _ Hy) as [-> ->].
        destruct (N.eqb_spec c y) as [<-|]; [|done]. exfalso. apply Hy, (nv_ever _ _ Hn). by rewrite Hc.
      * net_cbn. intros y cl' Hy. unfold logged, counted. cbn [delivers makes_call]. rewrite app_nil_r.
        destruct (decide (y = c)) as [->|Hne].
        -- rewrite lookup_insert in Hy. injection Hy as <-.
           rewrite N.eqb_refl, bool_decide_eq_true_2 by (by rewrite Hc). cbn [andb].
           destruct (hi_tally _ _ _ _ H _ _ Hc) as (T1 & T2 & T3 & T4 & T5). unfold tally. cbn.
           split; [done|]. split; [|split; [|split]].
           ++ apply NoDup_app. split; [done|]. split; [|apply NoDup_singleton].
              intros r Hr ->%elem_of_list_singleton. by apply Hf, T5.
           ++ intros r. rewrite elem_of_app, elem_of_list_singleton, T3, elem_of_union, elem_of_singleton. tauto.
           ++ intros r. rewrite elem_of_union, elem_of_singleton. intros [->|Hr]; [|by apply T4].
              intros Hr. apply Hf, T5, T3. by right.
           ++ intros r [Hr| ->%elem_of_list_singleton]%elem_of_app; [right; by apply T5|by left].
        -- rewrite lookup_insert_ne in Hy by done. destruct (N.eqb_spec c y) as [|]; [congruence|]. cbn [andb].
           rewrite app_nil_r. by apply (hi_tally _ _ _ _ H).
    + eapply (hinv_quiet n _ _ _ _ _ (DDisclose true) DOk); [done|done| |done|by left|].
      * intros y. cbn. destruct m; try done. exfalso. by eapply Hnc.
      * net_cbn. intros y cl' Hy. right. destruct (decide (y = c)) as [->|Hne].
        -- rewrite lookup_insert in Hy. injection Hy as <-. exists cl. cbn. split; [done|]. split; [|split; [done|split]].
           ++ intros a [Ha|Ha]%elem_of_app; [by left|]. apply elem_of_list_singleton in Ha. subst a. by right.
           ++ destruct m; cbn; try done; [|exfalso; by eapply Hnc]. by destruct (flag _ _).
           ++ intros r Hr. destruct (request_of m); [by right|done].
        -- rewrite lookup_insert_ne in Hy by done. exists cl'. auto 6.
  - (* route *)
    cbn [nstep]. destruct (n_clients n !! c) as [[s0 up down used]|] eqn:Hc.
    2:{ eapply (hinv_quiet n _ _ _ _ _ (DDisclose true) DOk); [done|done|done|done|by left|].
        intros x cl' Hx. right. exists cl'. auto 6. }
    destruct up as [|m rest].
    { eapply (hinv_quiet n _ _ _ _ _ (DDisclose true) DOk); [done|done|done|done|by left|].
      intros x cl' Hx. right. exists cl'. auto 6. }
    specialize (Hrules _ _ _ Hc eq_refl).
    assert (Hse : NSend c m ∈ es) by (eapply (oi_up _ _ (hi_o _ _ _ _ H)); [exact Hc|by left]).
    destruct (handle_keeps n k es o c m Hn Hk (hi_o _ _ _ _ H) Hrules Hse) as [Hg Htr].
    set (n1 := handle o c m n) in *.
    assert (Hever : n_ever n1 = n_ever n) by apply handle_ever.
    assert (Hinc : forall x, x ∈ dtr n -> x ∈ dtr n1).
    { intros x Hx. destruct Htr as [->|(out & -> & _)]; [done|by right]. }
    set (n2 := match n_clients n1 !! c with Some cl => _ | None => n1 end).
    assert (Hd2 : dtr n2 = dtr n1) by (subst n2; by destruct (n_clients n1 !! c)).
    assert (He2 : n_ever n2 = n_ever n) by (rewrite <- Hever; subst n2; by destruct (n_clients n1 !! c)).
    assert (Hcl : forall x cl', n_clients n2 !! x = Some cl' -> exists cl extra, n_clients n !! x = Some cl
       /\ cl_session cl' = cl_session cl /\ cl_used cl' = cl_used cl /\ (forall a, a ∈ cl_up cl' -> a ∈ cl_up cl)
       /\ cl_down cl' = cl_down cl ++ extra /\ forall a, a ∈ extra -> explained n1 es x a).
    { intros x cl' Hx. subst n2. destruct (n_clients n1 !! c) as [cl1|] eqn:E1.
      - cbn in Hx. destruct (decide (x = c)) as [->|Hne].
        + rewrite lookup_insert in Hx. injection Hx as <-. destruct (Hg _ _ E1) as (cl & extra & H1 & -> & H3).
          exists cl, extra. cbn. split; [done|]. split; [done|]. split; [done|]. split; [|done].
          intros a Ha. destruct (cl_up cl); [done|by right].
        + rewrite lookup_insert_ne in Hx by done. destruct (Hg _ _ Hx) as (cl & extra & H1 & -> & H3).
          exists cl, extra. by cbn.
      - destruct (Hg _ _ Hx) as (cl & extra & H1 & -> & H3). exists cl, extra. by cbn. }
    assert (Hexp : forall x a, explained n1 es x a -> explained n2 (es ++ [NRoute o c]) x a).
    { intros x a. apply explained_more; [exact Hes|]. by rewrite Hd2. }
    clearbody n2. constructor.
    + constructor.
      * intros x cl' a Hx Ha. destruct (Hcl _ _ Hx) as (cl & extra & H1 & _ & _ & H2 & _).
        apply Hes. eapply (oi_up _ _ (hi_o _ _ _ _ H)); [exact H1|]. by apply H2.
      * intros x a out. rewrite Hd2. intros Hx. apply Hes.
        destruct Htr as [E|(out' & E & _)]; rewrite E in Hx; [by eapply (oi_ops _ _ (hi_o _ _ _ _ H))|].
        apply elem_of_cons in Hx as [[= -> -> ->]|Hx]; [done|]. by eapply (oi_ops _ _ (hi_o _ _ _ _ H)).
      * intros x a out. rewrite Hd2. intros Hx.
        destruct Htr as [E|(out' & E & Hne)]; rewrite E in Hx; [by eapply (oi_calls _ _ (hi_o _ _ _ _ H))|].
        apply elem_of_cons in Hx as [[= -> <- <-]|Hx]; [by eapply Hne|]. by eapply (oi_calls _ _ (hi_o _ _ _ _ H)).
      * intros x d. rewrite Hd2. intros Hp.
        assert (Hp' : present_as (dtr n) x d).
        { destruct Htr as [<-|(out' & E & _)]; [done|]. rewrite E in Hp. by apply present_as_quiet in Hp as [(? & ? & _)|?]. }
        destruct (oi_join _ _ (hi_o _ _ _ _ H) _ _ Hp'). split; [by apply Hes|done].
      * intros x cl' a Hx Ha. destruct (Hcl _ _ Hx) as (cl & extra & H1 & _ & _ & _ & E & H2). apply Hexp.
        rewrite E in Ha. apply elem_of_app in Ha as [Ha|Ha]; [|by apply H2].
        eapply explained_more; [done|exact Hinc|]. by eapply (oi_down _ _ (hi_o _ _ _ _ H)).
    + intros x a. unfold logged. cbn [delivers]. rewrite app_nil_r. intros Ha. apply Hexp.
      eapply explained_more; [done|exact Hinc|]. by apply (hi_log _ _ _ _ H).
    + intros x. rewrite He2. unfold logged, counted. cbn [delivers makes_call]. rewrite !app_nil_r. apply (hi_new _ _ _ _ H).
    + intros x cl' Hx. unfold logged, counted. cbn [delivers makes_call]. rewrite !app_nil_r.
      destruct (Hcl _ _ Hx) as (cl & extra & H1 & E1 & E2 & _). pose proof (hi_tally _ _ _ _ H _ _ H1) as T.
      unfold tally in *. by rewrite E1, E2.
  - (* deliver *)
    cbn [nstep]. destruct (n_clients n !! c) as [[s up down used]|] eqn:Hc.
    2:{ eapply (hinv_quiet n _ _ _ _ _ (DDisclose true) DOk); [done| |done|done|by left|].
        - intros x. cbn. rewrite Hc. by destruct (c =? x).
        - intros x cl' Hx. right. exists cl'. auto 6. }
    destruct down as [|m down].
    { eapply (hinv_quiet n _ _ _ _ _ (DDisclose true) DOk); [done| |done|done|by left|].
      - intros x. cbn. rewrite Hc. by destruct (c =? x).
      - intros x cl' Hx. right. exists cl'. auto 6. }
    destruct (nv_sync _ _ Hn _ _ Hc) as [s1 I1]. pose proof (is_replay _ _ _ _ _ I1) as Hrep. cbn in Hrep.
    destruct (replay_cons _ _ _ _ Hrep) as (s' & Eacc & _). destruct (acc_ok _ _ _ Eacc) as [x Ex]. rewrite Ex.
    assert (Hcl : forall y cl', <[c := Client s' up down used]> (n_clients n) !! y = Some cl' ->
       (y = c /\ cl' = Client s' up down used) \/ (y <> c /\ n_clients n !! y = Some cl')).
    { intros y cl'. destruct (decide (y = c)) as [->|Hne].
      - rewrite lookup_insert. intros [= <-]. by left.
      - rewrite lookup_insert_ne by done. by right. }
    constructor.
    + eapply (oinv_quiet n _ _ _ (DDisclose true) DOk); [apply H|by left|]. net_cbn. intros y cl' Hy. right.
      destruct (Hcl _ _ Hy) as [[-> ->]|[_ Hy']].
      * exists (Client s up (m :: down) used). cbn. split; [done|]. split; [auto|]. intros a Ha. by right.
      * exists cl'. auto 6.
    + intros y a Ha. eapply (explained_more n); [exact Hes|done|]. unfold logged in Ha.
      apply elem_of_app in Ha as [Ha|Ha]; [by apply (hi_log _ _ _ _ H)|]. cbn in Ha.
      destruct (N.eqb_spec c y) as [<-|]; [|by apply elem_of_nil in Ha]. rewrite Hc in Ha. apply elem_of_list_singleton in Ha. subst a.
      eapply (oi_down _ _ (hi_o _ _ _ _ H)); [exact Hc|]. by left.
    + intros y Hy. unfold logged, counted. cbn [delivers makes_call]. destruct (hi_new _ _ _ _ H _ Hy) as [-> ->].
      destruct (N.eqb_spec c y) as [<-|]; [|done]. exfalso. apply Hy, (nv_ever _ _ Hn). by rewrite Hc.
    + net_cbn. intros y cl' Hy. unfold logged, counted. cbn [delivers makes_call]. rewrite app_nil_r.
      destruct (Hcl _ _ Hy) as [[-> ->]|[Hne Hy']].
      * rewrite N.eqb_refl, Hc. destruct (hi_tally _ _ _ _ H _ _ Hc) as (T1 & T2 & T3 & T4 & T5). cbn [cl_session cl_used] in *.
        pose proof (fun r => acc_calls _ _ _ r Eacc) as Ha.
        unfold tally. cbn [cl_session cl_used]. unfold answer_ids in *. rewrite omap_app. fold (answer_ids [m]) in *.
        split; [|split; [done|split; [|split; [|done]]]].
        -- apply NoDup_app. split; [done|]. split.
           ++ intros r Hr Hin. apply (T4 r); [|done]. apply Ha. by right.
           ++ unfold answer_ids. cbn [omap list_omap]. generalize (match m with MResult x => if says (re_details x) "progress" then None else Some (re_request x) | MError x => if er_type x =? tCall then Some (er_request x) else None | _ => None end). intros [y|]; [apply NoDup_singleton|constructor].
        -- intros r. rewrite T3, elem_of_app. destruct (Ha r) as [-> _]. tauto.
        -- intros r Hr. rewrite elem_of_app. intros [Hin|Hin].
           ++ apply (T4 r); [|done]. apply Ha. by left.
           ++ by apply (proj2 (Ha r)).
      * destruct (N.eqb_spec c y) as [|]; [congruence|]. rewrite app_nil_r. by apply (hi_tally _ _ _ _ H).
  - (* disclose *)
    cbn [nstep].
    destruct (broker_call _ _ _ _ _ any_oracle (BDisclose p) (nv_b _ _ Hn) Hk) as (b' & bo & s & s' & E & _).
    destruct (dealer_call _ _ _ _ _ _ any_oracle (DDisclose c) (nv_d _ _ Hn) Hk Logic.I)
      as (d' & do & t & t' & E2 & Hr2 & Hph2 & Ht2 & J & T2 & J').
    unfold call_broker, call_dealer. rewrite E. net_cbn. rewrite E2. net_cbn.
    eapply (hinv_quiet n _ _ _ _ _ (DDisclose c) do); [done|done|done|done| |]; net_cbn.
    + right. split; [exact Ht2|done].
    + intros x cl' Hx. right. exists cl'. auto 6.
Qed.

Lemma hinv_empty : hinv empty_net [] (fun _ => []) (fun _ => []).
Proof.
  constructor.
  - constructor; cbn; try done; try (intros c cl; by rewrite lookup_empty); intros c m out Hx; by apply elem_of_nil in Hx.
  - intros c a Ha. by apply elem_of_nil in Ha.
  - done.
  - intros c cl H. cbn in H. by rewrite lookup_empty in H.
Qed.

Lemma hinv_run es : forall n k es0 log made, ginv n k -> N.of_nat (k + length es) <= two53 -> follows n es ->
  hinv n es0 log made ->
  hinv (nrun n es) (es0 ++ es) (fun c => log c ++ delivered c n es) (fun c => made c ++ calls_made c n es).
Proof.
  induction es as [|e es IH]; intros n k es0 log made Hn Hk Hf H.
  - cbn. rewrite app_nil_r. destruct H as [H1 H2 H3 H4].
    constructor; [done| | |]; intros c; rewrite !app_nil_r; auto.
  - destruct Hf as [Hr Hf]. cbn [length] in Hk. cbn [nrun delivered calls_made].
    assert (Hk' : N.of_nat k < two53) by lia.
    pose proof (hinv_step _ _ _ _ _ _ (proj1 Hn) Hk' Hr H) as H'.
    eapply (IH _ (S k)) in H'; [|by apply ginv_step|lia|done].
    rewrite <- app_assoc in H'. unfold logged, counted in H'. cbn [app] in H'.
    destruct H' as [H1 H2 H3 H4]. constructor; [done| | |]; intros c; rewrite !app_assoc; auto.
Qed.
