(** Requests are answered once each and in the order they were made. *)
From Verif Require Import Prelude Value Msg IdGen Types PathMatch Mutex Broker Dealer Session Network.
From Verif Require Import BrokerSpec BrokerFacts BrokerSim BrokerTrace BrokerProofs.
From Verif Require Import DealerSpec DealerFacts DealerCalls DealerSim DealerStep DealerProofs DealerPolite DealerShare DealerFinal.
From Verif Require Import NetworkSpec NetworkClient NetworkSync NetworkProofs NetworkCalls NetworkLocal NetworkOrigin NetworkFinal.
From Verif Require Import NetworkReplies NetworkRest.

(** ** What handling a message adds to the answers *)

Definition adds (f : N -> list (N * N)) (cls cls' : gmap N client) : Prop :=
  forall x cl', cls' !! x = Some cl' -> exists cl, cls !! x = Some cl /\ cl_up cl' = cl_up cl /\ cl_used cl' = cl_used cl
    /\ flat_map replies (cl_down cl') = flat_map replies (cl_down cl) ++ f x.
Definition none : N -> list (N * N) := fun _ => [].
Definition only (c : N) (l : list (N * N)) : N -> list (N * N) := fun x => if decide (x = c) then l else [].

Lemma adds_refl cls : adds none cls cls.
Proof. intros x cl H. exists cl. by rewrite app_nil_r. Qed.
Lemma adds_trans f g a b c : adds f a b -> adds g b c -> adds (fun x => f x ++ g x) a c.
Proof.
  intros H1 H2 x cl Hx. destruct (H2 _ _ Hx) as (cl1 & Hx1 & E1 & F1 & E2). destruct (H1 _ _ Hx1) as (cl2 & Hx2 & E3 & F3 & E4).
  exists cl2. split; [done|]. split; [congruence|]. split; [congruence|]. by rewrite E2, E4, app_assoc.
Qed.
Lemma adds_ext f g a b : (forall x, f x = g x) -> adds f a b -> adds g a b.
Proof. intros E H x cl Hx. rewrite <- E. by apply H. Qed.
Lemma adds_post n m to : adds (only to (replies m)) (n_clients n) (n_clients (post n m to)).
Proof.
  intros x cl'. unfold post, only. destruct (n_clients n !! to) as [cl|] eqn:E.
  - cbn. destruct (decide (x = to)) as [->|Hne].
    + rewrite lookup_insert. intros [= <-]. exists cl. split; [done|]. split; [done|]. split; [done|].
      cbn [cl_post cl_down]. rewrite flat_map_app. cbn [flat_map]. by rewrite app_nil_r.
    + rewrite lookup_insert_ne by done. intros H. exists cl'. by rewrite app_nil_r.
  - intros H. exists cl'. rewrite decide_False by congruence. by rewrite app_nil_r.
Qed.
Lemma adds_post_none n m to : replies m = [] -> adds none (n_clients n) (n_clients (post n m to)).
Proof. intros E. eapply adds_ext; [|apply adds_post]. intros x. unfold only. rewrite E. by case_decide. Qed.
Lemma adds_post_all m tos : replies m = [] -> forall n, adds none (n_clients n) (n_clients (post_all n m tos)).
Proof.
  intros E. induction tos as [|to tos IH]; intros n; [apply adds_refl|]. cbn [post_all].
  eapply adds_ext; [|eapply adds_trans; [by apply adds_post_none|apply IH]]. done.
Qed.
Lemma adds_only_nil c a b : adds none a b -> adds (only c []) a b.
Proof. apply adds_ext. intros x. unfold only. by case_decide. Qed.

Definition still_held (n : net) (c : N) (m : message) : Prop :=
  match m with
  | MUnsubscribe u => exists t, holds (btr n) c t (us_subscription u)
  | MUnregister u => exists p, owns (dtr n) c p (ur_registration u)
  | _ => True
  end.

Lemma dealer_replies n k o c m d' out : ninv n k -> N.of_nat k < two53 -> is_Some (n_clients n !! c) ->
  polite (dtr n) (DReceive c m) ->
  match m with MSubscribe _ | MUnsubscribe _ | MPublish _ => False | _ => True end ->
  dstep o (n_dealer n) (DReceive c m) = Ret d' out ->
  match out with DMsg a to => replies a = asks m /\ (asks m <> [] -> to = c) | _ => asks m = [] \/ ~ still_held n c m end.
Proof.
  intros Hn Hk Hc Hpol Hm E.
  pose proof (dp_run _ _ _ _ _ _ (nv_d _ _ Hn)) as Hrun. pose proof (dp_len _ _ _ _ _ _ (nv_d _ _ Hn)) as Hlen.
  assert (L2 : N.of_nat (length (n_dh n)) <= two53) by lia.
  destruct (dealer_call _ _ _ _ _ _ o _ (nv_d _ _ Hn) Hk Hpol)
    as (d1 & out1 & s & s' & E1 & Hr & Hph & Ht & I & T & I').
  rewrite E in E1. injection E1 as <- <-.
  assert (V : view (dtr n) s) by (eapply drep_view; [|exact Hrun|done]; lia).
  inversion T as [| | | | | |sid m0 g dead|sid m0 r|sid m0 r|sid m0 e Hno|sid m0 p r dead|sid m0 e Hno|sid m0|sid m0 p r callee turn v Hro Hpi Hi|sid m0 out0 Hm0 Hout];
    subst; try done; try (by left).
  - exfalso. apply (dp_pres _ _ _ _ _ _ (nv_d _ _ Hn)) in Hc. apply (vw_sess _ _ V) in Hc. rewrite Hno in Hc. by destruct Hc.
  - right. intros [p (r & H1 & H2 & H3)%(dp_owns _ _ _ I)]. by eapply Hno.
  - destruct m; try (by destruct Hm); try (by destruct Hm0);
      try (cbn [dstep d_receive_message] in E; injection E as <- <-; first [done|by left]);
      destruct out as [e| |b|a to]; try done; try (by left).
    + destruct (error_origin _ _ _ _ _ _ _ _ _ L2 Hrun E) as (call & out & _ & _ & _ & ->). done.
    + destruct (result_origin _ _ _ _ _ _ _ _ _ L2 Hrun E) as (call & out & d & _ & _ & _ & ->). done.
Qed.

Lemma handle_replies n k o c m : ninv n k -> N.of_nat k < two53 -> is_Some (n_clients n !! c) ->
  polite (dtr n) (DReceive c m) ->
  exists l, adds (only c l) (n_clients n) (n_clients (handle o c m n)) /\ (l = asks m \/ l = [] /\ ~ still_held n c m).
Proof.
  intros Hn Hk Hc Hpol.
  assert (Hyes : adds (only c (asks m)) (n_clients n) (n_clients (handle o c m n)) ->
    exists l, adds (only c l) (n_clients n) (n_clients (handle o c m n)) /\ (l = asks m \/ l = [] /\ ~ still_held n c m))
    by (intros H; exists (asks m); split; [done|by left]).
  assert (Hdealer : match m with MSubscribe _ | MUnsubscribe _ | MPublish _ => False | _ => True end ->
    exists l, adds (only c l) (n_clients n)
      (n_clients (match call_dealer o (DReceive c m) n with (n, Some (DMsg a to)) => post n a to | (n, _) => n end))
      /\ (l = asks m \/ l = [] /\ ~ still_held n c m)).
  { intros Hm.
    destruct (dealer_call _ _ _ _ _ _ o _ (nv_d _ _ Hn) Hk Hpol) as (d1 & out & s & s' & E & _).
    pose proof (dealer_replies _ _ _ _ _ _ _ Hn Hk Hc Hpol Hm E) as H.
    unfold call_dealer. rewrite E.
    destruct out as [e| |b|a to]; try (exists []; split; [apply adds_only_nil, adds_refl|]; destruct H as [->|H]; [by left|by right]).
    destruct H as [Ha Hto]. exists (asks m). split; [|by left].
    match goal with |- context [post ?n1 a to] => pose proof (adds_post n1 a to) as H end. cbn [n_clients] in H.
    destruct (asks m) as [|x l] eqn:Ea.
    - apply adds_only_nil. eapply adds_ext; [|exact H]. intros x. unfold only, none. rewrite Ha. by case_decide.
    - rewrite Hto, Ha in H by done. rewrite Hto by done. exact H. }
  destruct m; try (by apply Hdealer); try (apply Hyes, adds_only_nil, adds_refl); clear Hdealer; cbn [handle] in *; unfold call_broker in *.
  - (* PUBLISH *)
    apply Hyes. clear Hyes.
    match goal with |- context [BPublish c ?x] => rename x into p end.
    destruct (broker_call _ _ _ _ _ o (BPublish c p) (nv_b _ _ Hn) Hk)
      as (b' & out & s & s' & E & Hr & Ht & I & T & I'). rewrite E.
    assert (Ha : is_Some (tb_sessions s !! c)) by (by apply (ti_att _ _ I), (bp_att _ _ _ _ _ (nv_b _ _ Hn))).
    assert (exists ev rs pid, out = BPubl ev rs (ack_of p c pid)) as (ev & rs & pid & ->).
    { inversion T; subst; [|eauto..].
      match goal with H : tb_sessions _ !! c = None |- _ => rewrite H in Ha; by destruct Ha end. }
    set (n1 := Net _ _ _ _ _ _ _ _ _ _).
    set (n2 := match ev with Some e => post_all n1 (MEvent e) rs | None => n1 end).
    assert (H2 : adds none (n_clients n) (n_clients n2)).
    { subst n2. destruct ev; [by apply (adds_post_all (MEvent _) rs eq_refl n1)|apply adds_refl]. }
    assert (Hfl : ack_of p c pid = if says (pu_options p) "acknowledge"
                                   then Some (MPublished (Published (pu_request p) pid), c) else None).
    { unfold ack_of, says. by destruct (mget _ _) as [|[]| | | | | | | | |]. }
    rewrite Hfl. cbn [asks]. destruct (says (pu_options p) "acknowledge"); [|by apply adds_only_nil].
    eapply adds_ext; [|eapply adds_trans; [exact H2|apply adds_post]]. done.
  - (* SUBSCRIBE *)
    apply Hyes. clear Hyes.
    match goal with |- context [MSubscribe ?x] => rename x into p end.
    destruct (broker_call _ _ _ _ _ o (BReceive c (MSubscribe p)) (nv_b _ _ Hn) Hk)
      as (b' & out & s & s' & E & Hr & Ht & I & T & I'). rewrite E.
    assert (Ha : is_Some (tb_sessions s !! c)) by (by apply (ti_att _ _ I), (bp_att _ _ _ _ _ (nv_b _ _ Hn))).
    assert (exists g, out = BMsg (MSubscribed (Subscribed (su_request p) g)) c) as [g ->].
    { inversion T as [| | | | | |sid m r Hs Hrow|sid m Hs Hrow| |sid m e He| | |]; subst; [eauto..|].
      rewrite He in Ha. by destruct Ha. }
    match goal with |- context [post ?n1 ?a ?to] => apply (adds_post n1 a to) end.
  - (* UNSUBSCRIBE *)
    clear Hyes.
    match goal with |- context [MUnsubscribe ?x] => rename x into p end.
    destruct (broker_call _ _ _ _ _ o (BReceive c (MUnsubscribe p)) (nv_b _ _ Hn) Hk)
      as (b' & out & s & s' & E & Hr & Ht & I & T & I'). rewrite E.
    assert (Ha : is_Some (tb_sessions s !! c)) by (by apply (ti_att _ _ I), (bp_att _ _ _ _ _ (nv_b _ _ Hn))).
    assert (out = BMsg (MUnsubscribed (Unsubscribed (us_request p))) c
            \/ (exists e, out = BErr e) /\ ~ still_held n c (MUnsubscribe p)) as [->|[[e ->] Hno]].
    { inversion T as [| | | | | | | | |sid m e He| | |]; subst; [by left|right]. split; [by eexists|]. destruct He as [He|He].
      - rewrite He in Ha. by destruct Ha.
      - intros [t (r & H1 & H2 & H3)%(ti_hold _ _ I)]. by eapply He. }
    + exists (asks (MUnsubscribe p)). split; [|by left].
      match goal with |- context [post ?n1 ?a ?to] => apply (adds_post n1 a to) end.
    + exists []. split; [apply adds_only_nil, adds_refl|]. by right.
Qed.

(** ** The whole run *)

(** All answered, or some left out. *)
Definition among (b : bool) (x y : list (N * N)) : Prop := if b then x = y else x `sublist_of` y.
Lemma among_refl b x : among b x x.
Proof. by destruct b; cbn. Qed.
Lemma among_app b x y z : among b x y -> among b (x ++ z) (y ++ z).
Proof. destruct b; cbn; [by intros ->|]. intros H. by apply sublist_app. Qed.

Record ainv (b : bool) (n : net) (log : N -> list message) (made : N -> list (N * N)) : Prop := AInv {
  ai_new : forall c, c ∉ n_ever n -> log c = [] /\ made c = [];
  ai_sum : forall c cl, n_clients n !! c = Some cl ->
    among b (flat_map replies (log c) ++ flat_map replies (cl_down cl) ++ flat_map asks (cl_up cl)) (made c);
  ai_once : forall c cl, n_clients n !! c = Some cl -> NoDup (map snd (made c)) /\ forall r, r ∈ map snd (made c) -> r ∈ cl_used cl }.
Definition requested (made : N -> list (N * N)) n e : N -> list (N * N) := fun c => made c ++ makes_request c n e.

Lemma ainv_quiet b n n' e log made : ainv b n log made ->
  (forall c, delivers c n e = []) -> (forall c, makes_request c n e = []) ->
  (forall c, c ∉ n_ever n' -> c ∉ n_ever n) ->
  (forall c cl', n_clients n' !! c = Some cl' -> (cl' = Client new_session [] [] [] /\ c ∉ n_ever n)
     \/ exists cl, n_clients n !! c = Some cl /\ cl_up cl' = cl_up cl /\ cl_down cl' = cl_down cl /\ cl_used cl' = cl_used cl) ->
  ainv b n' (logged log n e) (requested made n e).
Proof.
  intros H Hd Hm Hev Hc.
  assert (EL : forall c, logged log n e c = log c) by (intros c; unfold logged; by rewrite Hd, app_nil_r).
  assert (EM : forall c, requested made n e c = made c) by (intros c; unfold requested; by rewrite Hm, app_nil_r).
  constructor.
  - intros c Hx. rewrite EL, EM. by apply (ai_new _ _ _ _ H), Hev.
  - intros c cl' Hx. rewrite EL, EM. destruct (Hc _ _ Hx) as [[-> Hne]|(cl & Hx' & -> & -> & _)]; [|by apply (ai_sum _ _ _ _ H)].
    destruct (ai_new _ _ _ _ H _ Hne) as [-> ->]. apply among_refl.
  - intros c cl' Hx. rewrite EM. destruct (Hc _ _ Hx) as [[-> Hne]|(cl & Hx' & _ & _ & ->)]; [|by apply (ai_once _ _ _ _ H)].
    destruct (ai_new _ _ _ _ H _ Hne) as [_ ->]. cbn. split; [constructor|]. intros r Hr. by apply elem_of_nil in Hr.
Qed.

Lemma asks_request m : asks m = [] \/ exists t r, asks m = [(t, r)] /\ request_of m = Some r.
Proof. destruct m; cbn; try (by left); [destruct (says _ _); [|by left]|..]; right; eauto. Qed.

Lemma ainv_step b n k e log made : ninv n k -> N.of_nat k < two53 -> rules n e -> (b = true -> timely n e) -> ainv b n log made ->
  ainv b (nstep n e) (logged log n e) (requested made n e).
Proof.
  intros Hn Hk Hr Ht H. destruct e as [d|o c|c m|o c|c|p c].
  - cbn [nstep]. apply (ainv_quiet b n); [done|done|done| |].
    + intros c. unfold call_broker, call_dealer. net_cbn. destruct (bstep _ _ _); net_cbn; destruct (dstep _ _ _); net_cbn;
        intros Hc Hin; apply Hc; by right.
    + intros c cl'. rewrite call_dealer_clients, call_broker_clients. net_cbn. destruct (decide (c = se_id d)) as [->|Hne].
      * rewrite lookup_insert. intros [= <-]. by left.
      * rewrite lookup_insert_ne by done. eauto 8.
  - cbn [nstep]. apply (ainv_quiet b n); [done|done|done| |].
    + intros x. unfold call_broker, call_dealer. net_cbn. destruct (bstep _ _ _); net_cbn; by destruct (dstep _ _ _).
    + intros x cl'. rewrite call_dealer_clients, call_broker_clients. net_cbn. intros Hx. apply lookup_delete_Some in Hx as [_ Hx]. eauto 8.
  - cbn [nstep]. destruct (n_clients n !! c) as [cl|] eqn:Hc.
    2:{ apply (ainv_quiet b n); [done|done| |done|eauto 8].
        intros x. cbn. rewrite Hc. by destruct (_ =? _). }
    destruct (sstep (cl_session cl) (SSend (Ok "") m)) as [s' r] eqn:E.
    assert (Herr : (forall x, r <> Ok x) ->
      ainv b (nset_clients (<[c := Client s' (cl_up cl) (cl_down cl) (cl_used cl)]> (n_clients n)) n)
        (logged log n (NSend c m)) (requested made n (NSend c m))).
    { intros Hne. apply (ainv_quiet b n); [done|done| |done|].
      - intros x. cbn [makes_request]. rewrite Hc, E. destruct (_ =? _); [|done]. destruct r; [by edestruct Hne|done|done].
      - net_cbn. intros x cl'. destruct (decide (x = c)) as [->|Hx].
        + rewrite lookup_insert. intros [= <-]. eauto 8.
        + rewrite lookup_insert_ne by done. eauto 8. }
    destruct r as [y|y|y]; [clear Herr|by apply Herr..].
    constructor; net_cbn.
    + intros x Hx. unfold logged, requested. destruct (ai_new _ _ _ _ H _ Hx) as [-> ->]. cbn.
      destruct (N.eqb_spec c x) as [->|]; [|done]. exfalso. apply Hx, (nv_ever _ _ Hn). by rewrite Hc.
    + intros x cl'. unfold logged, requested. cbn [delivers makes_request]. rewrite app_nil_r.
      destruct (N.eqb_spec c x) as [->|Hne].
      * rewrite lookup_insert. intros [= <-]. cbn [cl_up cl_down]. rewrite Hc, E, flat_map_app.
        cbn [flat_map]. rewrite app_nil_r, !app_assoc, <- (app_assoc (flat_map replies (log x))).
        apply among_app, (ai_sum _ _ _ _ H _ _ Hc).
      * rewrite lookup_insert_ne by done. rewrite app_nil_r. apply (ai_sum _ _ _ _ H).
    + intros x cl'. unfold requested. cbn [makes_request]. destruct (N.eqb_spec c x) as [->|Hne].
      * rewrite lookup_insert. intros [= <-]. cbn [cl_used]. rewrite Hc, E. destruct (ai_once _ _ _ _ H _ _ Hc) as [O1 O2].
        destruct (asks_request m) as [->|(t & r & -> & Er)].
        -- rewrite app_nil_r. split; [done|]. intros r Hin. destruct (request_of m); [right|]; by apply O2.
        -- rewrite map_app, Er. cbn. split.
           ++ apply NoDup_app. split; [done|]. split; [|apply NoDup_singleton]. intros q Hq ->%elem_of_list_singleton.
              by apply (Hr _ Hc _ Er), O2.
           ++ intros q [Hq| ->%elem_of_list_singleton]%elem_of_app; [right; by apply O2|by left].
      * rewrite lookup_insert_ne, app_nil_r by done. apply (ai_once _ _ _ _ H).
  - destruct (n_clients n !! c) as [cl|] eqn:Hc.
    2:{ cbn [nstep]. rewrite Hc. apply (ainv_quiet b n); [done|done|done|done|eauto 8]. }
    destruct (cl_up cl) as [|m rest] eqn:Hu.
    { cbn [nstep]. rewrite Hc. destruct cl as [s0 up down used]. cbn in Hu. subst up.
      apply (ainv_quiet b n); [done|done|done|done|eauto 8]. }
    pose proof (Hr _ _ _ Hc Hu) as Hpol.
    destruct (handle_replies n k o c m Hn Hk ltac:(by rewrite Hc) Hpol) as (l & Ha & Hheld).
    rewrite (route_step _ _ _ _ _ _ Hc Hu). constructor.
    + net_cbn. rewrite handle_ever. unfold logged, requested. cbn. setoid_rewrite app_nil_r. apply (ai_new _ _ _ _ H).
    + net_cbn. intros x cl'. unfold logged, requested. cbn [delivers makes_request]. rewrite !app_nil_r. rewrite taken_lookup.
      intros Hx. case_decide as Hxc.
      * subst x. apply fmap_Some in Hx as (cl1 & Hx & ->). destruct (Ha _ _ Hx) as (cl2 & Hx2 & E1 & _ & E2).
        rewrite Hc in Hx2. injection Hx2 as <-. pose proof (ai_sum _ _ _ _ H _ _ Hc) as HS. cbn [cl_pop cl_up cl_down]. rewrite E2, E1, Hu. rewrite Hu in HS. cbn [flat_map tail] in *.
        unfold only. rewrite decide_True, <- !app_assoc by done. destruct Hheld as [->|[-> Hno]]; [done|].
        destruct b; [exfalso; apply Hno; exact (Ht eq_refl _ _ _ Hc Hu)|]. cbn in *. etrans; [|exact HS].
        apply sublist_app; [done|]. apply sublist_app; [done|]. by apply sublist_inserts_l.
      * destruct (Ha _ _ Hx) as (cl2 & Hx2 & E1 & _ & E2). pose proof (ai_sum _ _ _ _ H _ _ Hx2) as HS. rewrite E1, E2. unfold only.
        by rewrite decide_False, app_nil_r by done.
    + net_cbn. intros x cl'. unfold requested. cbn [makes_request]. rewrite app_nil_r, taken_lookup. intros Hx.
      assert (exists cl2, n_clients n !! x = Some cl2 /\ cl_used cl' = cl_used cl2) as (cl2 & Hx2 & ->).
      { case_decide as Hxc.
        - apply fmap_Some in Hx as (cl1 & Hx & ->). destruct (Ha _ _ Hx) as (cl2 & Hx2 & _ & E2 & _). eauto 8.
        - destruct (Ha _ _ Hx) as (cl2 & Hx2 & _ & E2 & _). eauto 8. }
      by apply (ai_once _ _ _ _ H).
  - destruct (n_clients n !! c) as [cl|] eqn:Hc.
    2:{ cbn [nstep]. rewrite Hc. apply (ainv_quiet b n); [done| |done|done|eauto 8].
        intros x. cbn. rewrite Hc. by destruct (_ =? _). }
    destruct (cl_down cl) as [|m rest] eqn:Hu.
    { cbn [nstep]. rewrite Hc. destruct cl as [s0 up down used]. cbn in Hu. subst down.
      apply (ainv_quiet b n); [done| |done|done|eauto 8]. intros x. cbn. rewrite Hc. by destruct (_ =? _). }
    destruct cl as [s0 up down used]. cbn in Hu. subst down.
    assert (Hcl : forall x cl', n_clients (nstep n (NDeliver c)) !! x = Some cl' ->
       x <> c /\ n_clients n !! x = Some cl' \/ x = c /\ cl_up cl' = up /\ cl_down cl' = rest /\ cl_used cl' = used).
    { intros x cl'. cbn [nstep]. rewrite Hc. destruct (sstep _ _) as [s' r].
      destruct (decide (x = c)) as [->|Hne].
      - destruct r; net_cbn; rewrite lookup_insert; intros [= <-]; by right.
      - destruct r; net_cbn; rewrite lookup_insert_ne by done; by left. }
    assert (Hev : n_ever (nstep n (NDeliver c)) = n_ever n).
    { cbn [nstep]. rewrite Hc. destruct (sstep _ _) as [s' r]. by destruct r. }
    constructor.
    + intros x. rewrite Hev. intros Hx. unfold logged, requested. destruct (ai_new _ _ _ _ H _ Hx) as [-> ->]. cbn.
      destruct (N.eqb_spec c x) as [->|]; [|done]. exfalso. apply Hx, (nv_ever _ _ Hn). by rewrite Hc.
    + intros x cl' Hx. unfold logged, requested. cbn [delivers makes_request]. rewrite app_nil_r.
      destruct (Hcl _ _ Hx) as [[Hne Hx']|(-> & -> & -> & _)].
      * destruct (N.eqb_spec c x); [congruence|]. rewrite app_nil_r. by apply (ai_sum _ _ _ _ H).
      * pose proof (ai_sum _ _ _ _ H _ _ Hc) as HS. cbn [flat_map cl_up cl_down] in HS.
        rewrite N.eqb_refl, Hc, flat_map_app. cbn [flat_map]. rewrite app_nil_r. rewrite <- !app_assoc in *. exact HS.
    + intros x cl' Hx. unfold requested. cbn [makes_request]. rewrite app_nil_r.
      destruct (Hcl _ _ Hx) as [[_ Hx']|(-> & _ & _ & ->)]; [by apply (ai_once _ _ _ _ H)|]. apply (ai_once _ _ _ _ H _ _ Hc).
  - cbn [nstep]. apply (ainv_quiet b n); [done|done|done| |].
    + intros x. unfold call_broker, call_dealer. net_cbn. destruct (bstep _ _ _); net_cbn; by destruct (dstep _ _ _).
    + intros x cl'. rewrite call_dealer_clients, call_broker_clients. eauto 8.
Qed.

Lemma ainv_run b es : forall n k log made, ginv n k -> N.of_nat (k + length es) <= two53 -> follows n es -> (b = true -> all_timely n es) ->
  ainv b n log made ->
  ainv b (nrun n es) (fun c => log c ++ delivered c n es) (fun c => made c ++ requests_made c n es).
Proof.
  induction es as [|e es IH]; intros n k log made Hn Hk Hf Ht H.
  - cbn. destruct H as [H1 H2 H3]. constructor; intros c; rewrite !app_nil_r; auto.
  - destruct Hf as [Hr Hf]. assert (Ht1 : b = true -> timely n e) by (intros Hb; apply (Ht Hb)).
    assert (Hts : b = true -> all_timely (nstep n e) es) by (intros Hb; apply (Ht Hb)). cbn [length] in Hk. cbn [nrun delivered requests_made].
    assert (Hk' : N.of_nat k < two53) by lia.
    pose proof (ainv_step _ _ _ _ _ _ (proj1 Hn) Hk' Hr Ht1 H) as H'.
    eapply (IH _ (S k)) in H'; [|by apply ginv_step|lia|done|done].
    unfold logged, requested in H'. destruct H' as [H1 H2 H3]. constructor; intros c; rewrite !app_assoc; auto.
Qed.
Lemma ainv_empty b : ainv b empty_net (fun _ => []) (fun _ => []).
Proof. constructor; [done| |]; intros x y Hx; cbn in Hx; by rewrite lookup_empty in Hx. Qed.
Lemma answers_in_order es c cl : N.of_nat (length es) <= two53 -> follows empty_net es -> all_timely empty_net es ->
  n_clients (nrun empty_net es) !! c = Some cl ->
  requests_made c empty_net es
  = flat_map replies (delivered c empty_net es) ++ flat_map replies (cl_down cl) ++ flat_map asks (cl_up cl)
  /\ NoDup (map snd (requests_made c empty_net es)).
Proof.
  intros Hl Hf Ht Hc.
  pose proof (ainv_run true es _ _ _ _ ginv_empty Hl Hf (fun _ => Ht) (ainv_empty _)) as H.
  split; [symmetry; exact (ai_sum _ _ _ _ H _ _ Hc)|]. exact (proj1 (ai_once _ _ _ _ H _ _ Hc)).
Qed.
Lemma answers_at_most_once es c cl : N.of_nat (length es) <= two53 -> follows empty_net es ->
  n_clients (nrun empty_net es) !! c = Some cl ->
  (flat_map replies (delivered c empty_net es) ++ flat_map replies (cl_down cl) ++ flat_map asks (cl_up cl))
    `sublist_of` requests_made c empty_net es
  /\ NoDup (map snd (requests_made c empty_net es)).
Proof.
  intros Hl Hf Hc.
  assert (Ht : false = true -> all_timely empty_net es) by done.
  pose proof (ainv_run false es _ _ _ _ ginv_empty Hl Hf Ht (ainv_empty _)) as H.
  split; [exact (ai_sum _ _ _ _ H _ _ Hc)|]. exact (proj1 (ai_once _ _ _ _ H _ _ Hc)).
Qed.

(** ** Clients that give nothing up twice *)

Lemma acc_unsubs s a s' : acc s a = Some s' -> cs_unsubscribes s' ⊆ cs_unsubscribes s.
Proof.
  intros H.
  assert (cs_unsubscribes s' = cs_unsubscribes s \/ exists r, cs_unsubscribes s' = delete r (cs_unsubscribes s)) as [->|[r ->]].
  2:{ done. }
  2:{ apply delete_subseteq. }
  destruct a; cbn [acc] in H; try discriminate H;
    unfold pop_call, pop_register, pop_publish in H;
    repeat (match type of H with
            | context [if ?b then _ else _] => destruct b
            | context [match ?x with Some _ => _ | None => _ end] => destruct x
            end; cbn [fmap option_fmap option_map] in H);
    try discriminate H; injection H as <-; try (by left); right; by eexists.
Qed.
Lemma acc_keeps_sub s a s' g : acc s a = Some s' -> g ∈ cs_subscriptions s ->
  (forall r, cs_unsubscribes s !! r <> Some g) -> g ∈ cs_subscriptions s'.
Proof.
  intros H Hg Hno.
  destruct a; cbn [acc] in H; try discriminate H;
    unfold pop_call, pop_register, pop_publish in H;
    repeat (match type of H with
            | context [if ?b then _ else _] => destruct b
            | context [match ?x with Some _ => _ | None => _ end] => destruct x eqn:?
            end; cbn [fmap option_fmap option_map] in H);
    try discriminate H; injection H as <-; cbn; try done.
  - set_solver.
  - apply elem_of_difference. split; [done|]. rewrite elem_of_singleton. intros ->. by eapply Hno.
Qed.
Lemma replay_unsubs q : forall s s', replay s q = Some s' -> cs_unsubscribes s' ⊆ cs_unsubscribes s.
Proof.
  induction q as [|a q IH]; intros s s' H.
  - cbn in H. by injection H as ->.
  - apply replay_cons in H as (s1 & E & H). etrans; [by eapply IH|]. by eapply acc_unsubs.
Qed.
Lemma replay_keeps_sub q : forall s s' g, replay s q = Some s' -> g ∈ cs_subscriptions s ->
  (forall r, cs_unsubscribes s !! r <> Some g) -> g ∈ cs_subscriptions s'.
Proof.
  induction q as [|a q IH]; intros s s' g H Hg Hno.
  - cbn in H. by injection H as ->.
  - apply replay_cons in H as (s1 & E & H). eapply IH; [done|by eapply acc_keeps_sub|].
    intros r Hr. eapply Hno. eapply lookup_weaken; [exact Hr|]. by eapply acc_unsubs.
Qed.

Definition unsub_ids (q : list message) : list N :=
  omap (fun m => match m with MUnsubscribe u => Some (us_subscription u) | _ => None end) q.
Record uinv (n : net) : Prop := UInv {
  ui_held : forall c cl u, n_clients n !! c = Some cl -> MUnsubscribe u ∈ cl_up cl -> subs (btr n) c (us_subscription u);
  ui_once : forall c cl, n_clients n !! c = Some cl -> NoDup (unsub_ids (cl_up cl)) }.

Lemma uinv_timely n e : linv n -> uinv n -> timely n e.
Proof.
  intros L U. destruct e as [d|o c|c m|o c|c|p c]; try done. intros cl m rest Hc Hu. destruct m; try done.
  - apply (ui_held _ U c cl m Hc). rewrite Hu. by left.
  - apply (li_unreg _ L c cl m Hc). rewrite Hu. by left.
Qed.
Lemma uinv_quiet n n' : uinv n ->
  (forall x cl', n_clients n' !! x = Some cl' -> cl_up cl' = [] \/ exists cl, n_clients n !! x = Some cl /\ cl_up cl' = cl_up cl) ->
  (forall x g, is_Some (n_clients n' !! x) -> subs (btr n) x g -> subs (btr n') x g) -> uinv n'.
Proof.
  intros U Hup Hs. constructor.
  - intros c cl m Hc Hm. destruct (Hup _ _ Hc) as [E|(cl0 & Hc0 & E)]; rewrite E in Hm; [by apply elem_of_nil in Hm|].
    apply Hs; [by rewrite Hc|]. by eapply (ui_held _ U).
  - intros c cl Hc. destruct (Hup _ _ Hc) as [E|(cl0 & Hc0 & E)]; rewrite E; [constructor|]. by eapply (ui_once _ U).
Qed.
Lemma subs_quiet e tr c g : ~ is_ended e c g -> subs tr c g -> subs (e :: tr) c g.
Proof. intros H [t Ht]. exists t. cbn [holds]. by right. Qed.
Lemma call_dealer_btr o op n : btr (fst (call_dealer o op n)) = btr n.
Proof. unfold call_dealer. by destruct (dstep _ _ _). Qed.
Lemma post_btr n m to : btr (post n m to) = btr n.
Proof. unfold post. by destruct (n_clients n !! to). Qed.
Lemma post_all_btr m tos : forall n, btr (post_all n m tos) = btr n.
Proof. induction tos as [|to tos IH]; intros n; [done|]. cbn [post_all]. by rewrite IH, post_btr. Qed.
Lemma handle_btr n k o c m : ninv n k -> N.of_nat k < two53 ->
  btr (handle o c m n) = btr n
  \/ exists op out, btr (handle o c m n) = (op, out) :: btr n /\ (op = BReceive c m \/ exists p, op = BPublish c p).
Proof.
  intros Hn Hk.
  assert (HD : btr (match call_dealer o (DReceive c m) n with (n, Some (DMsg a to)) => post n a to | (n, _) => n end) = btr n).
  { pose proof (call_dealer_btr o (DReceive c m) n) as H.
    destruct (call_dealer _ _ _) as [n1 [[]|]]; cbn [fst] in H; try exact H. by rewrite post_btr. }
  assert (HB : forall op n1 bo, call_broker o op n = (n1, bo) ->
     exists out, bo = Some out /\ btr n1 = (op, out) :: btr n).
  { intros op n1 bo. unfold call_broker.
    destruct (broker_call _ _ _ _ _ o op (nv_b _ _ Hn) Hk) as (b' & out & s & s' & E & Hr & Ht & _).
    rewrite E. intros [= <- <-]. exists out. split; [done|]. exact Ht. }
  destruct m; cbn [handle]; try (left; exact HD); try (by left); clear HD; right.
  - match goal with |- context [BPublish c ?p] => destruct (call_broker o (BPublish c p) n) as [n1 bo] eqn:E end.
    destruct (HB _ _ _ E) as (out & -> & H). eexists _, out. split; [|right; by eexists].
    destruct out as [| | | |ev rs ack]; try exact H.
    destruct ack as [[a to]|]; rewrite ?post_btr; destruct ev; by rewrite ?post_all_btr.
  - destruct (call_broker o _ n) as [n1 bo] eqn:E. destruct (HB _ _ _ E) as (out & -> & H). eexists _, out. split; [|by left].
    destruct out; rewrite ?post_btr; exact H.
  - destruct (call_broker o _ n) as [n1 bo] eqn:E. destruct (HB _ _ _ E) as (out & -> & H). eexists _, out. split; [|by left].
    destruct out; rewrite ?post_btr; exact H.
Qed.
Lemma route_lookup n o c cl m rest : n_clients n !! c = Some cl -> cl_up cl = m :: rest ->
  forall y cl', n_clients (nstep n (NRoute o c)) !! y = Some cl' ->
  exists cl0, n_clients n !! y = Some cl0 /\ cl_up cl0 = (if decide (y = c) then [m] else []) ++ cl_up cl'.
Proof.
  intros Hc Hu y cl' Hy. pose proof (route_ups _ o _ _ _ _ Hc Hu) as H.
  assert (H1 : ups (nstep n (NRoute o c)) !! y = Some (cl_up cl')) by (unfold ups; by rewrite lookup_fmap, Hy).
  rewrite H in H1. case_decide as E.
  - subst y. rewrite lookup_insert in H1. injection H1 as <-. by exists cl.
  - rewrite lookup_insert_ne in H1 by done. unfold ups in H1. rewrite lookup_fmap in H1.
    destruct (n_clients n !! y) as [cl0|]; [|done]. injection H1 as H1. exists cl0. by rewrite H1.
Qed.

Lemma uinv_step n k e : ninv n k -> N.of_nat k < two53 -> linv n -> uinv n -> considerate n e -> uinv (nstep n e).
Proof.
  intros Hn Hk L U [Hca Hco]. destruct e as [d|o c|c m|o c|c|p c].
  - cbn [nstep]. destruct (broker_call _ _ _ _ _ any_oracle (BAdd d) (nv_b _ _ Hn) Hk)
      as (b' & bo & s & s' & E & Hr & Ht & _).
    apply (uinv_quiet n); [done| |].
    + intros x cl'. rewrite call_dealer_clients, call_broker_clients. net_cbn. destruct (decide (x = se_id d)) as [->|Hne].
      * rewrite lookup_insert. intros [= <-]. by left.
      * rewrite lookup_insert_ne by done. intros H. right. eauto.
    + intros x g _. rewrite call_dealer_btr. unfold call_broker. net_cbn. rewrite E. net_cbn. unfold btr at 2. net_cbn.
      rewrite Ht. apply subs_quiet. destruct bo; tauto.
  - cbn [nstep]. destruct (broker_call _ _ _ _ _ o (BRemove c) (nv_b _ _ Hn) Hk)
      as (b' & bo & s & s' & E & Hr & Ht & _).
    apply (uinv_quiet n); [done| |].
    + intros x cl'. rewrite call_dealer_clients, call_broker_clients. net_cbn. intros Hx. apply lookup_delete_Some in Hx as [_ Hx]. eauto.
    + intros x g. rewrite call_dealer_clients, call_broker_clients. net_cbn. intros Hx.
      assert (x <> c) as Hne by (intros ->; rewrite lookup_delete in Hx; by destruct Hx).
      rewrite call_dealer_btr. unfold call_broker. net_cbn. rewrite E. net_cbn. unfold btr at 2. net_cbn.
      rewrite Ht. apply subs_quiet. cbn. destruct bo; try tauto. congruence.
  - cbn [nstep]. destruct (n_clients n !! c) as [cl|] eqn:Hc; [|done].
    assert (Herr : forall s', uinv (nset_clients (<[c := Client s' (cl_up cl) (cl_down cl) (cl_used cl)]> (n_clients n)) n)).
    { intros s'. apply (uinv_quiet n); [done| |done]. net_cbn. intros x cl'. destruct (decide (x = c)) as [->|Hne].
      - rewrite lookup_insert. intros [= <-]. eauto.
      - rewrite lookup_insert_ne by done. eauto. }
    destruct (sstep (cl_session cl) (SSend (Ok "") m)) as [s' [x|e|e]] eqn:E; [|apply Herr..]. clear Herr.
    destruct (nv_sync _ _ Hn _ _ Hc) as [s1 I1].
    assert (Hheld : forall u, m = MUnsubscribe u -> subs (btr n) c (us_subscription u) /\ us_subscription u ∉ unsub_ids (cl_up cl)).
    { intros u ->. specialize (Hco cl eq_refl). split.
      - apply (is_subs _ _ _ _ _ I1). eapply replay_keeps_sub; [apply (is_replay _ _ _ _ _ I1)| |done].
        unfold sstep, sop_prog in E. cbn [send_prog run_prog load write] in E. by case_bool_decide.
      - unfold unsub_ids. rewrite elem_of_list_omap. intros (a & Ha & Ea). destruct a as [| | | | | | | | | | | | | | | | | | | | | | |]; try discriminate.
        injection Ea as Ea. apply (Hco (us_request m)). rewrite <- Ea.
        eapply lookup_weaken; [by apply (is_unsubs _ _ _ _ _ I1)|]. eapply replay_unsubs, (is_replay _ _ _ _ _ I1). }
    set (used := match request_of m with Some r => _ | None => _ end).
    assert (Hcl : forall y cl', <[c := Client s' (cl_up cl ++ [m]) (cl_down cl) used]> (n_clients n) !! y = Some cl' ->
       (y = c /\ cl_up cl' = cl_up cl ++ [m]) \/ n_clients n !! y = Some cl').
    { intros y cl'. destruct (decide (y = c)) as [->|Hne].
      - rewrite lookup_insert. intros [= <-]. by left.
      - rewrite lookup_insert_ne by done. by right. }
    constructor; net_cbn.
    + intros y cl' u Hy Hr. destruct (Hcl _ _ Hy) as [[-> Eu]|Hy']; [|by eapply (ui_held _ U)].
      rewrite Eu, elem_of_app, elem_of_list_singleton in Hr. destruct Hr as [Hr|<-]; [by eapply (ui_held _ U)|by apply Hheld].
    + intros y cl' Hy. destruct (Hcl _ _ Hy) as [[-> Eu]|Hy']; [|by eapply (ui_once _ U)].
      rewrite Eu. unfold unsub_ids. rewrite omap_snoc. apply NoDup_app. split; [by eapply (ui_once _ U)|].
      destruct m; (split; [|first [apply NoDup_singleton|apply NoDup_nil; exact Logic.I]]); intros g Hg Hin; try (by apply elem_of_nil in Hin); try done.
      apply elem_of_list_singleton in Hin. subst g. by apply (proj2 (Hheld _ eq_refl)).
  - destruct (n_clients n !! c) as [cl|] eqn:Hc; [|by cbn [nstep]; rewrite Hc].
    destruct (cl_up cl) as [|m rest] eqn:Hu.
    { cbn [nstep]. rewrite Hc. destruct cl as [s0 up down used]. cbn in Hu. by subst up. }
    pose proof (route_lookup n o c cl m rest Hc Hu) as Hl.
    assert (Hb : btr (nstep n (NRoute o c)) = btr (handle o c m n)) by (by rewrite (route_step _ _ _ _ _ _ Hc Hu)).
    constructor.
    + intros y cl' u Hy Hr. destruct (Hl _ _ Hy) as (cl0 & Hcl & Eu). rewrite Hb.
      assert (Hold : subs (btr n) y (us_subscription u)).
      { eapply (ui_held _ U); [exact Hcl|]. rewrite Eu. apply elem_of_app. by right. }
      destruct (handle_btr n k o c m Hn Hk) as [->|(op & out & -> & Hop)]; [done|]. apply subs_quiet; [|done].
      destruct Hop as [->|[p ->]]; [|cbn; tauto]. destruct m; try (cbn; tauto). cbn [is_ended].
      destruct out as [| | |a to|]; try tauto. destruct a; try tauto. intros [-> E].
      pose proof (ui_once _ U _ _ Hcl) as Hnd. rewrite Eu, decide_True in Hnd by done.
      unfold unsub_ids in Hnd. cbn [app omap list_omap] in Hnd. apply NoDup_cons in Hnd as [Hnd _]. apply Hnd.
      apply elem_of_list_omap. exists (MUnsubscribe u). split; [done|]. by rewrite E.
    + intros y cl' Hy. destruct (Hl _ _ Hy) as (cl0 & Hcl & Eu). pose proof (ui_once _ U _ _ Hcl) as Hnd.
      rewrite Eu in Hnd. unfold unsub_ids in *. rewrite omap_app in Hnd. by apply NoDup_app in Hnd as (_ & _ & ?).
  - destruct (n_clients n !! c) as [cl|] eqn:Hc; [|by cbn [nstep]; rewrite Hc].
    cbn [nstep]. rewrite Hc. destruct cl as [s up [|m down] used]; [done|]. destruct (sstep _ _) as [s' r].
    assert (U1 : uinv (nset_clients (<[c := Client s' up down used]> (n_clients n)) n)).
    { apply (uinv_quiet n); [done| |done]. net_cbn. intros x cl'. destruct (decide (x = c)) as [->|Hne].
      - rewrite lookup_insert. intros [= <-]. right. by eexists.
      - rewrite lookup_insert_ne by done. eauto. }
    destruct r; [done| |]; (apply (uinv_quiet _ _ U1); [|done]); intros x cl' Hx; right; eauto.
  - cbn [nstep]. destruct (broker_call _ _ _ _ _ any_oracle (BDisclose p) (nv_b _ _ Hn) Hk)
      as (b' & bo & s & s' & E & Hr & Ht & _).
    apply (uinv_quiet n); [done| |].
    + intros x cl'. rewrite call_dealer_clients, call_broker_clients. eauto.
    + intros x g _. rewrite call_dealer_btr. unfold call_broker. rewrite E. net_cbn. unfold btr at 2. net_cbn.
      rewrite Ht. apply subs_quiet. destruct bo; tauto.
Qed.
Lemma uinv_empty : uinv empty_net.
Proof. constructor; cbn; intros c cl; by rewrite lookup_empty. Qed.

Lemma considerate_careful es : forall n, considerately n es -> carefully n es.
Proof. induction es as [|e es IH]; intros n; [done|]. intros [[H _] H']. split; [done|by apply IH]. Qed.
Lemma considerate_timely es : N.of_nat (length es) <= two53 -> considerately empty_net es ->
  follows empty_net es /\ all_timely empty_net es.
Proof.
  intros Hl H. split; [apply careful_follows; [done|by apply considerate_careful]|].
  assert (K : forall es n k, ginv n k -> linv n -> uinv n -> N.of_nat (k + length es) <= two53 -> considerately n es -> all_timely n es).
  { clear. induction es as [|e es IH]; intros n k Hn L U Hk H; [done|]. destruct H as [H1 H2]. cbn [length] in Hk.
    assert (Hr : rules n e) by (eapply linv_rules; [apply Hn|done|apply H1]). split; [by apply uinv_timely|].
    eapply (IH _ (S k)); [apply ginv_step; [done|lia|done]|eapply linv_step; [apply Hn|lia|done|apply H1]
      |eapply uinv_step; [apply Hn|lia|done|done|done]|lia|done]. }
  eapply (K es empty_net 0%nat); [apply ginv_empty|apply linv_empty|apply uinv_empty|cbn; lia|done].
Qed.

(** ** At rest, everything is answered *)

Lemma moves_considerate es : forall n, all_moves n es -> considerately n es.
Proof.
  induction es as [|e es IH]; intros n; [done|]. intros [H H']. split; [|by apply IH]. by destruct e.
Qed.
Lemma considerately_app es1 : forall n es2, considerately n (es1 ++ es2) <-> considerately n es1 /\ considerately (nrun n es1) es2.
Proof. induction es1 as [|e es1 IH]; intros n es2; cbn [app considerately nrun]; [tauto|]. rewrite IH. tauto. Qed.
Lemma requests_made_app c es1 : forall n es2,
  requests_made c n (es1 ++ es2) = requests_made c n es1 ++ requests_made c (nrun n es1) es2.
Proof. induction es1 as [|e es1 IH]; intros n es2; cbn [app nrun requests_made]; [done|]. by rewrite IH, app_assoc. Qed.
Lemma moves_no_requests c es : forall n, all_moves n es -> requests_made c n es = [].
Proof.
  induction es as [|e es IH]; intros n; [done|]. intros [H H']. cbn [requests_made]. rewrite (IH _ H'). by destruct e.
Qed.
Lemma all_answered es : considerately empty_net es ->
  exists es', all_moves (nrun empty_net es) es' /\ at_rest (nrun empty_net (es ++ es')) /\
    (N.of_nat (length (es ++ es')) <= two53 ->
     forall c, is_Some (n_clients (nrun empty_net (es ++ es')) !! c) ->
     flat_map replies (delivered c empty_net (es ++ es')) = requests_made c empty_net es).
Proof.
  intros H. destruct (comes_to_rest (nrun empty_net es)) as (es' & H1 & H2). exists es'. split; [done|].
  rewrite nrun_app. split; [done|]. intros Hl c [cl Hc].
  assert (H' : considerately empty_net (es ++ es')).
  { apply considerately_app. split; [done|by apply moves_considerate]. }
  destruct (considerate_timely _ Hl H') as [Hf Ht]. rewrite <- nrun_app in Hc, H2.
  pose proof (answers_in_order _ _ _ Hl Hf Ht Hc) as [E _]. destruct (H2 _ _ Hc) as [E1 E2].
  rewrite E1, E2 in E. cbn in E. rewrite app_nil_r in E. rewrite <- E, requests_made_app, (moves_no_requests c es'), app_nil_r; done.
Qed.
