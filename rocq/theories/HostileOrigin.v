(** Every message goes back to what somebody sent, whoever the clients are. *)
From Verif Require Import Prelude Value Msg IdGen Types PathMatch Mutex Broker Dealer Session Network.
From Verif Require Import BrokerSpec BrokerFacts BrokerSim BrokerTrace BrokerProofs.
From Verif Require Import DealerSpec DealerFacts DealerCases DealerCalls DealerSim DealerStep DealerProofs DealerPolite DealerShare DealerFinal.
From Verif Require Import NetworkSpec NetworkClient NetworkSync NetworkProofs NetworkCalls NetworkOrigin.
From Verif Require Import Hostile HostileStep HostileFinal HostileOriginSpec.

(** ** The dealer's history grows *)

Definition later (n n' : net) : Prop := exists t, dtr n' = t ++ dtr n.
Lemma later_same n n' : dtr n' = dtr n -> later n n'.
Proof. intros H. by exists []. Qed.
Lemma later_trans a b c : later a b -> later b c -> later a c.
Proof. intros [x Hx] [y Hy]. exists (y ++ x). by rewrite Hy, Hx, app_assoc. Qed.
Lemma dealt_later n n' t s m a c : later n n' -> dealt n t s m a c -> dealt n' t s m a c.
Proof. intros [x Hx] [y Hy]. exists (x ++ y). by rewrite Hx, Hy, app_assoc. Qed.
Lemma traced_later n n' es c a : later n n' -> traced n es c a -> traced n' es c a.
Proof.
  intros L. destruct a; cbn [traced]; try done.
  - intros [H|[H|(call & s & y & t & H1 & H2 & H3 & H)]]; [by left|by right; left|].
    right; right. exists call, s, y, t. split; [done|]. split; [done|]. split; [by eapply dealt_later|done].
  - intros (call & s & y & d & t & H1 & H2 & H3 & H). exists call, s, y, d, t.
    split; [done|]. split; [done|]. split; [by eapply dealt_later|done].
  - intros (s & call & d & who & t & H1 & H2 & H). exists s, call, d, who, t.
    split; [done|]. split; [by eapply dealt_later|done].
Qed.

Section Origin.
(** All that happens in the run. *)
Context (E : list hevent).

Record pinv (n : net) (kb kd : nat) : Prop := PInv {
  pi_b : brun new_broker (n_bh n) = Ret (n_broker n) (n_bouts n);
  pi_blen : (length (n_bh n) <= kb)%nat;
  pi_d : drun new_dealer (n_dh n) = Ret (n_dealer n) (n_douts n);
  pi_dlen : (length (n_dh n) <= kd)%nat;
  pi_badd : forall c d, BrokerSpec.added (btr n) c d -> joined E c d;
  pi_dadd : forall c d, present_as (dtr n) c d -> joined E c d;
  pi_ops : forall c m out, (DReceive c m, out) ∈ dtr n -> said E c m;
  pi_up : forall c cl m, n_clients n !! c = Some cl -> m ∈ cl_up cl -> said E c m;
  pi_down : forall c cl a, n_clients n !! c = Some cl -> a ∈ cl_down cl -> traced n E c a }.

Lemma pinv_empty : pinv empty_net 0 0.
Proof.
  constructor; cbn; try done; try lia; intros c ? ? H; first [by apply elem_of_nil in H|by rewrite lookup_empty in H].
Qed.

Lemma pinv_more n kb kd kb' kd' : pinv n kb kd -> (kb <= kb')%nat -> (kd <= kd')%nat -> pinv n kb' kd'.
Proof. intros []. constructor; auto; lia. Qed.

(** ** The parts of an event *)

Lemma pinv_broker n kb kd o op : pinv n kb kd -> N.of_nat kb < two53 ->
  match op with BAdd d => HNet (NJoin d) ∈ E | _ => True end ->
  pinv (fst (call_broker o op n)) (S kb) kd /\ later n (fst (call_broker o op n))
  /\ forall out, snd (call_broker o op n) = Some out -> exists s s', BrokerTrace.tinv (btr n) s /\ tstep s op out s'.
Proof.
  intros [B BL D DL BA DA O U W] Hk Hop. unfold call_broker.
  destruct (reach (n_bh n) (n_broker n) (n_bouts n) ltac:(lia) B) as (s & _ & Rf & I & Hi).
  destruct (step_refines o _ s op Rf) as (b' & out & s' & Es & T & _ & _); [lia|]. rewrite Es. cbn [fst snd].
  assert (Ht : trace_of (n_bh n ++ [(o, op)]) (n_bouts n ++ [out]) = (op, out) :: trace_of (n_bh n) (n_bouts n)).
  { rewrite trace_of_app; [done|]. by eapply brun_length. }
  split; [|split; [by apply later_same|]].
  2:{ intros out' [= <-]. eauto. }
  constructor; net_cbn; try done.
  - rewrite brun_app, B. cbn [brun]. by rewrite Es.
  - rewrite app_length. cbn. lia.
  - intros c d. unfold btr. net_cbn. rewrite Ht. fold (btr n).
    destruct op as [d'|x|t|x|x m|x p]; cbn [BrokerSpec.added]; try apply BA.
    + destruct out; try apply BA. intros [[<- <-]|[_ H]]; [by split|by apply BA].
    + destruct out; try apply BA. intros [_ H]. by apply BA.
Qed.

Lemma added_present n kb kd c s : pinv n kb kd -> N.of_nat kb < two53 -> BrokerTrace.tinv (btr n) s ->
  forall d, tb_sessions s !! c = Some d -> joined E c d.
Proof. intros P Hk I d H. apply (pi_badd _ _ _ P), (ti_added _ _ I), H. Qed.

Lemma traced_dealer n kb kd o c m d' a to : pinv n kb kd -> N.of_nat kd < two53 -> said E c m ->
  dstep o (n_dealer n) (DReceive c m) = Ret d' (DMsg a to) ->
  forall n', (exists after, dtr n' = after ++ (DReceive c m, DMsg a to) :: dtr n) -> traced n' E to a.
Proof.
  intros P Hk Hs Es n' Hn'.
  assert (L1 : N.of_nat (length (n_dh n)) < two53) by (pose proof (pi_dlen _ _ _ P); lia).
  assert (L2 : N.of_nat (length (n_dh n)) <= two53) by lia.
  pose proof (pi_d _ _ _ P) as R.
  destruct m; try (cbn in Es; discriminate Es).
  - (* ERROR *)
    destruct (error_answer _ _ _ _ _ _ _ _ L2 R Es) as [(_ & (e & ?) & _)|(x & r & rp & T & Ho & Ea)]; [done|].
    injection Ea as -> ->. destruct (open_called _ _ _ _ _ Ho) as (call & out & Hin & <- & <- & _).
    cbn [traced]. right; right. exists call, c, m, (dtr n). split; [by eapply (pi_ops _ _ _ P)|]. done.
  - (* CALL *)
    destruct (call_answer _ _ _ _ _ _ _ _ L1 R Es) as [[Ea _]|[[e Ea]|(i & g & cl & s & who & Ea & Hp & Hw & Hi)]]; [|done|].
    + injection Ea as -> ->. cbn [traced refusal]. left. by exists m.
    + injection Ea as -> ->. cbn [traced]. exists c, m, s, who, (dtr n). split; [done|]. split; [done|].
      split; [by apply (pi_dadd _ _ _ P)|]. split.
      * destruct (disclosing_caller _); [|by left]. destruct Hw as (w & -> & Hw). right. exists w. split; [done|].
        by apply (pi_dadd _ _ _ P).
      * unfold invocation_for. by destruct (_ && _).
  - (* REGISTER *)
    destruct (register_cases _ _ _ _ _ Es) as [(_ & _ & e & ?)|(mine & _ & [(l & g & _ & _ & _ & _ & Ea)|[(l & g & _ & _ & _ & _ & _ & _ & Ea)|(_ & _ & Ea)]])];
      [done|..]; injection Ea as -> ->; cbn [traced refusal]; [right; left|..]; by exists m.
  - (* UNREGISTER *)
    destruct (unregister_cases _ _ _ _ _ Es) as [(_ & _ & e & ?)|(mine & l & g & _ & _ & _ & _ & Ea)]; [done|].
    injection Ea as -> ->. cbn [traced]. by exists m.
  - (* YIELD *)
    destruct (yield_answer _ _ _ _ _ _ _ _ L2 R Es) as
      [(_ & (e & ?) & _)|(x & r & rp & Ho & [(_ & e & ?)|(s & Hp & Ea)])]; try done.
    injection Ea as -> ->. destruct (open_called _ _ _ _ _ Ho) as (call & out & Hin & <- & <- & _).
    cbn [traced]. exists call, c, m, s, (dtr n). split; [by eapply (pi_ops _ _ _ P)|]. split; [done|]. split; [done|].
    split; [done|]. split; [by apply (pi_dadd _ _ _ P)|done].
Qed.

Lemma pinv_dealer n kb kd o op : pinv n kb kd -> N.of_nat kd < two53 ->
  match op with DAdd d => HNet (NJoin d) ∈ E | DReceive c m => said E c m | _ => True end ->
  pinv (fst (call_dealer o op n)) kb (S kd) /\ later n (fst (call_dealer o op n))
  /\ forall c m a to, op = DReceive c m -> snd (call_dealer o op n) = Some (DMsg a to) ->
       traced (fst (call_dealer o op n)) E to a.
Proof.
  intros P Hk Hop. pose proof P as [B BL D DL BA DA O U W]. unfold call_dealer.
  destruct (dstep o (n_dealer n) op) as [d' out|w] eqn:Es; cbn [fst snd].
  2:{ split; [constructor; net_cbn; try done; lia|]. split; [by apply later_same|done]. }
  assert (Ht : dtrace_of (n_dh n ++ [(o, op)]) (n_douts n ++ [out]) = (op, out) :: dtrace_of (n_dh n) (n_douts n)).
  { apply dtrace_snoc. by eapply drun_length. }
  set (n1 := Net _ _ _ _ _ _ _ _ _ _).
  assert (H1 : dtr n1 = (op, out) :: dtr n) by exact Ht.
  assert (L : later n n1) by (exists [(op, out)]; by rewrite H1).
  split; [|split; [exact L|]].
  2:{ intros c m a to -> [= ->]. eapply traced_dealer; [exact P|done|exact Hop|exact Es|]. exists []. by rewrite H1. }
  constructor; try done.
  - subst n1. net_cbn. by eapply drun_snoc.
  - subst n1. net_cbn. rewrite app_length. cbn. lia.
  - intros c d. rewrite H1. intros Hp. apply present_as_quiet in Hp as [(s & [= -> ->] & <- & ->)|Hp]; [by split|by apply DA].
  - intros c m out'. rewrite H1. intros [[= <- <-]|Hx]%elem_of_cons; [done|by eapply O].
  - intros c cl a Hc Ha. eapply traced_later; [exact L|]. by eapply W.
Qed.

Lemma pinv_post n kb kd m to : pinv n kb kd -> traced n E to m -> pinv (post n m to) kb kd /\ later n (post n m to).
Proof.
  intros P Hm. split; [|apply later_same, post_dtr]. unfold post. destruct (n_clients n !! to) as [cl|] eqn:Hc; [|done].
  destruct P as [B BL D DL BA DA O U W]. constructor; net_cbn; try done.
  - intros c cl' a. destruct (decide (c = to)) as [->|Hne].
    + rewrite lookup_insert. intros [= <-]. cbn [cl_post cl_up]. by eapply U.
    + rewrite lookup_insert_ne by done. apply U.
  - intros c cl' a. change (traced _ E c a) with (traced n E c a). destruct (decide (c = to)) as [->|Hne].
    + rewrite lookup_insert. intros [= <-]. cbn [cl_post cl_down]. intros [Ha| ->%elem_of_list_singleton]%elem_of_app; [by eapply W|done].
    + rewrite lookup_insert_ne by done. apply W.
Qed.
Lemma pinv_post_all m tos kb kd : forall n, pinv n kb kd -> (forall to, traced n E to m) ->
  pinv (post_all n m tos) kb kd /\ later n (post_all n m tos).
Proof.
  induction tos as [|to tos IH]; intros n P Hm; [split; [done|by apply later_same]|]. cbn [post_all].
  destruct (pinv_post _ _ _ _ to P (Hm to)) as [P1 L1]. destruct (IH _ P1) as [P2 L2].
  { intros x. eapply traced_later; [exact L1|]. apply Hm. }
  split; [done|]. by eapply later_trans.
Qed.

Lemma pinv_handle n kb kd o c m : pinv n kb kd -> N.of_nat kb < two53 -> N.of_nat kd < two53 -> said E c m ->
  pinv (handle o c m n) (S kb) (S kd) /\ later n (handle o c m n).
Proof.
  intros P Hb Hd Hs.
  assert (More : pinv n (S kb) (S kd)) by (eapply pinv_more; [exact P|lia|lia]).
  assert (Same : pinv n (S kb) (S kd) /\ later n n) by (split; [done|by apply later_same]).
  assert (Dealer : pinv (match call_dealer o (DReceive c m) n with (n, Some (DMsg a to)) => post n a to | (n, _) => n end) (S kb) (S kd)
    /\ later n (match call_dealer o (DReceive c m) n with (n, Some (DMsg a to)) => post n a to | (n, _) => n end)).
  { destruct (pinv_dealer n kb kd o (DReceive c m) P Hd Hs) as (P1 & L1 & T1).
    destruct (call_dealer o (DReceive c m) n) as [n1 out]. cbn [fst snd] in *.
    assert (P1' : pinv n1 (S kb) (S kd)) by (eapply pinv_more; [exact P1|lia|lia]).
    destruct out as [[e| |b|a to]|]; try done.
    destruct (pinv_post _ _ _ a to P1') as [P2 L2]; [by eapply T1|]. split; [done|by eapply later_trans]. }
  assert (Brok : forall op, match op with BAdd d => False | _ => True end ->
    pinv (fst (call_broker o op n)) (S kb) (S kd) /\ later n (fst (call_broker o op n))
    /\ forall out, snd (call_broker o op n) = Some out -> exists s s', BrokerTrace.tinv (btr n) s /\ tstep s op out s').
  { intros op Hop. destruct (pinv_broker n kb kd o op P Hb) as (P1 & L1 & T1); [by destruct op|].
    split; [|done]. eapply pinv_more; [exact P1|lia|lia]. }
  assert (Receive : match m with MSubscribe _ | MUnsubscribe _ => True | _ => False end ->
    pinv (match call_broker o (BReceive c m) n with (n, Some (BMsg a to)) => post n a to | (n, _) => n end) (S kb) (S kd)
    /\ later n (match call_broker o (BReceive c m) n with (n, Some (BMsg a to)) => post n a to | (n, _) => n end)).
  { intros Hm. destruct (Brok (BReceive c m) Logic.I) as (P1 & L1 & T1).
    destruct (call_broker o (BReceive c m) n) as [n1 out]. cbn [fst snd] in *.
    destruct out as [[e| |b|a to|x y z]|]; try done.
    destruct (T1 _ eq_refl) as (s & s' & _ & T).
    destruct (pinv_post _ _ _ a to P1) as [P2 L2]; [|split; [done|by eapply later_trans]].
    inversion T; subst; cbn [traced]; eauto. }
  destruct m; cbn [handle]; try exact Same; try exact Dealer; try (by apply Receive).
  clear Receive Dealer. destruct (Brok (BPublish c m) Logic.I) as (P1 & L1 & T1).
  destruct (call_broker o (BPublish c m) n) as [n1 out]. cbn [fst snd] in *.
  destruct out as [[e| |b|a to|ev rs ack]|]; try done.
  destruct (T1 _ eq_refl) as (s & s' & I & T).
  assert (Hack : forall id a to, ack_of m c id = Some (a, to) -> forall n', traced n' E to a).
  { intros id a to. unfold ack_of. destruct (mget (pu_options m) "acknowledge") as [|[]| | | | | | | | |] eqn:Ea; try done.
    intros [= <- <-] n'. cbn [traced]. exists m. split; [done|]. split; [done|]. unfold says. by rewrite Ea. }
  assert (H2 : pinv (match ev with Some e => post_all n1 (MEvent e) rs | None => n1 end) (S kb) (S kd)
               /\ later n (match ev with Some e => post_all n1 (MEvent e) rs | None => n1 end)).
  { destruct ev as [e|]; [|done]. destruct (pinv_post_all (MEvent e) rs _ _ n1 P1) as [P2 L2]; [|split; [done|by eapply later_trans]].
    intros to. inversion T as [| | | | | | | | | | | |sid p pub t r rs' Hp Hsv Hnd Hrs]; subst. cbn [traced ev_subscription ev_publication].
    exists c, m, pub, (tb_disclose s). split; [done|]. split; [|done].
    exact (added_present _ _ _ _ _ P Hb I _ Hp). }
  destruct H2 as [P2 L2]. destruct ack as [[a to]|]; [|done].
  destruct (pinv_post _ _ _ a to P2) as [P3 L3]; [|split; [done|by eapply later_trans]].
  inversion T; subst; by eapply Hack.
Qed.

(** Other clients. *)
Lemma pinv_clients n kb kd cls : pinv n kb kd ->
  (forall c cl', cls !! c = Some cl' -> (cl_up cl' = [] /\ cl_down cl' = [])
     \/ exists cl, n_clients n !! c = Some cl /\ (forall m, m ∈ cl_up cl' -> m ∈ cl_up cl \/ said E c m)
                   /\ (forall a, a ∈ cl_down cl' -> a ∈ cl_down cl)) ->
  pinv (nset_clients cls n) kb kd.
Proof.
  intros [B BL D DL BA DA O U W] Hc. constructor; net_cbn; try done.
  - intros c cl m Hx Hm. destruct (Hc _ _ Hx) as [[Eu _]|(cl0 & Hx' & Hu & _)]; [rewrite Eu in Hm; by apply elem_of_nil in Hm|].
    destruct (Hu _ Hm) as [Hm'|Hm']; [by eapply U|done].
  - intros c cl a Hx Ha. change (traced _ E c a) with (traced n E c a).
    destruct (Hc _ _ Hx) as [[_ Ed]|(cl0 & Hx' & _ & Hd)]; [rewrite Ed in Ha; by apply elem_of_nil in Ha|]. by eapply W, Hd.
Qed.
Lemma pinv_ever n kb kd l : pinv n kb kd -> pinv (nset_ever l n) kb kd.
Proof. intros []. by constructor. Qed.
Lemma pinv_rejected n kb kd l : pinv n kb kd -> pinv (nset_rejected l n) kb kd.
Proof. intros []. by constructor. Qed.

(** ** A whole event *)
Lemma pinv_step n k e : pinv n k k -> N.of_nat k < two53 -> e ∈ E ->
  pinv (hstep n e) (S k) (S k) /\ later n (hstep n e) /\ forall c a, a ∈ hreads c n e -> traced (hstep n e) E c a.
Proof.
  intros P Hk He.
  assert (Same : pinv n (S k) (S k)) by (eapply pinv_more; [exact P|lia|lia]).
  assert (L0 : later n n) by (by apply later_same).
  destruct e as [e|o c m].
  2:{ cbn [hstep hreads]. destruct (n_clients n !! c); [|split; [done|split; [done|by intros ? ? ?%elem_of_nil]]].
      destruct (pinv_handle n k k o c m P Hk Hk) as [P1 L1]; [right; by exists o|].
      split; [done|]. split; [done|by intros ? ? ?%elem_of_nil]. }
  cbn [hstep hreads].
  assert (Two : forall n1 o op op', pinv n1 k k ->
    match op with BAdd d => HNet (NJoin d) ∈ E | _ => True end ->
    match op' with DAdd d => HNet (NJoin d) ∈ E | DReceive c m => said E c m | _ => True end ->
    pinv (fst (call_dealer o op' (fst (call_broker o op n1)))) (S k) (S k)
    /\ later n1 (fst (call_dealer o op' (fst (call_broker o op n1))))).
  { intros n1 o op op' P1 H1 H2. destruct (pinv_broker n1 k k o op P1 Hk H1) as (P2 & L2 & _).
    destruct (pinv_dealer _ (S k) k o op' P2 Hk H2) as (P3 & L3 & _). split; [done|by eapply later_trans]. }
  destruct e as [d|o c|c m|o c|c|p c]; cbn [nstep delivers].
  - set (n1 := nset_clients _ _). destruct (Two n1 any_oracle (BAdd d) (DAdd d)) as [P1 L1]; [|done|done|].
    { subst n1. apply pinv_clients; [by apply pinv_ever|].
      intros c cl'. destruct (decide (c = se_id d)) as [->|Hne].
      - rewrite lookup_insert. intros [= <-]. by left.
      - rewrite lookup_insert_ne by done. intros Hx. right. exists cl'. auto. }
    split; [exact P1|]. split; [|by intros ? ? ?%elem_of_nil]. exact L1.
  - set (n1 := nset_clients _ _). destruct (Two n1 o (BRemove c) (DRemove c)) as [P1 L1]; [|done|done|].
    { subst n1. apply pinv_clients; [done|]. intros x cl'. destruct (decide (x = c)) as [->|Hne]; [by rewrite lookup_delete|].
      rewrite lookup_delete_ne by done. intros Hx. right. exists cl'. auto. }
    split; [exact P1|]. split; [|by intros ? ? ?%elem_of_nil]. exact L1.
  - destruct (n_clients n !! c) as [cl|] eqn:Hc; [|split; [done|split; [done|by intros ? ? ?%elem_of_nil]]].
    destruct (sstep (cl_session cl) (SSend (Ok "") m)) as [s r].
    split; [|split; [destruct r; by apply later_same|by intros ? ? ?%elem_of_nil]].
    destruct r as [x|x|x]; apply pinv_clients; try done; intros y cl'; (destruct (decide (y = c)) as [->|Hne];
      [rewrite lookup_insert; intros [= <-]; right; exists cl; split; [done|]; split; [|done]; cbn [cl_up]
      |rewrite lookup_insert_ne by done; intros Hx; right; exists cl'; auto]); try (intros a Ha; by left).
    intros a [Ha| ->%elem_of_list_singleton]%elem_of_app; [by left|]. right. by left.
  - destruct (n_clients n !! c) as [[s0 [|m rest] down used]|] eqn:Hc;
      [split; [done|split; [done|by intros ? ? ?%elem_of_nil]]| |split; [done|split; [done|by intros ? ? ?%elem_of_nil]]].
    destruct (pinv_handle n k k o c m P Hk Hk) as [P1 L1]; [eapply (pi_up _ _ _ P); [exact Hc|by left]|].
    set (n1 := handle o c m n) in *. destruct (n_clients n1 !! c) as [cl1|] eqn:H1; [|split; [done|split; [done|by intros ? ? ?%elem_of_nil]]].
    split; [|split; [exact L1|by intros ? ? ?%elem_of_nil]].
    apply pinv_clients; [done|]. intros y cl'. destruct (decide (y = c)) as [->|Hne].
    + rewrite lookup_insert. intros [= <-]. right. exists cl1. split; [done|]. cbn [cl_up cl_down]. split; [|done].
      intros a Ha. left. destruct (cl_up cl1); [done|by right].
    + rewrite lookup_insert_ne by done. intros Hx. right. exists cl'. auto.
  - destruct (n_clients n !! c) as [[s up [|m down] used]|] eqn:Hc.
    + split; [done|]. split; [done|]. intros x a. destruct (c =? x); by intros ?%elem_of_nil.
    + assert (R : forall x a, a ∈ (if c =? x then [m] else []) -> traced n E x a).
      { intros x a. destruct (N.eqb_spec c x) as [<-|]; [|by intros ?%elem_of_nil]. intros ->%elem_of_list_singleton.
        eapply (pi_down _ _ _ P); [exact Hc|by left]. }
      destruct (sstep s (SReceiveMessage m)) as [s' r].
      assert (P1 : pinv (nset_clients (<[c := Client s' up down used]> (n_clients n)) n) (S k) (S k)).
      { apply pinv_clients; [done|]. intros y cl'. destruct (decide (y = c)) as [->|Hne].
        - rewrite lookup_insert. intros [= <-]. right. eexists. split; [exact Hc|]. cbn. split; [by left|]. by right.
        - rewrite lookup_insert_ne by done. intros Hx. right. exists cl'. auto. }
      destruct r as [?|?|?]; (split; [try apply pinv_rejected; exact P1|]; split; [by apply later_same|]);
        intros y b Hb; exact (R y b Hb).
    + split; [done|]. split; [done|]. intros x a. destruct (c =? x); by intros ?%elem_of_nil.
  - destruct (Two n any_oracle (BDisclose p) (DDisclose c) P Logic.I Logic.I) as [P1 L1].
    split; [exact P1|]. split; [exact L1|by intros ? ? ?%elem_of_nil].
Qed.

Lemma pinv_run es : forall n k, pinv n k k -> N.of_nat (k + length es) <= two53 -> (forall e, e ∈ es -> e ∈ E) ->
  exists k', pinv (hrun n es) k' k' /\ later n (hrun n es) /\ forall c a, a ∈ hread c n es -> traced (hrun n es) E c a.
Proof.
  induction es as [|e es IH]; intros n k P Hk He.
  - exists k. split; [done|]. split; [by apply later_same|by intros ? ? ?%elem_of_nil].
  - cbn [length] in Hk. cbn [hrun hread]. destruct (pinv_step n k e P ltac:(lia)) as (P1 & L1 & R1); [apply He; by left|].
    destruct (IH _ _ P1) as (k' & P2 & L2 & R2); [lia|intros x Hx; apply He; by right|].
    exists k'. split; [done|]. split; [by eapply later_trans|].
    intros c a [Ha|Ha]%elem_of_app; [eapply traced_later; [exact L2|]; by apply R1|by apply R2].
Qed.
End Origin.

Lemma all_traced es c a : N.of_nat (length es) <= two53 -> a ∈ hread c empty_net es ->
  traced (hrun empty_net es) es c a.
Proof.
  intros Hk Ha. destruct (pinv_run es es empty_net 0 (pinv_empty es) Hk) as (k & _ & _ & R); [done|]. by apply R.
Qed.
Lemma all_traced_down es c cl a : N.of_nat (length es) <= two53 -> n_clients (hrun empty_net es) !! c = Some cl ->
  a ∈ cl_down cl -> traced (hrun empty_net es) es c a.
Proof.
  intros Hk Hc Ha. destruct (pinv_run es es empty_net 0 (pinv_empty es) Hk) as (k & P & _ & _); [done|]. by eapply (pi_down _ _ _ _ P).
Qed.

(** Clients that use their Session did not send what others forge. *)
Lemma said_honest honest es c m : decently honest empty_net es -> honest c -> said es c m -> HNet (NSend c m) ∈ es.
Proof.
  generalize empty_net. intros n Hd Hh [H|[o H]]; [done|]. exfalso. revert n Hd.
  induction es as [|e es IH]; [by apply elem_of_nil in H|]. intros n [D1 D2].
  apply elem_of_cons in H as [<-|H]; [by apply D1|by eapply IH].
Qed.

(** ** Who a message says it is from *)
Lemma publisher_said honest es c e s : N.of_nat (length es) <= two53 -> decently honest empty_net es -> honest s ->
  MEvent e ∈ hread c empty_net es -> mget (ev_details e) "publisher" = VInt KUint64 (Z.of_N s) ->
  exists p d, HNet (NSend s (MPublish p)) ∈ es /\ HNet (NJoin d) ∈ es /\ se_id d = s
    /\ mget (ev_details e) "publisher_authid" = VStr (se_authid d)
    /\ mget (ev_details e) "publisher_authrole" = VStr (se_authrole d)
    /\ mget (ev_details e) "topic" = VStr (pu_topic p) /\ ev_args e = pu_args p /\ ev_kwargs e = pu_kwargs p.
Proof.
  intros Hk Hd Hh He Hp. destruct (all_traced _ _ _ Hk He) as (s' & p & d & disclose & Hs & [Hj Hi] & E).
  rewrite E in Hp |- *. cbn [ev_details ev_args ev_kwargs] in *. destruct disclose; [|done]. cbn in Hp.
  injection Hp as Hp. apply N2Z.inj in Hp. subst s'. exists p, d. split; [by eapply said_honest|]. done.
Qed.

Lemma caller_said honest es c v s : N.of_nat (length es) <= two53 -> decently honest empty_net es -> honest s ->
  MInvocation v ∈ hread c empty_net es -> mget (in_details v) "caller" = VInt KUint64 (Z.of_N s) ->
  exists call d to, HNet (NSend s (MCall call)) ∈ es /\ HNet (NJoin d) ∈ es /\ se_id d = s
    /\ HNet (NJoin to) ∈ es /\ se_id to = c
    /\ mget (in_details v) "procedure" = VStr (ca_procedure call)
    /\ mget (in_details v) "caller_authid" = VStr (se_authid d)
    /\ mget (in_details v) "caller_authrole" = VStr (se_authrole d)
    /\ (if bp_binary (ca_bin call) && se_static to then bp_payload (in_bin v) = bp_payload (ca_bin call)
        else in_args v = ca_args call /\ in_kwargs v = ca_kwargs call).
Proof.
  intros Hk Hd Hh He Hp. destruct (all_traced _ _ _ Hk He) as (s' & call & to & who & t & Hs & _ & [Ht Hti] & Hw & E).
  assert (D : forall k, mget (in_details v) k = match assoc k (invocation_details call s' who) with Some x => x
            | None => if bp_binary (ca_bin call) && se_static to then
                        (if String.eqb k "x_payload_serializer" then VInt KUint64 (Z.of_N (bp_serializer (ca_bin call))) else VNil) else VNil end).
  { intros k. rewrite E. unfold invocation_for. destruct (_ && _); [|done]. cbn [in_details mget].
    generalize (invocation_details call s' who). intros l. clear. induction l as [|[k' x] l IH]; cbn [app assoc].
    - destruct (String.eqb k _); done.
    - destruct (String.eqb k k'); [done|exact IH]. }
  rewrite !D in *. clear D.
  assert (B : if bp_binary (ca_bin call) && se_static to then bp_payload (in_bin v) = bp_payload (ca_bin call)
        else in_args v = ca_args call /\ in_kwargs v = ca_kwargs call).
  { rewrite E. unfold invocation_for. by destruct (_ && _). }
  destruct who as [w|].
  2:{ exfalso. revert Hp. unfold invocation_details. destruct (says _ "receive_progress"), (says _ "progress"), (bp_binary _ && _); done. }
  destruct Hw as [|(w' & [= <-] & [Hj Hi])]; [done|].
  assert (s' = s) as ->.
  { revert Hp. unfold invocation_details. destruct (says _ "receive_progress"), (says _ "progress"); cbn; intros [= Hp]; by apply N2Z.inj in Hp. }
  exists call, w, to. split; [by eapply said_honest|]. repeat (split; [done|]).
  unfold invocation_details. destruct (says _ "receive_progress"), (says _ "progress"); cbn; done.
Qed.
