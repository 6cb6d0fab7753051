(** Messages stay in order. *)
From Verif Require Import Prelude Value Msg IdGen Types PathMatch Mutex Broker Dealer Session Network.
From Verif Require Import BrokerSpec BrokerFacts BrokerSim BrokerTrace BrokerProofs.
From Verif Require Import DealerSpec DealerFacts DealerCases DealerCalls DealerSim DealerStep DealerProofs DealerPolite DealerShare DealerFinal.
From Verif Require Import NetworkSpec NetworkClient NetworkSync NetworkProofs NetworkCalls NetworkOrigin.
From Verif Require Import Hostile HostileStep HostileFinal HostileOriginSpec HostileOrigin HostileOrderSpec.

(** ** What the router's calls do to the clients *)

Definition got (n n' : net) (x : N) (extra : list message) : Prop :=
  forall cl', n_clients n' !! x = Some cl' -> exists cl, n_clients n !! x = Some cl
    /\ cl' = Client (cl_session cl) (cl_up cl) (cl_down cl ++ extra) (cl_used cl).
Lemma got_same n n' x : n_clients n' = n_clients n -> got n n' x [].
Proof. intros E cl' H. rewrite E in H. exists cl'. split; [done|]. rewrite app_nil_r. by destruct cl'. Qed.
Lemma got_trans a b c x e1 e2 : got a b x e1 -> got b c x e2 -> got a c x (e1 ++ e2).
Proof.
  intros H1 H2 cl' H. destruct (H2 _ H) as (cl1 & H' & ->). destruct (H1 _ H') as (cl & H'' & ->).
  exists cl. split; [done|]. cbn. by rewrite app_assoc.
Qed.
Lemma got_post n m to x : got n (post n m to) x (if to =? x then [m] else []).
Proof.
  unfold post. destruct (n_clients n !! to) as [cl|] eqn:Hc.
  - intros cl'. cbn. destruct (N.eqb_spec to x) as [<-|Hne].
    + rewrite lookup_insert. intros [= <-]. by exists cl.
    + rewrite lookup_insert_ne by done. intros H. exists cl'. rewrite app_nil_r. split; [done|by destruct cl'].
  - intros cl' H. destruct (N.eqb_spec to x) as [<-|Hne]; [congruence|]. exists cl'. rewrite app_nil_r. split; [done|by destruct cl'].
Qed.
Lemma got_post_all m x tos : forall n, NoDup tos -> got n (post_all n m tos) x (if bool_decide (x ∈ tos) then [m] else []).
Proof.
  induction tos as [|to tos IH]; intros n Hnd; [by apply got_same|]. apply NoDup_cons in Hnd as [Hx Hnd]. cbn [post_all].
  pose proof (got_trans _ _ _ _ _ _ (got_post n m to x) (IH (post n m to) Hnd)) as G.
  destruct (N.eqb_spec to x) as [->|Hne].
  - rewrite bool_decide_eq_false_2 in G by done. rewrite bool_decide_eq_true_2 by (by left). exact G.
  - cbn [app] in G. rewrite (bool_decide_ext (x ∈ to :: tos) (x ∈ tos)); [exact G|]. rewrite elem_of_cons. naive_solver.
Qed.

Lemma post_rest n m to : btr (post n m to) = btr n /\ dtr (post n m to) = dtr n /\ n_crashed (post n m to) = n_crashed n.
Proof. unfold post. by destruct (n_clients n !! to). Qed.
Lemma post_all_rest m tos : forall n, btr (post_all n m tos) = btr n /\ dtr (post_all n m tos) = dtr n
  /\ n_crashed (post_all n m tos) = n_crashed n.
Proof.
  induction tos as [|to tos IH]; intros n; [done|]. cbn [post_all]. destruct (IH (post n m to)) as (-> & -> & ->). apply post_rest.
Qed.

Definition op_of (c : N) (m : message) : bop := match m with MPublish p => BPublish c p | _ => BReceive c m end.

Section Order.
Context (E : list hevent).

Lemma broker_step n kb kd o op : pinv E n kb kd -> N.of_nat kb < two53 ->
  exists b' out s s', call_broker o op n =
      (Net (n_clients n) b' (n_dealer n) (n_rejected n) (n_crashed n) (n_ever n)
         (n_bh n ++ [(o, op)]) (n_bouts n ++ [out]) (n_dh n) (n_douts n), Some out)
    /\ trace_of (n_bh n ++ [(o, op)]) (n_bouts n ++ [out]) = (op, out) :: btr n
    /\ BrokerTrace.tinv (btr n) s /\ tstep s op out s'.
Proof.
  intros [B BL D DL BA DA O U W] Hk. unfold call_broker.
  destruct (reach (n_bh n) (n_broker n) (n_bouts n) ltac:(lia) B) as (s & _ & Rf & I & Hi).
  destruct (step_refines o _ s op Rf) as (b' & out & s' & Es & T & _ & _); [lia|]. rewrite Es.
  exists b', out, s, s'. split; [done|]. split; [|done]. rewrite trace_of_app; [done|]. by eapply brun_length.
Qed.
Lemma dealer_step n kb kd o op : pinv E n kb kd ->
  (exists w, dstep o (n_dealer n) op = Crash w /\ call_dealer o op n = (nset_crashed (w :: n_crashed n) n, None))
  \/ exists d' out, dstep o (n_dealer n) op = Ret d' out /\ call_dealer o op n =
      (Net (n_clients n) (n_broker n) d' (n_rejected n) (n_crashed n) (n_ever n)
         (n_bh n) (n_bouts n) (n_dh n ++ [(o, op)]) (n_douts n ++ [out]), Some out)
    /\ dtrace_of (n_dh n ++ [(o, op)]) (n_douts n ++ [out]) = (op, out) :: dtr n.
Proof.
  intros [B BL D DL BA DA O U W]. unfold call_dealer. destruct (dstep o (n_dealer n) op) as [d' out|w]; [right|left; eauto].
  exists d', out. split; [done|]. split; [done|]. apply dtrace_snoc. by eapply drun_length.
Qed.

(** What the router gives for one message, and what it notes. *)
Inductive effect (o : oracle) (c : N) (m : message) (n n' : net) : Prop :=
| EBroker out s s' :
    for_broker m = true -> for_dealer m = false ->
    btr n' = (op_of c m, out) :: btr n -> dtr n' = dtr n -> n_crashed n' = n_crashed n ->
    BrokerTrace.tinv (btr n) s -> tstep s (op_of c m) out s' ->
    (forall x, got n n' x (b_out x (op_of c m, out))) -> effect o c m n n'
| EDealer d' out :
    for_broker m = false -> for_dealer m = true ->
    btr n' = btr n -> dtr n' = (DReceive c m, out) :: dtr n -> n_crashed n' = n_crashed n ->
    dstep o (n_dealer n) (DReceive c m) = Ret d' out ->
    (forall x, got n n' x (d_out x (DReceive c m, out))) -> effect o c m n n'
| ECrash :
    for_broker m = false -> for_dealer m = true ->
    btr n' = btr n -> dtr n' = dtr n -> n_crashed n' <> [] -> (forall x, got n n' x []) -> effect o c m n n'
| ENone : for_broker m = false -> for_dealer m = false -> n' = n -> effect o c m n n'.

Lemma handle_effect n kb kd o c m : pinv E n kb kd -> N.of_nat kb < two53 -> effect o c m n (handle o c m n).
Proof.
  intros P Hk.
  assert (D : for_broker m = false -> for_dealer m = true ->
    effect o c m n (match call_dealer o (DReceive c m) n with (n, Some (DMsg a to)) => post n a to | (n, _) => n end)).
  { intros H1 H2. destruct (dealer_step n kb kd o (DReceive c m) P) as [(w & _ & ->)|(d' & out & Es & -> & Ht)].
    - apply ECrash; try done. intros x. by apply got_same.
    - destruct out as [e| |b|a to]; try (eapply EDealer; [done|done|done|exact Ht|done|exact Es|]; intros x; by apply got_same).
      set (n1 := Net _ _ _ _ _ _ _ _ _ _). destruct (post_rest n1 a to) as (R1 & R2 & R3).
      eapply EDealer; [done|done|rewrite R1; done|rewrite R2; exact Ht|rewrite R3; done|exact Es|].
      intros x. apply (got_trans n n1 _ x [] _ ltac:(by apply got_same)). apply got_post. }
  assert (B : for_broker m = true -> for_dealer m = false -> op_of c m = BReceive c m ->
    effect o c m n (match call_broker o (BReceive c m) n with (n, Some (BMsg a to)) => post n a to | (n, _) => n end)).
  { intros H1 H2 H3. rewrite <- H3. destruct (broker_step n kb kd o (op_of c m) P Hk) as (b' & out & s & s' & -> & Ht & I & T).
    set (n1 := Net _ _ _ _ _ _ _ _ _ _).
    destruct out as [e| |b|a to|ev rs ack]; try (eapply (EBroker _ _ _ _ n1); [done|done|exact Ht|done|done|exact I|exact T|]; intros x; by apply got_same).
    - destruct (post_rest n1 a to) as (R1 & R2 & R3).
      eapply EBroker; [done|done|rewrite R1; exact Ht|rewrite R2; done|rewrite R3; done|exact I|exact T|].
      intros x. apply (got_trans n n1 _ x [] _ ltac:(by apply got_same)). apply got_post.
    - exfalso. rewrite H3 in T. inversion T. }
  destruct m; cbn [handle]; try (by apply ENone); try (by apply D); try (by apply B).
  clear D B. destruct (broker_step n kb kd o (BPublish c m) P Hk) as (b' & out & s & s' & -> & Ht & I & T).
  set (n1 := Net _ _ _ _ _ _ _ _ _ _).
  destruct out as [e| |b|a to|ev rs ack];
    try (eapply (EBroker _ _ _ _ n1); [done|done|exact Ht|done|done|exact I|exact T|]; intros x; by apply got_same);
    try (exfalso; by inversion T).
  assert (Hnd : forall e, ev = Some e -> NoDup rs) by (intros e ->; inversion T; by subst).
  set (n2 := match ev with Some e => post_all n1 (MEvent e) rs | None => n1 end).
  assert (R2 : btr n2 = btr n1 /\ dtr n2 = dtr n1 /\ n_crashed n2 = n_crashed n1).
  { subst n2. destruct ev; [apply post_all_rest|done]. }
  assert (G2 : forall x, got n n2 x (match ev with Some e => if bool_decide (x ∈ rs) then [MEvent e] else [] | None => [] end)).
  { intros x. subst n2. apply (got_trans n n1 _ x [] _ ltac:(by apply got_same)).
    destruct ev; [apply got_post_all; by eapply Hnd|by apply got_same]. }
  clearbody n2. destruct R2 as (R2 & R2' & R2'').
  assert (K : effect o c (MPublish m) n (match ack with Some (a, to) => post n2 a to | None => n2 end)).
  { assert (R3 : btr (match ack with Some (a, to) => post n2 a to | None => n2 end) = btr n1
      /\ dtr (match ack with Some (a, to) => post n2 a to | None => n2 end) = dtr n1
      /\ n_crashed (match ack with Some (a, to) => post n2 a to | None => n2 end) = n_crashed n1).
    { destruct ack as [[a to]|]; [|done]. destruct (post_rest n2 a to) as (-> & -> & ->). done. }
    destruct R3 as (R3 & R3' & R3'').
    eapply EBroker; [done|done|rewrite R3; exact Ht|rewrite R3'; done|rewrite R3''; done|exact I|exact T|].
    intros x. unfold b_out. cbn [snd]. eapply got_trans; [apply G2|]. destruct ack as [[a to]|]; [apply got_post|by apply got_same]. }
  exact K.
Qed.

(** ** The messages of broker and dealer *)

Lemma broker_outs s op out s' x a : tstep s op out s' -> a ∈ b_out x (op, out) -> from_broker a = true.
Proof.
  intros T. unfold b_out. cbn [snd]. inversion T; subst; try (by intros ?%elem_of_nil).
  1-3: destruct (_ =? x); [by intros ->%elem_of_list_singleton|by intros ?%elem_of_nil].
  - unfold ack_of. destruct (mget _ _) as [|[]| | | | | | | | |]; cbn [app]; try (by intros ?%elem_of_nil).
    destruct (_ =? x); [by intros ->%elem_of_list_singleton|by intros ?%elem_of_nil].
  - intros [H'|H']%elem_of_app; [case_bool_decide; [by apply elem_of_list_singleton in H' as ->|by apply elem_of_nil in H']|].
    unfold ack_of in H'. destruct (mget _ _) as [|[]| | | | | | | | |]; cbn [app]; try (by apply elem_of_nil in H').
    destruct (_ =? x); [by apply elem_of_list_singleton in H' as ->|by apply elem_of_nil in H'].
Qed.
Lemma dealer_outs n kb kd o c m d' out x a : pinv E n kb kd -> N.of_nat kd < two53 ->
  dstep o (n_dealer n) (DReceive c m) = Ret d' out -> a ∈ d_out x (DReceive c m, out) ->
  from_broker a = false /\ (x = c \/ (exists d, present_as (dtr n) x d) \/ exists call out', (DReceive x (MCall call), out') ∈ dtr n).
Proof.
  intros P Hk Es. unfold d_out. cbn [snd]. destruct out as [e| |b|a' to]; try (by intros ?%elem_of_nil).
  destruct (N.eqb_spec to x) as [->|]; [|by intros ?%elem_of_nil]. intros ->%elem_of_list_singleton.
  assert (L1 : N.of_nat (length (n_dh n)) < two53) by (pose proof (pi_dlen _ _ _ _ P); lia).
  assert (L2 : N.of_nat (length (n_dh n)) <= two53) by lia.
  pose proof (pi_d _ _ _ _ P) as R.
  destruct m; try (cbn in Es; discriminate Es).
  - destruct (error_answer _ _ _ _ _ _ _ _ L2 R Es) as [(_ & (e & ?) & _)|(y & r & rp & T & Ho & Ea)]; [done|].
    injection Ea as -> ->. destruct (open_called _ _ _ _ _ Ho) as (call & out & Hin & _). split; [done|]. right; right. eauto.
  - destruct (call_answer _ _ _ _ _ _ _ _ L1 R Es) as [[Ea _]|[[e Ea]|(i & g & cl & s & who & Ea & Hp & _)]]; [|done|].
    + injection Ea as -> ->. split; [done|by left].
    + injection Ea as -> ->. split; [done|]. right; left. by exists s.
  - destruct (register_cases _ _ _ _ _ Es) as [(_ & _ & e & ?)|(mine & _ & [(l & g & _ & _ & _ & _ & Ea)|[(l & g & _ & _ & _ & _ & _ & _ & Ea)|(_ & _ & Ea)]])];
      [done|..]; injection Ea as -> ->; (split; [done|by left]).
  - destruct (unregister_cases _ _ _ _ _ Es) as [(_ & _ & e & ?)|(mine & l & g & _ & _ & _ & _ & Ea)]; [done|].
    injection Ea as -> ->. split; [done|by left].
  - destruct (yield_answer _ _ _ _ _ _ _ _ L2 R Es) as
      [(_ & (e & ?) & _)|(y & r & rp & Ho & [(_ & e & ?)|(s & Hp & Ea)])]; try done.
    injection Ea as -> ->. split; [done|]. right; left. by exists s.
Qed.

(** ** The run *)

Context (honest : N -> Prop) (c : N).

Record winv (n : net) (k : nat) (log snt : list message) : Prop := WInv {
  w_p : pinv E n k k;
  w_cl : forall x, is_Some (n_clients n !! x) -> x ∈ n_ever n;
  w_badd : forall x d, BrokerSpec.added (btr n) x d -> x ∈ n_ever n;
  w_dadd : forall x d, present_as (dtr n) x d -> x ∈ n_ever n;
  w_ops : forall x m out, (DReceive x m, out) ∈ dtr n -> x ∈ n_ever n;
  w_new : c ∉ n_ever n -> in_turn (b_out c) (btr n) = [] /\ in_turn (d_out c) (dtr n) = []
    /\ in_turn (b_in c) (btr n) = [] /\ in_turn (d_in c) (dtr n) = [] /\ log = [] /\ snt = [];
  w_pre : List.filter from_broker log `prefix_of` in_turn (b_out c) (btr n)
    /\ List.filter (fun a => negb (from_broker a)) log `prefix_of` in_turn (d_out c) (dtr n);
  w_spre : honest c -> in_turn (b_in c) (btr n) `prefix_of` List.filter for_broker snt
    /\ (n_crashed n = [] -> in_turn (d_in c) (dtr n) `prefix_of` List.filter for_dealer snt);
  w_read : forall cl, n_clients n !! c = Some cl ->
    List.filter from_broker (log ++ cl_down cl) = in_turn (b_out c) (btr n)
    /\ List.filter (fun a => negb (from_broker a)) (log ++ cl_down cl) = in_turn (d_out c) (dtr n);
  w_sent : forall cl, honest c -> n_clients n !! c = Some cl ->
    List.filter for_broker snt = in_turn (b_in c) (btr n) ++ List.filter for_broker (cl_up cl)
    /\ (n_crashed n = [] -> List.filter for_dealer snt = in_turn (d_in c) (dtr n) ++ List.filter for_dealer (cl_up cl)) }.

Lemma winv_empty : winv empty_net 0 [] [].
Proof.
  constructor; cbn; try done; try (apply pinv_empty); try (intros _; split; [by exists []|intros _; by exists []]); try (split; by exists []); try (intros x; rewrite lookup_empty; by intros []);
    try (intros x m out H; by apply elem_of_nil in H); intros cl; intros; exfalso; rewrite lookup_empty in *; done.
Qed.
Lemma filter_none {A} (f : A -> bool) l : (forall a, a ∈ l -> f a = false) -> List.filter f l = [].
Proof.
  induction l as [|a l IH]; intros H; [done|]. cbn. rewrite (H a) by (by left). apply IH. intros b Hb. apply H. by right.
Qed.
Lemma filter_all {A} (f : A -> bool) l : (forall a, a ∈ l -> f a = true) -> List.filter f l = l.
Proof.
  induction l as [|a l IH]; intros H; [done|]. cbn. rewrite (H a) by (by left). f_equal. apply IH. intros b Hb. apply H. by right.
Qed.
Lemma serves_there rows topic t r : serves rows topic t r -> rows !! t = Some r.
Proof. intros [? H|? ? _ H _|? ? _ _ H]; [done|by apply H|by apply H]. Qed.
Lemma nothing {A} (l : list A) : (forall a, a ∈ l -> False) -> l = [].
Proof. destruct l as [|a l]; [done|]. intros H. destruct (H a). by left. Qed.

(** The router reads [m], which [x] sent or forged; [ups] tells what is left
    of the messages sent. *)
Lemma winv_handle n k o x m log snt : winv n k log snt -> N.of_nat k < two53 -> said E x m -> is_Some (n_clients n !! x) ->
  let n' := handle o x m n in
  pinv E n' (S k) (S k) /\ (forall y, is_Some (n_clients n' !! y) -> is_Some (n_clients n !! y)) /\ n_ever n' = n_ever n
  /\ (forall y d, BrokerSpec.added (btr n') y d -> y ∈ n_ever n) /\ (forall y d, present_as (dtr n') y d -> y ∈ n_ever n)
  /\ (forall y a out, (DReceive y a, out) ∈ dtr n' -> y ∈ n_ever n)
  /\ (c ∉ n_ever n -> in_turn (b_out c) (btr n') = [] /\ in_turn (d_out c) (dtr n') = []
        /\ in_turn (b_in c) (btr n') = [] /\ in_turn (d_in c) (dtr n') = [])
  /\ (forall cl', n_clients n' !! c = Some cl' -> exists cl, n_clients n !! c = Some cl /\ cl_up cl' = cl_up cl
        /\ cl_session cl' = cl_session cl
        /\ List.filter from_broker (log ++ cl_down cl') = in_turn (b_out c) (btr n')
        /\ List.filter (fun a => negb (from_broker a)) (log ++ cl_down cl') = in_turn (d_out c) (dtr n'))
  /\ in_turn (b_in c) (btr n') = in_turn (b_in c) (btr n) ++ (if x =? c then List.filter for_broker [m] else [])
  /\ (n_crashed n' = [] -> n_crashed n = []
        /\ in_turn (d_in c) (dtr n') = in_turn (d_in c) (dtr n) ++ (if x =? c then List.filter for_dealer [m] else [])).
Proof.
  intros W Hk Hs Hx n'. destruct (pinv_handle E n k k o x m (w_p _ _ _ _ W) Hk Hk Hs) as [P' L'].
  assert (He : n_ever n' = n_ever n) by apply handle_ever.
  pose proof (handle_effect n k k o x m (w_p _ _ _ _ W) Hk) as EF. fold n' in EF, P', L'.
  assert (Hcr : crashes n n') by apply crashes_handle. clearbody n'.
  assert (Hxe : x ∈ n_ever n) by (by apply (w_cl _ _ _ _ W)).
  split; [done|].
  assert (Hgot : forall y extra, got n n' y extra -> is_Some (n_clients n' !! y) -> is_Some (n_clients n !! y)).
  { intros y extra G [cl' Hy]. destruct (G _ Hy) as (cl & -> & _). by eexists. }
  assert (None' : forall (b : bool), (if b then [] else []) = @nil message) by (by intros []).
  destruct EF as [out s s' F1 F2 B D C I T G|d' out F1 F2 B D C Es G|F1 F2 B D C G|F1 F2 ->].
  - (* broker *)
    split; [intros y; by eapply Hgot|]. split; [done|].
    assert (Hadd : forall y d, BrokerSpec.added (btr n') y d -> y ∈ n_ever n).
    { intros y d. rewrite B. destruct m; try discriminate F1; cbn [op_of BrokerSpec.added]; apply (w_badd _ _ _ _ W). }
    split; [done|]. rewrite D. split; [apply (w_dadd _ _ _ _ W)|]. split; [apply (w_ops _ _ _ _ W)|].
    assert (Hin : b_in c (op_of x m, out) = if x =? c then [m] else []) by (by destruct m; try discriminate F1).
    split; [|split; [|split]].
    + intros Hc. destruct (w_new _ _ _ _ W Hc) as (N1 & N2 & N3 & N4 & _). rewrite B. cbn [in_turn].
      rewrite N1, N3, Hin. split; [|split; [done|split; [|done]]].
      * apply nothing. intros a Ha. apply Hc. unfold b_out in Ha. cbn [snd] in Ha.
        assert (Hto : forall to, to = x -> a ∈ (if to =? c then [a] else []) -> c ∈ n_ever n).
        { intros to -> H. destruct (N.eqb_spec x c) as [<-|]; [done|by apply elem_of_nil in H]. }
        assert (Hack : forall p i b to, ack_of p x i = Some (b, to) -> a ∈ (if to =? c then [b] else []) -> c ∈ n_ever n).
        { intros p i b to. unfold ack_of. destruct (mget _ _) as [|[]| | | | | | | | |]; try done. intros [= <- <-].
          destruct (N.eqb_spec x c) as [<-|]; [done|by intros ?%elem_of_nil]. }
        destruct m; try discriminate F1; cbn [op_of] in T; inversion T; subst; try (by apply elem_of_nil in Ha).
        -- cbn [app] in Ha. destruct (ack_of _ _ _) as [[b to]|] eqn:Ea; [|by apply elem_of_nil in Ha]. by eapply Hack.
        -- cbn [app] in Ha. apply elem_of_app in Ha as [Ha|Ha].
           ++ revert Ha; destruct (bool_decide_reflect (c ∈ rs)) as [Hr|]; [intros _|by intros ?%elem_of_nil].
              match goal with H : forall x : N, @elem_of N (list N) _ x _ <-> _ |- _ => apply H in Hr end.
              match goal with H : serves _ _ ?t ?r |- _ =>
                assert (Hrow : tb_rows s !! t = Some r) by (by eapply serves_there) end.
              destruct (ti_subs _ _ I _ _ _ Hrow Hr) as [d Hd]. apply (ti_added _ _ I) in Hd. by eapply (w_badd _ _ _ _ W).
           ++ destruct (ack_of _ _ _) as [[b to]|] eqn:Ea; [|by apply elem_of_nil in Ha]. by eapply Hack.
        -- destruct (N.eqb_spec x c) as [<-|]; [done|by apply elem_of_nil in Ha].
        -- destruct (N.eqb_spec x c) as [<-|]; [done|by apply elem_of_nil in Ha].
        -- destruct (N.eqb_spec x c) as [<-|]; [done|by apply elem_of_nil in Ha].
      * destruct (N.eqb_spec x c) as [->|]; [done|done].
    + intros cl' Hc'. destruct (G c _ Hc') as (cl & Hc & ->). exists cl. split; [done|]. split; [done|]. split; [done|].
      destruct (w_read _ _ _ _ W _ Hc) as [R1 R2]. cbn [cl_down]. rewrite app_assoc, (List.filter_app from_broker), (List.filter_app (fun a => negb (from_broker a))), R1, R2, B. cbn [in_turn]. split.
      * f_equal. apply filter_all. intros a Ha. by eapply broker_outs.
      * rewrite (filter_none _ (b_out _ _)), app_nil_r; [done|]. intros a Ha. by rewrite (broker_outs _ _ _ _ _ _ T Ha).
    + rewrite B. cbn [in_turn List.filter]. by rewrite Hin, F1.
    + rewrite C. cbn [List.filter]. rewrite F2, None', app_nil_r. done.
  - (* dealer *)
    split; [intros y; by eapply Hgot|]. split; [done|]. rewrite B. split; [apply (w_badd _ _ _ _ W)|].
    assert (Hpr : forall y d, present_as (dtr n') y d -> present_as (dtr n) y d) by (intros y d; by rewrite D).
    split; [intros y d H; by eapply (w_dadd _ _ _ _ W), Hpr|].
    split; [intros y a out'; rewrite D; intros [[= -> -> ->]|H]%elem_of_cons; [done|by eapply (w_ops _ _ _ _ W)]|].
    pose proof (fun a => dealer_outs n k k o x m d' out c a (w_p _ _ _ _ W) Hk Es) as HO.
    split; [|split; [|split]].
    + intros Hc. destruct (w_new _ _ _ _ W Hc) as (N1 & N2 & N3 & N4 & _). rewrite D. cbn [in_turn]. rewrite N1, N2, N3, N4.
      split; [done|]. split; [|split; [done|]].
      * apply nothing. intros a Ha. destruct (HO _ Ha) as [_ [->|[(d & H)|(call & out' & H)]]]; apply Hc;
          [done|by eapply (w_dadd _ _ _ _ W)|by eapply (w_ops _ _ _ _ W)].
      * unfold d_in. cbn [fst]. destruct (N.eqb_spec x c) as [->|]; done.
    + intros cl' Hc'. destruct (G c _ Hc') as (cl & Hc & ->). exists cl. split; [done|]. split; [done|]. split; [done|].
      destruct (w_read _ _ _ _ W _ Hc) as [R1 R2]. cbn [cl_down]. rewrite app_assoc, (List.filter_app from_broker), (List.filter_app (fun a => negb (from_broker a))), R1, R2, D. cbn [in_turn]. split.
      * rewrite (filter_none _ (d_out _ _)), app_nil_r; [done|]. intros a Ha. by apply HO.
      * f_equal. apply filter_all. intros a Ha. by rewrite (proj1 (HO _ Ha)).
    + cbn [List.filter]. by rewrite F1, None', app_nil_r.
    + rewrite C. cbn [List.filter]. rewrite F2, D. intros H. split; [done|]. done.
  - (* panic *)
    split; [intros y; by eapply Hgot|]. split; [done|]. rewrite B, D. split; [apply (w_badd _ _ _ _ W)|].
    split; [apply (w_dadd _ _ _ _ W)|]. split; [apply (w_ops _ _ _ _ W)|].
    split; [|split; [|split]].
    + intros Hc. by destruct (w_new _ _ _ _ W Hc) as (N1 & N2 & N3 & N4 & _).
    + intros cl' Hc'. destruct (G c _ Hc') as (cl & Hc & ->). exists cl. split; [done|]. split; [done|]. split; [done|].
      cbn [cl_down]. rewrite app_nil_r. by apply (w_read _ _ _ _ W).
    + cbn [List.filter]. by rewrite F1, None', app_nil_r.
    + done.
  - (* nothing *)
    split; [done|]. split; [done|]. split; [apply (w_badd _ _ _ _ W)|].
    split; [apply (w_dadd _ _ _ _ W)|]. split; [apply (w_ops _ _ _ _ W)|].
    split; [|split; [|split]].
    + intros Hc. by destruct (w_new _ _ _ _ W Hc) as (N1 & N2 & N3 & N4 & _).
    + intros cl Hc. exists cl. split; [done|]. split; [done|]. split; [done|]. by apply (w_read _ _ _ _ W).
    + cbn [List.filter]. by rewrite F1, None', app_nil_r.
    + cbn [List.filter]. rewrite F2, None', app_nil_r. done.
Qed.

(** Joining, leaving, and the disclosure switches. *)
Definition silent (op : bop) (op' : dop) : Prop :=
  match op, op' with BAdd d, DAdd d' => d = d' | BRemove x, DRemove y => x = y | BDisclose _, DDisclose _ => True | _, _ => False end.
Lemma silent_dealer o d op op' d' out : silent op op' -> dstep o d op' = Ret d' out -> forall x, d_out x (op', out) = [].
Proof.
  intros S Es x. destruct op, op'; try destruct S; cbn [dstep] in Es.
  - unfold d_add_session in Es. destruct (d_sessions d !! _); by inversion Es.
  - unfold d_remove_session in Es. destruct (d_sessions d !! _); [|by inversion Es].
    destruct (d_remove_loop _ _ _); by inversion Es.
  - unfold d_auto_disclose in Es. by inversion Es.
Qed.
Lemma silent_calls n k o op op' : pinv E n k k -> N.of_nat k < two53 -> silent op op' ->
  match op with BAdd d => HNet (NJoin d) ∈ E | _ => True end ->
  let n' := fst (call_dealer o op' (fst (call_broker o op n))) in
  n_clients n' = n_clients n /\ n_ever n' = n_ever n
  /\ (forall x d, BrokerSpec.added (btr n') x d -> BrokerSpec.added (btr n) x d \/ op = BAdd d /\ x = se_id d)
  /\ (forall x d, present_as (dtr n') x d -> present_as (dtr n) x d \/ op' = DAdd d /\ x = se_id d)
  /\ (forall x m out, (DReceive x m, out) ∈ dtr n' -> (DReceive x m, out) ∈ dtr n)
  /\ in_turn (b_out c) (btr n') = in_turn (b_out c) (btr n) /\ in_turn (b_in c) (btr n') = in_turn (b_in c) (btr n)
  /\ in_turn (d_out c) (dtr n') = in_turn (d_out c) (dtr n) /\ in_turn (d_in c) (dtr n') = in_turn (d_in c) (dtr n).
Proof.
  intros P Hk Hsil HE n'. destruct (pinv_broker E n k k o op P Hk HE) as (P1 & _ & _).
  destruct (broker_step n k k o op P Hk) as (b' & out & s & s' & Eb & Ht & I & T). subst n'. rewrite Eb in *. cbn [fst] in *.
  set (n1 := Net _ _ _ _ _ _ _ _ _ _) in *.
  assert (B1 : btr n1 = (op, out) :: btr n) by exact Ht. assert (D1 : dtr n1 = dtr n) by done.
  assert (C1 : n_clients n1 = n_clients n /\ n_ever n1 = n_ever n) by done. clearbody n1. destruct C1 as [C1 C2].
  assert (Hb1 : b_out c (op, out) = [] /\ b_in c (op, out) = []).
  { destruct op; try (by destruct op'); inversion T; by subst. }
  assert (Ha : forall x d, BrokerSpec.added ((op, out) :: btr n) x d -> BrokerSpec.added (btr n) x d \/ op = BAdd d /\ x = se_id d).
  { intros x d. destruct op; try (by destruct op'); cbn [BrokerSpec.added]; destruct out; naive_solver. }
  destruct Hb1 as [Hb1 Hb2].
  destruct (dealer_step n1 (S k) k o op' P1) as [(w & _ & ->)|(d' & out' & Es & -> & Ht')]; cbn [fst].
  - change (btr (nset_crashed _ _)) with (btr n1). change (dtr (nset_crashed _ _)) with (dtr n1). rewrite B1, D1.
    cbn [in_turn]. rewrite Hb1, Hb2, !app_nil_r. repeat split; try done. intros x d H. by left.
  - set (n2 := Net _ _ _ _ _ _ _ _ _ _).
    assert (B2 : btr n2 = btr n1) by done. assert (D2 : dtr n2 = (op', out') :: dtr n1) by exact Ht'.
    assert (C3 : n_clients n2 = n_clients n1 /\ n_ever n2 = n_ever n1) by done. clearbody n2. destruct C3 as [-> ->].
    rewrite B2, D2, B1, D1. cbn [in_turn]. rewrite Hb1, Hb2, (silent_dealer _ _ _ _ _ _ Hsil Es).
    assert (Hd : d_in c (op', out') = []) by (by destruct op, op'). rewrite Hd, !app_nil_r.
    split; [done|]. split; [done|]. split; [done|]. split; [|split; [|done]].
    + intros x d. destruct op'; try (by destruct op); cbn [present_as]; destruct out'; naive_solver.
    + intros x m out0 [[= <- <-]|H]%elem_of_cons; [by destruct op|done].
Qed.

Lemma in_turn_app {A B} (f : A -> list B) t1 t2 : in_turn f (t1 ++ t2) = in_turn f t2 ++ in_turn f t1.
Proof. induction t1 as [|x t1 IH]; cbn [app in_turn]; [by rewrite app_nil_r|]. by rewrite IH, app_assoc. Qed.
Lemma effect_grows o x m n n' : effect o x m n n' -> (exists t, btr n' = t ++ btr n) /\ exists t, dtr n' = t ++ dtr n.
Proof.
  intros [out s s' _ _ B D _ _ _ _|d' out _ _ B D _ _ _|_ _ B D _ _|_ _ ->]; try (rewrite B, D); split; try (by exists []).
  - by exists [(op_of x m, out)].
  - by exists [(DReceive x m, out)].
Qed.
Lemma in_turn_grows {A B} (f : A -> list B) tr tr' : (exists t, tr' = t ++ tr) -> in_turn f tr `prefix_of` in_turn f tr'.
Proof. intros [t ->]. rewrite in_turn_app. by apply prefix_app_r. Qed.

Lemma winv_quiet n n' k log snt log' snt' : winv n k log snt -> pinv E n' (S k) (S k) ->
  (forall x, x ∈ n_ever n -> x ∈ n_ever n') -> (forall x, is_Some (n_clients n' !! x) -> x ∈ n_ever n') ->
  (forall x d, BrokerSpec.added (btr n') x d -> x ∈ n_ever n') -> (forall x d, present_as (dtr n') x d -> x ∈ n_ever n') ->
  (forall x m out, (DReceive x m, out) ∈ dtr n' -> x ∈ n_ever n') ->
  in_turn (b_out c) (btr n') = in_turn (b_out c) (btr n) -> in_turn (b_in c) (btr n') = in_turn (b_in c) (btr n) ->
  in_turn (d_out c) (dtr n') = in_turn (d_out c) (dtr n) -> in_turn (d_in c) (dtr n') = in_turn (d_in c) (dtr n) ->
  (n_crashed n' = [] -> n_crashed n = []) ->
  (log' = log /\ snt' = snt /\ (forall cl', n_clients n' !! c = Some cl' ->
     (c ∉ n_ever n /\ cl_up cl' = [] /\ cl_down cl' = [])
     \/ exists cl, n_clients n !! c = Some cl /\ cl_up cl' = cl_up cl /\ cl_down cl' = cl_down cl)
   \/ exists cl cl' extra, n_clients n !! c = Some cl /\ n_clients n' !! c = Some cl'
      /\ log' ++ cl_down cl' = log ++ cl_down cl /\ snt' = snt ++ extra /\ cl_up cl' = cl_up cl ++ extra) ->
  winv n' (S k) log' snt'.
Proof.
  intros W P' Hev Hcl Hba Hda Hops E1 E2 E3 E4 Hcr Hcase.
  constructor; [done|done|done|done|done| | | | |].
  - intros Hc. rewrite E1, E2, E3, E4. assert (Hc0 : c ∉ n_ever n) by (intros H; by apply Hc, Hev).
    destruct (w_new _ _ _ _ W Hc0) as (N1 & N2 & N3 & N4 & N5 & N6).
    destruct Hcase as [(-> & -> & _)|(cl & cl' & ex & H & _)]; [done|]. destruct Hc0. apply (w_cl _ _ _ _ W). by eexists.
  - rewrite E1, E3. destruct Hcase as [(-> & -> & _)|(cl & cl' & ex & H & _ & Hl & _)]; [apply (w_pre _ _ _ _ W)|].
    destruct (w_read _ _ _ _ W _ H) as [<- <-]. rewrite <- Hl, !List.filter_app. split; by apply prefix_app_r.
  - intros Hh. rewrite E2, E4. destruct (w_spre _ _ _ _ W Hh) as [S1 S2].
    destruct Hcase as [(-> & -> & _)|(cl & cl' & ex & _ & _ & _ & -> & _)]; [by split; [|auto]|]. rewrite !List.filter_app.
    split; [by apply prefix_app_r|]. intros C. apply prefix_app_r. auto.
  - intros cl0 H0. rewrite E1, E3. destruct Hcase as [(-> & -> & Hc)|(cl & cl' & ex & H & H' & Hl & _)].
    + destruct (Hc _ H0) as [(Hn & U & D)|(cl & H & U & D)]; [|rewrite D; by apply (w_read _ _ _ _ W)].
      destruct (w_new _ _ _ _ W Hn) as (N1 & N2 & N3 & N4 & N5 & N6). by rewrite N1, N2, N5, D.
    + rewrite H0 in H'. injection H' as <-. rewrite Hl. by apply (w_read _ _ _ _ W).
  - intros cl0 Hh H0. rewrite E2, E4. destruct Hcase as [(-> & -> & Hc)|(cl & cl' & ex & H & H' & Hl & -> & U)].
    + destruct (Hc _ H0) as [(Hn & U & D)|(cl & H & U & D)].
      * destruct (w_new _ _ _ _ W Hn) as (N1 & N2 & N3 & N4 & N5 & N6). by rewrite N3, N4, N6, U.
      * rewrite U. destruct (w_sent _ _ _ _ W _ Hh H) as [S1 S2]. split; [done|]. auto.
    + rewrite H0 in H'. injection H' as <-. destruct (w_sent _ _ _ _ W _ Hh H) as [S1 S2].
      rewrite U, !List.filter_app, S1. split; [by rewrite app_assoc|]. intros C. rewrite (S2 (Hcr C)). by rewrite app_assoc.
Qed.

Lemma winv_same n k log snt : winv n k log snt -> winv n (S k) log snt.
Proof. intros [P ? ? ? ? ? ? ? ? ?]. constructor; try done. eapply pinv_more; [exact P|lia|lia]. Qed.

Lemma winv_silent n k log snt n1 o op op' n' : winv n k log snt -> N.of_nat k < two53 ->
  n' = fst (call_dealer o op' (fst (call_broker o op n1))) -> pinv E n1 k k -> pinv E n' (S k) (S k) -> silent op op' ->
  match op with BAdd d => HNet (NJoin d) ∈ E | _ => True end ->
  btr n1 = btr n -> dtr n1 = dtr n -> n_crashed n1 = n_crashed n ->
  (forall x, x ∈ n_ever n -> x ∈ n_ever n1) -> (forall x, is_Some (n_clients n1 !! x) -> x ∈ n_ever n1) ->
  match op with BAdd d => se_id d ∈ n_ever n1 | _ => True end ->
  (forall cl', n_clients n1 !! c = Some cl' -> (c ∉ n_ever n /\ cl_up cl' = [] /\ cl_down cl' = [])
     \/ n_clients n !! c = Some cl') ->
  winv n' (S k) log snt.
Proof.
  intros W Hk -> P1 P' Hsil HE B1 D1 C1 Hev Hcl Hid Hc.
  destruct (silent_calls n1 k o op op' P1 Hk Hsil HE) as (S1 & S2 & S3 & S4 & S5 & S6 & S7 & S8 & S9).
  assert (Hcr : crashes n1 (fst (call_dealer o op' (fst (call_broker o op n1))))).
  { eapply crashes_trans; [apply crashes_broker|apply crashes_dealer]. }
  rewrite B1, D1 in *. eapply winv_quiet; [exact W|exact P'|by rewrite S2|by rewrite S1, S2| | | |done|done|done|done| |].
  - intros x d H. rewrite S2. destruct (S3 _ _ H) as [H'|[-> ->]]; [|done]. apply Hev. by eapply (w_badd _ _ _ _ W).
  - intros x d H. rewrite S2. destruct (S4 _ _ H) as [H'|[-> ->]]; [apply Hev; by eapply (w_dadd _ _ _ _ W)|].
    destruct op; try destruct Hsil. done.
  - intros x m out H. rewrite S2. apply Hev. by eapply (w_ops _ _ _ _ W), S5.
  - intros H. rewrite <- C1. by eapply crashes_nil.
  - left. split; [done|]. split; [done|]. rewrite S1. intros cl' H. destruct (Hc _ H) as [H'|H']; [by left|right; eauto].
Qed.

Lemma winv_step n k log snt e : winv n k log snt -> N.of_nat k < two53 -> e ∈ E -> decent honest n e ->
  winv (hstep n e) (S k) (log ++ hreads c n e) (snt ++ sends c n e).
Proof.
  intros W Hk He Hd. pose proof (w_p _ _ _ _ W) as P. destruct (pinv_step E n k e P Hk He) as (P' & _ & _).
  destruct e as [e|o x m].
  2:{ (* forged *)
      cbn [hstep hreads sends] in *. rewrite !app_nil_r. destruct (n_clients n !! x) as [cx|] eqn:Hx; [|by apply winv_same].
      destruct (winv_handle n k o x m log snt W Hk) as (_ & Q2 & Q3 & Q4 & Q5 & Q6 & Q7 & Q8 & Q9 & Q10);
        [right; by exists o|by eexists|].
      destruct (effect_grows _ _ _ _ _ (handle_effect n k k o x m P Hk)) as [G1 G2].
      assert (Hxc : honest c -> (x =? c) = false) by (intros Hh; apply N.eqb_neq; intros ->; by apply Hd).
      constructor; rewrite ?Q3; try done.
      - intros y Hy. by apply (w_cl _ _ _ _ W), Q2.
      - intros Hc. destruct (w_new _ _ _ _ W Hc) as (_ & _ & _ & _ & N5 & N6). destruct (Q7 Hc) as (? & ? & ? & ?). done.
      - destruct (w_pre _ _ _ _ W) as [R1 R2]. split; (etrans; [eassumption|]); by apply in_turn_grows.
      - intros Hh. destruct (w_spre _ _ _ _ W Hh) as [S1 S2]. rewrite Q9, (Hxc Hh), app_nil_r. split; [done|].
        intros C. destruct (Q10 C) as [C0 ->]. rewrite (Hxc Hh), app_nil_r. auto.
      - intros cl' H. destruct (Q8 _ H) as (cl & _ & _ & _ & R1 & R2). done.
      - intros cl' Hh H. destruct (Q8 _ H) as (cl & Hc & U & _). destruct (w_sent _ _ _ _ W _ Hh Hc) as [S1 S2].
        rewrite Q9, (Hxc Hh), app_nil_r, U. split; [done|]. intros C. destruct (Q10 C) as [C0 ->].
        rewrite (Hxc Hh), app_nil_r. auto. }
  cbn [hstep hreads sends] in *.
  assert (Same : winv n (S k) (log ++ []) (snt ++ [])) by (rewrite !app_nil_r; by apply winv_same).
  assert (Cr : forall n', n_crashed n' = n_crashed n -> n_crashed n' = [] -> n_crashed n = []) by (intros ? -> ?; done).
  (* only the clients change *)
  assert (Only : forall n' log' snt', pinv E n' (S k) (S k) -> btr n' = btr n -> dtr n' = dtr n -> n_crashed n' = n_crashed n ->
    n_ever n' = n_ever n -> (forall y, is_Some (n_clients n' !! y) -> is_Some (n_clients n !! y)) ->
    (log' = log /\ snt' = snt /\ n_clients n' !! c = n_clients n !! c
      \/ exists cl cl' extra, n_clients n !! c = Some cl /\ n_clients n' !! c = Some cl'
      /\ log' ++ cl_down cl' = log ++ cl_down cl /\ snt' = snt ++ extra /\ cl_up cl' = cl_up cl ++ extra) -> winv n' (S k) log' snt').
  { intros n' log' snt' Pn B D C Ev Cl Hcase.
    eapply winv_quiet; [exact W|exact Pn| | | | | |by rewrite B|by rewrite B|by rewrite D|by rewrite D|by apply Cr|];
      rewrite ?Ev, ?B, ?D; try done.
    - intros y Hy. by apply (w_cl _ _ _ _ W), Cl.
    - apply (w_badd _ _ _ _ W).
    - apply (w_dadd _ _ _ _ W).
    - apply (w_ops _ _ _ _ W).
    - destruct Hcase as [(-> & -> & Hc)|H]; [|by right]. left. rewrite Hc. split; [done|]. split; [done|].
      intros cl' H. right. by exists cl'. }
  destruct e as [d|o x|x m|o x|x|p q]; cbn [nstep delivers sends decent careful] in *.
  - rewrite !app_nil_r. set (n1 := nset_clients _ _) in *.
    eapply (winv_silent n k log snt n1 any_oracle (BAdd d) (DAdd d)); [exact W|done|reflexivity| |exact P'|done|done|done|done|done| | | |].
    + subst n1. apply pinv_clients; [by apply pinv_ever|].
      intros y cl'. destruct (decide (y = se_id d)) as [->|Hne].
      * rewrite lookup_insert. intros [= <-]. by left.
      * rewrite lookup_insert_ne by done. intros Hy. right. exists cl'. auto.
    + intros y Hy. by right.
    + intros y. cbn. destruct (decide (y = se_id d)) as [->|Hne]; [intros _; by left|].
      rewrite lookup_insert_ne by done. intros Hy. right. by apply (w_cl _ _ _ _ W).
    + by left.
    + intros cl'. cbn. destruct (decide (c = se_id d)) as [->|Hne].
      * rewrite lookup_insert. intros [= <-]. by left.
      * rewrite lookup_insert_ne by done. by right.
  - rewrite !app_nil_r. set (n1 := nset_clients _ _) in *.
    eapply (winv_silent n k log snt n1 o (BRemove x) (DRemove x)); [exact W|done|reflexivity| |exact P'|done|done|done|done|done|done| |done|].
    + subst n1. apply pinv_clients; [done|]. intros y cl'. destruct (decide (y = x)) as [->|Hne]; [by rewrite lookup_delete|].
      rewrite lookup_delete_ne by done. intros Hy. right. exists cl'. auto.
    + intros y [cl Hy]. apply (w_cl _ _ _ _ W). cbn in Hy. apply lookup_delete_Some in Hy as [_ Hy]. by eexists.
    + intros cl' Hy. right. cbn in Hy. by apply lookup_delete_Some in Hy as [_ Hy].
  - destruct (n_clients n !! x) as [cl|] eqn:Hx; [|by destruct (x =? c)].
    destruct (sstep (cl_session cl) (SSend (Ok "") m)) as [s r]. rewrite app_nil_r.
    assert (K : forall cl0 y, is_Some (<[x:=cl0]> (n_clients n) !! y) -> is_Some (n_clients n !! y)).
    { intros cl0 y. destruct (decide (y = x)) as [->|Hne]; [intros _; by eexists|by rewrite lookup_insert_ne]. }
    destruct r as [w|w|w]; (apply Only; [exact P'|done|done|done|done|apply K|]); cbn [n_clients nset_clients];
      destruct (N.eqb_spec x c) as [->|Hne]; try (left; rewrite lookup_insert_ne by done; by rewrite app_nil_r);
      right; rewrite lookup_insert; eexists cl, _, _; (split; [exact Hx|]); (split; [reflexivity|]); cbn [cl_up cl_down];
      (split; [done|]); split; try done; by rewrite app_nil_r.
  - rewrite !app_nil_r in *. destruct (n_clients n !! x) as [[s0 [|m rest] down used]|] eqn:Hx; [exact Same| |exact Same].
    destruct (winv_handle n k o x m log snt W Hk) as (_ & Q2 & Q3 & Q4 & Q5 & Q6 & Q7 & Q8 & Q9 & Q10);
      [eapply (pi_up _ _ _ _ P); [exact Hx|by left]|by eexists|].
    destruct (effect_grows _ _ _ _ _ (handle_effect n k k o x m P Hk)) as [G1 G2].
    set (n1 := handle o x m n) in *. clearbody n1.
    set (n2 := match n_clients n1 !! x with Some _ => _ | None => _ end) in *.
    assert (F : btr n2 = btr n1 /\ dtr n2 = dtr n1 /\ n_crashed n2 = n_crashed n1 /\ n_ever n2 = n_ever n1
      /\ (forall y, is_Some (n_clients n2 !! y) -> is_Some (n_clients n1 !! y))
      /\ forall cl', n_clients n2 !! c = Some cl' -> exists cl, n_clients n1 !! c = Some cl /\ cl_down cl' = cl_down cl
           /\ cl_up cl' = if x =? c then tail (cl_up cl) else cl_up cl).
    { subst n2. destruct (n_clients n1 !! x) as [cl1|] eqn:H1.
      - cbn. repeat (split; [done|]). split.
        + intros y. destruct (decide (y = x)) as [->|Hne]; [intros _; by eexists|by rewrite lookup_insert_ne].
        + intros cl'. destruct (N.eqb_spec x c) as [->|Hne].
          * rewrite lookup_insert. intros [= <-]. by exists cl1.
          * rewrite lookup_insert_ne by done. intros H. by exists cl'.
      - repeat (split; [done|]). intros cl' H. exists cl'. split; [done|]. split; [done|].
        destruct (N.eqb_spec x c) as [->|Hne]; [congruence|done]. }
    clearbody n2. destruct F as (F1 & F2 & F3 & F4 & F5 & F6).
    constructor; rewrite ?F1, ?F2, ?F3, ?F4, ?Q3; try done.
    + intros y Hy. by apply (w_cl _ _ _ _ W), Q2, F5.
    + intros Hc. destruct (w_new _ _ _ _ W Hc) as (_ & _ & _ & _ & N5 & N6). destruct (Q7 Hc) as (? & ? & ? & ?). done.
    + destruct (w_pre _ _ _ _ W) as [R1 R2]. split; (etrans; [eassumption|]); by apply in_turn_grows.
    + intros Hh. destruct (w_spre _ _ _ _ W Hh) as [S1 S2]. rewrite Q9.
      destruct (N.eqb_spec x c) as [->|Hne].
      * destruct (w_sent _ _ _ _ W _ Hh Hx) as [-> S4]. cbn [cl_up List.filter]. split.
        -- apply prefix_app. destruct (for_broker m); [apply (prefix_cons m), prefix_nil|apply prefix_nil].
        -- intros C. destruct (Q10 C) as [C0 ->]. rewrite (S4 C0). cbn [cl_up List.filter]. apply prefix_app.
           destruct (for_dealer m); [apply (prefix_cons m), prefix_nil|apply prefix_nil].
      * rewrite app_nil_r. split; [done|]. intros C. destruct (Q10 C) as [C0 ->]. rewrite app_nil_r. auto.
    + intros cl' H. destruct (F6 _ H) as (cl1 & H1 & -> & _). destruct (Q8 _ H1) as (cl & _ & _ & _ & R1 & R2). done.
    + intros cl' Hh H. destruct (F6 _ H) as (cl1 & H1 & _ & ->). destruct (Q8 _ H1) as (cl & Hc & -> & _).
      destruct (w_sent _ _ _ _ W _ Hh Hc) as [S1 S2]. rewrite Q9. split.
      * rewrite S1. destruct (N.eqb_spec x c) as [->|Hne]; [|by rewrite app_nil_r].
        rewrite Hx in Hc. injection Hc as <-. cbn [cl_up tail List.filter]. destruct (for_broker m); [by rewrite <- app_assoc|by rewrite app_nil_r].
      * intros C. destruct (Q10 C) as [C0 ->]. rewrite (S2 C0). destruct (N.eqb_spec x c) as [->|Hne]; [|by rewrite app_nil_r].
        rewrite Hx in Hc. injection Hc as <-. cbn [cl_up tail List.filter]. destruct (for_dealer m); [by rewrite <- app_assoc|by rewrite app_nil_r].
  - destruct (n_clients n !! x) as [[s up [|m down] used]|] eqn:Hx; [by destruct (x =? c)| |by destruct (x =? c)].
    rewrite app_nil_r. destruct (sstep s (SReceiveMessage m)) as [s' r].
    assert (K : forall cl0 y, is_Some (<[x:=cl0]> (n_clients n) !! y) -> is_Some (n_clients n !! y)).
    { intros cl0 y. destruct (decide (y = x)) as [->|Hne]; [intros _; by eexists|by rewrite lookup_insert_ne]. }
    destruct r as [w|w|w]; (apply Only; [exact P'|done|done|done|done|apply K|]); cbn [n_clients nset_clients nset_rejected];
      destruct (N.eqb_spec x c) as [->|Hne]; try (left; rewrite lookup_insert_ne by done; by rewrite app_nil_r);
      right; rewrite lookup_insert; eexists _, _, []; (split; [exact Hx|]); (split; [reflexivity|]); cbn [cl_up cl_down];
      rewrite !app_nil_r; (split; [by rewrite <- app_assoc|done]).
  - rewrite !app_nil_r.
    eapply (winv_silent n k log snt n any_oracle (BDisclose p) (DDisclose q)); [exact W|done|reflexivity|exact P|exact P'|done|done|done|done|done|done| |done|].
    + apply (w_cl _ _ _ _ W).
    + by right.
Qed.

Lemma winv_run es : forall n k log snt, winv n k log snt -> N.of_nat (k + length es) <= two53 -> (forall e, e ∈ es -> e ∈ E) ->
  decently honest n es -> exists k', N.of_nat k' <= two53 /\ winv (hrun n es) k' (log ++ hread c n es) (snt ++ sent c n es).
Proof.
  induction es as [|e es IH]; intros n k log snt W Hk He Hd; [exists k; cbn in *; rewrite !app_nil_r; split; [lia|done]|].
  cbn [length] in Hk. destruct Hd as [Hd Hd']. cbn [hrun hread sent]. rewrite !app_assoc.
  eapply IH; [apply winv_step; [exact W|lia|apply He; by left|done]|lia|intros x Hx; apply He; by right|done].
Qed.
End Order.

Lemma order honest c es : N.of_nat (length es) <= two53 -> decently honest empty_net es ->
  exists k, N.of_nat k <= two53 /\ winv es honest c (hrun empty_net es) k (hread c empty_net es) (sent c empty_net es).
Proof.
  intros Hk Hd. apply (winv_run es honest c es empty_net 0 [] []); [apply winv_empty|exact Hk|done|exact Hd].
Qed.

(** ** Sublists *)
Lemma omap_sub {A B X} (f : A -> list B) (g : A -> list X) (h : B -> X) tr :
  (forall x, sublist (map h (f x)) (g x)) -> sublist (map h (in_turn f tr)) (in_turn g tr).
Proof.
  intros H. induction tr as [|x tr IH]; [done|]. cbn [in_turn]. rewrite map_app. by apply sublist_app.
Qed.
Lemma in_turn_omap {A B X} (f : A -> list B) (g : B -> option X) tr :
  omap g (in_turn f tr) = in_turn (fun x => omap g (f x)) tr.
Proof. induction tr as [|x tr IH]; [done|]. cbn [in_turn]. by rewrite omap_app, IH. Qed.
Lemma omap_filter {A X} (g : A -> option X) (f : A -> bool) l : (forall a, f a = false -> g a = None) ->
  omap g (List.filter f l) = omap g l.
Proof.
  intros H. induction l as [|a l IH]; [done|]. cbn. destruct (f a) eqn:Ef; cbn; [by rewrite IH|]. by rewrite (H _ Ef).
Qed.
Lemma omap_prefix {A X} (g : A -> option X) l l' : l `prefix_of` l' -> omap g l `prefix_of` omap g l'.
Proof. intros [k ->]. rewrite omap_app. by apply prefix_app_r. Qed.

Lemma published_order honest es s c : N.of_nat (length es) <= two53 -> decently honest empty_net es -> honest s ->
  let n := hrun empty_net es in let l := in_turn (passes s c) (btr n) in
  sublist (map fst l) (publishes (sent s empty_net es))
  /\ forall cl, n_clients n !! c = Some cl -> sublist (map snd l) (events (hread c empty_net es ++ cl_down cl)).
Proof.
  intros Hk Hd Hh n l. split.
  - destruct (order honest s es Hk Hd) as (k & Hk' & W). destruct (w_spre _ _ _ _ _ _ _ W Hh) as [S _].
    unfold publishes. apply (omap_prefix (fun a => match a with MPublish p => Some p | _ => None end)) in S.
    rewrite omap_filter in S by (by intros []). rewrite in_turn_omap in S.
    etrans; [|destruct S as [rest ->]; by apply sublist_inserts_r].
    apply omap_sub. intros [op out]. destruct op; try apply sublist_nil_l. destruct out as [| | | |[e|] rs ack]; try apply sublist_nil_l.
    cbn. destruct (sid =? s); [|apply sublist_nil_l]. destruct (bool_decide (c ∈ rs)); [done|apply sublist_nil_l].
  - intros cl Hc. destruct (order honest c es Hk Hd) as (k & Hk' & W). destruct (w_read _ _ _ _ _ _ _ W _ Hc) as [R _].
    unfold events. rewrite <- (omap_filter _ from_broker) by (by intros []). rewrite R, in_turn_omap.
    apply omap_sub. intros [op out]. destruct op; try apply sublist_nil_l. destruct out as [| | | |[e|] rs ack]; try apply sublist_nil_l.
    cbn. destruct (sid =? s); [|apply sublist_nil_l]. destruct (bool_decide (c ∈ rs)); [|apply sublist_nil_l].
    cbn. apply sublist_skip, sublist_nil_l.
Qed.
Lemma called_order honest es s c : N.of_nat (length es) <= two53 -> decently honest empty_net es -> honest s ->
  let n := hrun empty_net es in let l := in_turn (invokes s c) (dtr n) in
  (n_crashed n = [] -> sublist (map fst l) (calls (sent s empty_net es)))
  /\ forall cl, n_clients n !! c = Some cl -> sublist (map snd l) (invocations (hread c empty_net es ++ cl_down cl)).
Proof.
  intros Hk Hd Hh n l. split.
  - intros C. destruct (order honest s es Hk Hd) as (k & Hk' & W). destruct (w_spre _ _ _ _ _ _ _ W Hh) as [_ S]. specialize (S C).
    unfold calls. apply (omap_prefix (fun a => match a with MCall p => Some p | _ => None end)) in S.
    rewrite omap_filter in S by (by intros []). rewrite in_turn_omap in S.
    etrans; [|destruct S as [rest ->]; by apply sublist_inserts_r].
    apply omap_sub. intros [op out]. destruct op as [| | | |s' m]; try apply sublist_nil_l.
    destruct m; try apply sublist_nil_l. destruct out as [| | |[] to]; try apply sublist_nil_l.
    cbn. destruct (s' =? s); [|apply sublist_nil_l]. destruct (to =? c); [done|apply sublist_nil_l].
  - intros cl Hc. destruct (order honest c es Hk Hd) as (k & Hk' & W). destruct (w_read _ _ _ _ _ _ _ W _ Hc) as [_ R].
    unfold invocations. rewrite <- (omap_filter _ (fun a => negb (from_broker a))) by (by intros []). rewrite R, in_turn_omap.
    apply omap_sub. intros [op out]. destruct op as [| | | |s' m]; try apply sublist_nil_l.
    destruct m; try apply sublist_nil_l. destruct out as [| | |[] to]; try apply sublist_nil_l.
    cbn. destruct (s' =? s); [|apply sublist_nil_l]. destruct (to =? c); [done|apply sublist_nil_l].
Qed.

Lemma yielded_order honest es s c : N.of_nat (length es) <= two53 -> decently honest empty_net es -> honest s ->
  let n := hrun empty_net es in let l := in_turn (answers s c) (dtr n) in
  (n_crashed n = [] -> sublist (map fst l) (yields (sent s empty_net es)))
  /\ forall cl, n_clients n !! c = Some cl -> sublist (map snd l) (results_in (hread c empty_net es ++ cl_down cl)).
Proof.
  intros Hk Hd Hh n l. split.
  - intros C. destruct (order honest s es Hk Hd) as (k & Hk' & W). destruct (w_spre _ _ _ _ _ _ _ W Hh) as [_ S]. specialize (S C).
    unfold yields. apply (omap_prefix (fun a => match a with MYield p => Some p | _ => None end)) in S.
    rewrite omap_filter in S by (by intros []). rewrite in_turn_omap in S.
    etrans; [|destruct S as [rest ->]; by apply sublist_inserts_r].
    apply omap_sub. intros [op out]. destruct op as [| | | |s' m]; try apply sublist_nil_l.
    destruct m; try apply sublist_nil_l. destruct out as [| | |[] to]; try apply sublist_nil_l.
    cbn. destruct (s' =? s); [|apply sublist_nil_l]. destruct (to =? c); [done|apply sublist_nil_l].
  - intros cl Hc. destruct (order honest c es Hk Hd) as (k & Hk' & W). destruct (w_read _ _ _ _ _ _ _ W _ Hc) as [_ R].
    unfold results_in. rewrite <- (omap_filter _ (fun a => negb (from_broker a))) by (by intros []). rewrite R, in_turn_omap.
    apply omap_sub. intros [op out]. destruct op as [| | | |s' m]; try apply sublist_nil_l.
    destruct m; try apply sublist_nil_l. destruct out as [| | |[] to]; try apply sublist_nil_l.
    cbn. destruct (s' =? s); [|apply sublist_nil_l]. destruct (to =? c); [done|apply sublist_nil_l].
Qed.

(** ** The publication ids *)
Lemma sorted_snoc l x : StronglySorted N.lt l -> (forall y, y ∈ l -> y < x) -> StronglySorted N.lt (l ++ [x]).
Proof.
  induction l as [|a l IH]; intros H Hx; cbn [app]; [by repeat constructor|]. inversion H as [|? ? H1 H2]; subst.
  constructor; [apply IH; [done|]; intros y Hy; apply Hx; by right|].
  apply Forall_app. split; [done|]. constructor; [apply Hx; by left|constructor].
Qed.
Lemma in_turn_in {A B} (f : A -> list B) y tr : y ∈ in_turn f tr <-> exists x, x ∈ tr /\ y ∈ f x.
Proof.
  induction tr as [|x tr IH]; cbn [in_turn]; [split; [by intros ?%elem_of_nil|by intros (? & ?%elem_of_nil & _)]|].
  rewrite elem_of_app, IH. split.
  - intros [(z & H1 & H2)|H]; [exists z; split; [by right|done]|exists x; split; [by left|done]].
  - intros (z & [->|H1]%elem_of_cons & H2); [by right|left; eauto].
Qed.
Lemma history_ids h : forall b outs c, N.of_nat (length h) <= two53 -> brun new_broker h = Ret b outs ->
  StronglySorted N.lt (map ev_publication (events (in_turn (b_out c) (trace_of h outs))))
  /\ (forall s p e rs ack, (BPublish s p, BPubl (Some e) rs ack) ∈ trace_of h outs ->
       ev_args e = pu_args p /\ ev_kwargs e = pu_kwargs p)
  /\ forall op out e, (op, out) ∈ trace_of h outs -> MEvent e ∈ b_out c (op, out) -> exists rs ack, out = BPubl (Some e) rs ack.
Proof.
  induction h as [|[o op] h IH] using rev_ind; intros b outs c Hk Hr.
  - injection Hr as <- <-. split; [constructor|]. split; [by intros ? ? ? ? ? ?%elem_of_nil|by intros ? ? ? ?%elem_of_nil].
  - rewrite app_length in Hk. cbn in Hk. rewrite brun_app in Hr. destruct (brun new_broker h) as [b1 o1|] eqn:E1; [|done].
    destruct (reach h b1 o1 ltac:(lia) E1) as (s & _ & Rf & I & Hi). cbn [brun] in Hr.
    destruct (step_refines o _ s op Rf) as (b' & out & s' & Es & T & _ & _); [lia|]. rewrite Es in Hr. injection Hr as <- <-.
    rewrite trace_of_app by (by eapply brun_length). change (trace_of [(o, op)] [out]) with [(op, out)].
    cbn [app]. destruct (IH b1 o1 c ltac:(lia) eq_refl) as (H1 & H2 & H3). split; [|split].
    + cbn [in_turn]. unfold events. rewrite omap_app, map_app.
      assert (Hnew : omap (fun a => match a with MEvent e => Some e | _ => None end) (b_out c (op, out)) = []
        \/ exists e, omap (fun a => match a with MEvent e => Some e | _ => None end) (b_out c (op, out)) = [e] /\ ev_publication e = tb_ids s + 1).
      { unfold b_out. cbn [snd]. inversion T; subst; try (by left).
        1-3: left; by destruct (_ =? c).
        - left. unfold ack_of. destruct (mget _ _) as [|[]| | | | | | | | |]; try done. cbn. by destruct (_ =? c).
        - assert (Ha : omap (fun a => match a with MEvent e => Some e | _ => None end)
            match ack_of p sid (tb_ids s + 1) with Some (a, to) => if to =? c then [a] else [] | None => [] end = []).
          { unfold ack_of. destruct (mget _ _) as [|[]| | | | | | | | |]; try done. cbn. by destruct (_ =? c). }
          rewrite omap_app, Ha, app_nil_r. destruct (bool_decide (c ∈ rs)); [right|by left]. by eexists. }
      destruct Hnew as [->|(e & -> & Hid)]; [by rewrite app_nil_r|]. cbn [map]. rewrite Hid. apply sorted_snoc; [done|].
      intros y (e0 & -> & He0)%elem_of_list_fmap. unfold events in He0. apply elem_of_list_omap in He0 as (a & Ha & Hae).
      destruct a as [| | | | | | | | | | | | |e1| | | | | | | | | |] eqn:Ea; try discriminate Hae.
      injection Hae as ->. apply in_turn_in in Ha as ((op0 & out0) & Hin & Hb).
      destruct (ti_pub_ids _ _ I op0 out0 (ev_publication e0) Hin) as (Hle & _); [|lia].
      destruct (H3 _ _ _ Hin Hb) as (rs & ack & ->). left. by exists e0.
    + intros s0 p e rs ack [[= <- <-]|H]%elem_of_cons; [|by eapply H2]. inversion T; subst. done.
    + intros op0 out0 e [[= -> ->]|H]%elem_of_cons; [|by eapply H3]. unfold b_out. cbn [snd].
      assert (Ha : forall p sid i, MEvent e ∈ match ack_of p sid i with Some (a, to) => if to =? c then [a] else [] | None => [] end -> False).
      { intros p sid i. unfold ack_of. destruct (mget _ _) as [|[]| | | | | | | | |]; try (by intros ?%elem_of_nil).
        destruct (_ =? c); [by intros ?%elem_of_list_singleton|by intros ?%elem_of_nil]. }
      inversion T; subst; try (by intros ?%elem_of_nil).
      1-3: destruct (_ =? c); [by intros ?%elem_of_list_singleton|by intros ?%elem_of_nil].
      * intros Hx. by destruct (Ha _ _ _ Hx).
      * intros [Hx|Hx]%elem_of_app; [|by destruct (Ha _ _ _ Hx)].
        destruct (bool_decide (c ∈ rs)); [|by apply elem_of_nil in Hx]. apply elem_of_list_singleton in Hx. injection Hx as ->. by do 2 eexists.
Qed.
Lemma read_ids honest es c : N.of_nat (length es) <= two53 -> decently honest empty_net es ->
  StronglySorted N.lt (map ev_publication (events (hread c empty_net es))).
Proof.
  intros Hk Hd. destruct (order honest c es Hk Hd) as (k & Hk' & W). destruct (w_pre _ _ _ _ _ _ _ W) as [R _].
  destruct (w_p _ _ _ _ _ _ _ W) as [B BL _ _ _ _ _ _ _]. destruct (history_ids (n_bh (hrun empty_net es)) _ _ c ltac:(lia) B) as (S & _ & _).
  apply (omap_prefix (fun a => match a with MEvent e => Some e | _ => None end)) in R.
  rewrite omap_filter in R by (by intros []). destruct R as [rest R]. unfold events in *. change (trace_of _ _) with (btr (hrun empty_net es)) in S. rewrite R, map_app in S.
  generalize dependent (map ev_publication (omap (fun a => match a with MEvent e => Some e | _ => None end) (hread c empty_net es))).
  intros l S. clear -S. induction l as [|a l IH]; [constructor|]. inversion S as [|? ? H1 H2]; subst.
  apply Forall_app in H2 as [H2 _]. constructor; auto.
Qed.
Lemma passed_payload honest es s c p e : N.of_nat (length es) <= two53 -> decently honest empty_net es ->
  (p, e) ∈ in_turn (passes s c) (btr (hrun empty_net es)) ->
  ev_args e = pu_args p /\ ev_kwargs e = pu_kwargs p.
Proof.
  intros Hk Hd. destruct (order honest c es Hk Hd) as (k & Hk' & W).
  destruct (w_p _ _ _ _ _ _ _ W) as [B BL _ _ _ _ _ _ _]. destruct (history_ids (n_bh (hrun empty_net es)) _ _ c ltac:(lia) B) as (_ & S & _).
  intros ([op out] & Hin & Hp)%in_turn_in. destruct op; try (by apply elem_of_nil in Hp).
  destruct out as [| | | |[e0|] rs ack]; try (by apply elem_of_nil in Hp). cbn in Hp.
  destruct ((sid =? s) && bool_decide (c ∈ rs)); [|by apply elem_of_nil in Hp].
  apply elem_of_list_singleton in Hp. injection Hp as -> ->. by eapply S.
Qed.

(** ** The exact sequences *)
Lemma reads_in_order honest es c : N.of_nat (length es) <= two53 -> decently honest empty_net es ->
  let n := hrun empty_net es in let log := hread c empty_net es in
  List.filter from_broker log `prefix_of` in_turn (b_out c) (btr n)
  /\ List.filter (fun a => negb (from_broker a)) log `prefix_of` in_turn (d_out c) (dtr n)
  /\ forall cl, n_clients n !! c = Some cl ->
       List.filter from_broker (log ++ cl_down cl) = in_turn (b_out c) (btr n)
       /\ List.filter (fun a => negb (from_broker a)) (log ++ cl_down cl) = in_turn (d_out c) (dtr n).
Proof.
  intros Hk Hd n log. destruct (order honest c es Hk Hd) as (k & _ & W). destruct (w_pre _ _ _ _ _ _ _ W) as [R1 R2].
  split; [done|]. split; [done|]. apply (w_read _ _ _ _ _ _ _ W).
Qed.
Lemma sent_in_order honest es c : N.of_nat (length es) <= two53 -> decently honest empty_net es -> honest c ->
  let n := hrun empty_net es in let msgs := sent c empty_net es in
  in_turn (b_in c) (btr n) `prefix_of` List.filter for_broker msgs
  /\ (n_crashed n = [] -> in_turn (d_in c) (dtr n) `prefix_of` List.filter for_dealer msgs)
  /\ forall cl, n_clients n !! c = Some cl ->
       List.filter for_broker msgs = in_turn (b_in c) (btr n) ++ List.filter for_broker (cl_up cl)
       /\ (n_crashed n = [] -> List.filter for_dealer msgs = in_turn (d_in c) (dtr n) ++ List.filter for_dealer (cl_up cl)).
Proof.
  intros Hk Hd Hh n log. destruct (order honest c es Hk Hd) as (k & _ & W). destruct (w_spre _ _ _ _ _ _ _ W Hh) as [R1 R2].
  split; [done|]. split; [done|]. intros cl. by apply (w_sent _ _ _ _ _ _ _ W).
Qed.

(** ** Every event with its publication *)
Lemma of_publisher_app s a b : of_publisher s (a ++ b) = of_publisher s a ++ of_publisher s b.
Proof. unfold of_publisher. by rewrite List.filter_app, map_app. Qed.
Lemma of_publisher_passes s c tr : of_publisher s (in_turn (passed c) tr) = map fst (in_turn (passes s c) tr).
Proof.
  induction tr as [|[op out] tr IH]; [done|]. cbn [in_turn]. rewrite of_publisher_app, map_app, IH. f_equal.
  destruct op; try done. destruct out as [| | | |[e|] rs ack]; try done. cbn. destruct (bool_decide (c ∈ rs)); cbn.
  - unfold of_publisher. cbn. by destruct (sid =? s).
  - by destruct (sid =? s).
Qed.
Lemma history_passed h : forall b outs c, N.of_nat (length h) <= two53 -> brun new_broker h = Ret b outs ->
  map snd (in_turn (passed c) (trace_of h outs)) = events (in_turn (b_out c) (trace_of h outs)).
Proof.
  induction h as [|[o op] h IH] using rev_ind; intros b outs c Hk Hr; [by injection Hr as <- <-|].
  rewrite app_length in Hk. cbn in Hk. rewrite brun_app in Hr. destruct (brun new_broker h) as [b1 o1|] eqn:E1; [|done].
  destruct (reach h b1 o1 ltac:(lia) E1) as (s & _ & Rf & I & Hi). cbn [brun] in Hr.
  destruct (step_refines o _ s op Rf) as (b' & out & s' & Es & T & _ & _); [lia|]. rewrite Es in Hr. injection Hr as <- <-.
  rewrite trace_of_app by (by eapply brun_length). change (trace_of [(o, op)] [out]) with [(op, out)].
  cbn [app in_turn]. unfold events. rewrite map_app, omap_app, (IH b1 o1 c ltac:(lia) eq_refl). f_equal.
  assert (Ha : forall p sid i, omap (fun a => match a with MEvent e => Some e | _ => None end)
    match ack_of p sid i with Some (a, to) => if to =? c then [a] else [] | None => [] end = []).
  { intros p sid i. unfold ack_of. destruct (mget _ _) as [|[]| | | | | | | | |]; try done. cbn. by destruct (_ =? c). }
  unfold b_out. cbn [snd]. inversion T; subst; try done; try (cbn; by destruct (_ =? c)); cbn [passed].
  - cbn [app]. by rewrite Ha.
  - rewrite omap_app, Ha, app_nil_r. by destruct (bool_decide (c ∈ rs)).
Qed.
Lemma matched honest es c : N.of_nat (length es) <= two53 -> decently honest empty_net es ->
  exists l, l `prefix_of` in_turn (passed c) (btr (hrun empty_net es)) /\ map snd l = events (hread c empty_net es)
    /\ (forall s p e, (s, p, e) ∈ l -> ev_args e = pu_args p /\ ev_kwargs e = pu_kwargs p)
    /\ forall s, honest s -> sublist (of_publisher s l) (publishes (sent s empty_net es)).
Proof.
  intros Hk Hd. destruct (order honest c es Hk Hd) as (k & Hk' & W). destruct (w_pre _ _ _ _ _ _ _ W) as [R _].
  destruct (w_p _ _ _ _ _ _ _ W) as [B BL _ _ _ _ _ _ _].
  pose proof (history_passed (n_bh (hrun empty_net es)) _ _ c ltac:(lia) B) as HP.
  destruct (history_ids (n_bh (hrun empty_net es)) _ _ c ltac:(lia) B) as (_ & HQ & _).
  change (trace_of (n_bh _) (n_bouts _)) with (btr (hrun empty_net es)) in HP, HQ.
  apply (omap_prefix (fun a => match a with MEvent e => Some e | _ => None end)) in R.
  rewrite omap_filter in R by (by intros []). fold (events (hread c empty_net es)) in R. destruct R as [rest R].
  unfold events in HP at 1. rewrite R in HP. apply fmap_app_inv in HP as (l & l' & H1 & H2 & H3).
  exists l. split; [rewrite H3; by apply prefix_app_r|]. split; [done|]. split.
  - intros s p e Hin. assert (Hin' : (s, p, e) ∈ in_turn (passed c) (btr (hrun empty_net es))) by (rewrite H3; apply elem_of_app; by left).
    apply in_turn_in in Hin' as ([op out] & Hi & Hp). destruct op; try (by apply elem_of_nil in Hp).
    destruct out as [| | | |[e0|] rs ack]; try (by apply elem_of_nil in Hp). cbn in Hp.
    destruct (bool_decide (c ∈ rs)); [|by apply elem_of_nil in Hp].
    apply elem_of_list_singleton in Hp. injection Hp as -> -> ->. by eapply HQ.
  - intros s Hh. destruct (published_order honest es s c Hk Hd Hh) as [S _]. rewrite <- of_publisher_passes, H3, of_publisher_app in S.
    etrans; [|exact S]. by apply sublist_inserts_r.
Qed.
