(** Calls that are not answered. *)
From Verif Require Import Prelude Value Msg IdGen Types PathMatch Mutex Broker Dealer Session Network.
From Verif Require Import BrokerSpec DealerSpec DealerKind DealerFacts DealerCases DealerCalls DealerRegs DealerSim DealerStep DealerProofs DealerPolite DealerKindProofs HostileDealer DealerSole NetworkSpec NetworkProofs.
From Verif Require Import Hostile HostileStep HostileFinal HostileOriginSpec HostileOrigin HostileOrderSpec HostileOrder HostileRestSpec HostileRest HostileCalleeSpec.

Lemma open_split tr i c r rp : open_inv tr i c r rp ->
  exists e a b, tr = a ++ e :: b /\ opens e b i c r rp /\ forall x, x ∈ a -> ~ closes x i rp.
Proof.
  induction tr as [|e tr IH]; [done|]. cbn [open_inv]. intros [H|[H Hn]].
  - exists e, [], tr. split; [done|]. split; [done|]. by intros x ?%elem_of_nil.
  - destruct (IH H) as (e' & a & b & -> & H' & Ha). exists e', (e :: a), b. split; [done|]. split; [done|].
    intros x [->|Hx]%elem_of_cons; [done|by apply Ha].
Qed.
Lemma once {A B} (f : A -> list B) r a e b : forall a' e' b', NoDup (in_turn f (a ++ e :: b)) -> a ++ e :: b = a' ++ e' :: b' ->
  r ∈ f e -> r ∈ f e' -> a = a' /\ e = e'.
Proof.
  assert (D : forall (l : list A) x, NoDup (in_turn f l ++ f x) -> r ∈ f x -> forall y, y ∈ l -> r ∉ f y).
  { intros l x Hn Hx y Hy Hr. apply NoDup_app in Hn as (_ & Hn & _). apply (Hn r); [|done]. apply in_turn_in. by exists y. }
  induction a as [|x a IH]; intros a' e' b' Hn E He He'; destruct a' as [|x' a']; cbn [app in_turn] in *.
  - by injection E as -> _.
  - injection E as -> E. exfalso. apply (D _ _ Hn He e'); [|done]. rewrite E. apply elem_of_app. right. by left.
  - injection E as -> E. exfalso. apply (D _ _ Hn He' e); [|done]. apply elem_of_app. right. by left.
  - injection E as -> E. apply NoDup_app in Hn as (Hn & _ & _). destruct (IH _ _ _ Hn E He He') as [-> ->]. done.
Qed.

(** ** The trace *)
Lemma later_run es : forall E n k, pinv E n k k -> N.of_nat (k + length es) <= two53 -> (forall e, e ∈ es -> e ∈ E) -> later n (hrun n es).
Proof.
  induction es as [|e es IH]; intros E n k P Hk He; cbn [hrun length] in *; [by apply later_same|].
  destruct (pinv_step E n k e P ltac:(lia)) as (P1 & L & _); [apply He; by left|].
  eapply later_trans; [exact L|]. apply (IH E _ (S k)); [done|lia|]. intros x Hx. apply He. by right.
Qed.
Lemma later_app es1 es2 : N.of_nat (length (es1 ++ es2)) <= two53 -> later (hrun empty_net es1) (hrun empty_net (es1 ++ es2)).
Proof.
  intros Hk. rewrite app_length in Hk. rewrite hrun_app. 
  assert (P : pinv (es1 ++ es2) (hrun empty_net es1) (length es1) (length es1)).
  { enough (K : forall fs n k, pinv (es1 ++ es2) n k k -> N.of_nat (k + length fs) <= two53 -> (forall e, e ∈ fs -> e ∈ es1 ++ es2) ->
      pinv (es1 ++ es2) (hrun n fs) (k + length fs) (k + length fs)).
    { apply (K es1 empty_net 0%nat); [apply pinv_empty|lia|]. intros e He. apply elem_of_app. by left. }
    induction fs as [|e fs IH]; intros n k P Hb He; [by rewrite Nat.add_0_r|]. cbn [length] in *.
    destruct (pinv_step _ n k e P ltac:(lia)) as (P1 & _ & _); [apply He; by left|]. cbn [hrun].
    replace (k + S (length fs))%nat with (S k + length fs)%nat by lia. apply IH; [done|lia|]. intros x Hx. apply He. by right. }
  eapply later_run; [exact P|lia|]. intros e He. apply elem_of_app. by right.
Qed.
Lemma decently_app h es1 es2 : forall n, decently h n (es1 ++ es2) -> decently h n es1 /\ decently h (hrun n es1) es2.
Proof. induction es1 as [|e es1 IH]; intros n; cbn; [done|]. intros [H1 H2]. destruct (IH _ H2). done. Qed.
Lemma sent_app c es1 es2 : forall n, sent c n (es1 ++ es2) = sent c n es1 ++ sent c (hrun n es1) es2.
Proof. induction es1 as [|e es1 IH]; intros n; cbn; [done|]. by rewrite IH, app_assoc. Qed.

(** ** The calls of a client *)
Definition calls_in (c : N) (x : dop * dout) : list N :=
  match fst x with DReceive s (MCall m) => if s =? c then [ca_request m] else [] | _ => [] end.
Lemma sends_call s sh m : exists s', sstep s (SSend (Ok sh) (MCall m)) = (s', Ok (SData sh)).
Proof. by eexists. Qed.
Lemma called_sent c es : forall n, hcalled c n es = map ca_request (calls (sent c n es)).
Proof.
  induction es as [|e es IH]; intros n; [done|]. cbn [hcalled sent]. unfold calls. rewrite omap_app, map_app. fold (calls (sent c (hstep n e) es)).
  rewrite IH. f_equal. destruct e as [e|]; [|done]. destruct e as [| |x m| | |]; try done. cbn [hcalls makes_call sends].
  destruct m; try (destruct (x =? c)%N, (n_clients n !! x); try done; destruct (sstep _ _) as [? []]; done).
Qed.
Lemma calls_in_turn c tr : in_turn (calls_in c) tr = map ca_request (calls (in_turn (d_in c) tr)).
Proof.
  induction tr as [|[op out] tr IH]; [done|]. cbn [in_turn]. unfold calls. rewrite omap_app, map_app. fold (calls (in_turn (d_in c) tr)).
  rewrite IH. f_equal. unfold calls_in, d_in. cbn [fst]. destruct op as [| | | |s m]; try done. destruct m; try (by destruct (s =? c)).
Qed.
Lemma calls_once honest es c : N.of_nat (length es) <= two53 -> decently honest empty_net es ->
  n_crashed (hrun empty_net es) = [] -> honest c -> NoDup (in_turn (calls_in c) (dtr (hrun empty_net es))).
Proof.
  intros Hk Hd Hcr Hh. destruct (h_answered_once honest es c Hk Hd Hcr Hh) as [Hn _].
  destruct (sent_in_order honest es c Hk Hd Hh) as (_ & S & _). specialize (S Hcr). rewrite calls_in_turn.
  rewrite called_sent in Hn. unfold calls in *.
  apply (omap_prefix (fun a => match a with MCall p => Some p | _ => None end)) in S. rewrite (omap_filter _ for_dealer) in S by (by intros []).
  destruct S as [rest S]. rewrite S, map_app in Hn. by apply NoDup_app in Hn as [? _].
Qed.

(** ** The properties *)
Lemma unanswered honest es c cl r : N.of_nat (length es) <= two53 -> decently honest empty_net es ->
  let n := hrun empty_net es in
  n_crashed n = [] -> at_rest n -> honest c -> n_clients n !! c = Some cl -> r ∈ hcalled c empty_net es ->
  r ∈ answer_ids (hread c empty_net es)
  \/ exists call out, (DReceive c (MCall call), out) ∈ dtr n /\ ca_request call = r
     /\ match out with
        | DMsg (MInvocation v) k =>
            open_inv (dtr n) (in_request v) c r (says (ca_options call) "receive_progress")
            /\ (is_Some (n_clients n !! k) -> MInvocation v ∈ hread k empty_net es)
        | DErr _ => True
        | _ => False
        end.
Proof.
  intros Hk Hd n Hcr Hr Hh Hc Hin. destruct (Hr _ _ Hc) as [U D].
  pose proof (h_accounted honest es c cl r Hk Hd Hcr Hh Hc Hin) as A. rewrite U, D in A. cbn in A. fold n in A.
  destruct A as [[A _]|[_ [[A _]|[_ [[A _]|[_ [[A _]|[_ []]]]]]]]]; [by apply elem_of_nil in A| |by apply elem_of_nil in A|by left].
  right. destruct A as (i & rp & A). destruct (open_called _ _ _ _ _ A) as (m & out & H1 & H2 & H3 & H4). exists m, out.
  split; [done|]. split; [done|]. destruct out as [e| |x|a k]; try done. destruct a; try done. subst i rp. split; [done|].
  intros [clk Hclk]. destruct (arrived honest es k clk Hk Hd Hr Hclk) as (_ & R & _). fold n in R.
  assert (K : MInvocation m0 ∈ in_turn (d_out k) (dtr n)).
  { apply in_turn_in. eexists. split; [exact H1|]. unfold d_out. cbn. rewrite N.eqb_refl. by left. }
  rewrite <- R in K. by apply elem_of_list_In, filter_In in K as [K%elem_of_list_In _].
Qed.

Lemma callee_suffices honest es1 k m es2 c cl call v before : let es := es1 ++ HNet (NSend k m) :: es2 in let n := hrun empty_net es in
  N.of_nat (length es) <= two53 -> decently honest empty_net es -> n_crashed n = [] -> at_rest n ->
  honest c -> n_clients n !! c = Some cl -> honest k -> is_Some (n_clients (hrun empty_net es1) !! k) -> is_Some (n_clients n !! k) ->
  dealt (hrun empty_net es1) before c (MCall call) (MInvocation v) k -> last_answer m (in_request v) ->
  ca_request call ∈ answer_ids (hread c empty_net es).
Proof.
  intros es n Hk Hd Hcr Hr Hh Hc Hhk [clk1 Hk1] [clk Hkn] [after Ht1] Hm. set (r := ca_request call).
  destruct (later_app es1 (HNet (NSend k m) :: es2) Hk) as [t Ht]. fold es n in Ht.
  destruct (decently_app honest es1 (HNet (NSend k m) :: es2) _ Hd) as [Hd1 _].
  assert (Hk' : N.of_nat (length es1) <= two53) by (subst es; rewrite app_length in Hk; lia).
  assert (Hcr1 : n_crashed (hrun empty_net es1) = []).
  { subst n es. rewrite hrun_app in Hcr. eapply crashes_nil; [apply crashes_hrun|exact Hcr]. }
  assert (Ht' : dtr n = (t ++ after) ++ (DReceive c (MCall call), DMsg (MInvocation v) k) :: before) by (by rewrite Ht, Ht1, app_assoc).
  assert (In1 : r ∈ in_turn (calls_in c) (dtr n)).
  { apply in_turn_in. eexists. split; [rewrite Ht'; apply elem_of_app; right; by left|]. unfold calls_in. cbn. rewrite N.eqb_refl. by left. }
  assert (Hin : r ∈ hcalled c empty_net es).
  { rewrite called_sent. rewrite calls_in_turn in In1. destruct (sent_in_order honest es c Hk Hd Hh) as (_ & S & _). specialize (S Hcr).
    unfold calls in *. apply (omap_prefix (fun a => match a with MCall p => Some p | _ => None end)) in S.
    rewrite (omap_filter _ for_dealer) in S by (by intros []). destruct S as [rest S]. fold n in S. rewrite S, map_app. apply elem_of_app. by left. }
  assert (Hfor : for_dealer m = true) by (by destruct m).
  assert (Hs : sends k (hrun empty_net es1) (HNet (NSend k m)) = [m]).
  { cbn. rewrite N.eqb_refl, Hk1. destruct m; try done; cbn in Hm.
    - destruct Hm as [_ Hm]. cbn. rewrite Hm. done.
    - cbn. by destruct (flag _ _). }
  assert (Hmt : exists out, (DReceive k m, out) ∈ t).
  { destruct (Hr _ _ Hkn) as [U _]. destruct (sent_in_order honest es k Hk Hd Hhk) as (_ & _ & S). destruct (S _ Hkn) as [_ S2].
    specialize (S2 Hcr). rewrite U in S2. cbn [List.filter] in S2. rewrite app_nil_r in S2. fold n in S2.
    destruct (sent_in_order honest es1 k Hk' Hd1 Hhk) as (_ & S1 & _). destruct (S1 Hcr1) as [rest1 E1].
    subst es. rewrite sent_app in S2. cbn [sent] in S2. rewrite Hs, !List.filter_app, E1 in S2. cbn [List.filter] in S2. rewrite Hfor in S2.
    rewrite Ht, in_turn_app, <- app_assoc in S2. apply app_inv_head in S2.
    assert (K : m ∈ in_turn (d_in k) t) by (rewrite <- S2; apply elem_of_app; right; by left).
    apply in_turn_in in K as ([op out] & K1 & K2). unfold d_in in K2. cbn in K2. destruct op as [| | | |s m']; try by apply elem_of_nil in K2.
    destruct (N.eqb_spec s k) as [->|]; [|by apply elem_of_nil in K2]. apply elem_of_list_singleton in K2 as ->. by exists out. }
  destruct (Hr _ _ Hc) as [U D].
  pose proof (h_accounted honest es c cl r Hk Hd Hcr Hh Hc Hin) as A. rewrite U, D in A. cbn in A. fold n in A.
  destruct A as [[A _]|[_ [[A _]|[_ [[A _]|[_ [[A _]|[_ []]]]]]]]]; [by apply elem_of_nil in A| |by apply elem_of_nil in A|done].
  exfalso. destruct A as (i & rp & A). destruct (open_split _ _ _ _ _ A) as (e & a & b & E & O & Hno).
  pose proof (calls_once honest es c Hk Hd Hcr Hh) as Hn. fold n in Hn. rewrite Ht' in Hn, E.
  assert (He : r ∈ calls_in c e).
  { destruct e as [op out]. destruct op as [| | | |s m']; try done. destruct m'; try done. unfold calls_in. cbn [fst].
    destruct out as [| | |a0 ?]; try done; [|destruct a0; try done]; destruct O as (-> & <- & _); rewrite N.eqb_refl; by left. }
  destruct (once (calls_in c) r _ _ _ a e b Hn E) as [<- <-]; [unfold calls_in; cbn; rewrite N.eqb_refl; by left|done|].
  cbn in O. destruct O as (_ & _ & _ & _ & <-). destruct Hmt as [out Hmt].
  apply (Hno (DReceive k m, out)); [apply elem_of_app; by left|].
  destruct m; try done. cbn in Hm |- *. destruct Hm as [-> ->]. by rewrite andb_false_r.
Qed.

(** ** If nobody asks to share *)
Lemma unshared_called h o sid m d0 d outs e : (forall p, never_shared (dtrace_of h outs) p) -> N.of_nat (length h) < two53 ->
  drun new_dealer h = Ret d0 outs -> dstep o d0 (DReceive sid (MCall m)) <> Ret d (DErr e).
Proof.
  intros Ha Hb R H. pose proof (run_sinv _ _ _ R) as S. cbn [dstep d_receive_message] in H.
  destruct (call_cases _ _ _ _ _ _ H) as
    [(_ & E & _)|(l & g & cl & nx & i & who & F & L & E & P & A & _ & [[Hs _]|(s & _ & E')])]; [discriminate| |discriminate].
  apply pick_in in P. pose proof (run_sole (g_proc g) h d0 outs ltac:(lia) R (Ha _)) as V.
  pose proof (so_live _ _ _ V _ _ L eq_refl E) as Q. destruct (so_proc _ _ _ V _ _ Q L) as (x & H1 & H2 & H3 & H4).
  rewrite H3 in P. apply elem_of_list_singleton in P as ->.
  assert (is_Some (d_sessions d0 !! x)) as [sb Hx].
  { apply (si_dom _ _ S). unfold books in H4. by destruct (d_by_session d0 !! x). }
  congruence.
Qed.
Lemma unshared_errs h : forall d outs, (forall p, never_shared (dtrace_of h outs) p) -> N.of_nat (length h) <= two53 ->
  drun new_dealer h = Ret d outs -> forall s m e, (DReceive s (MCall m), DErr e) ∉ dtrace_of h outs.
Proof.
  induction h as [|[o op] h IH] using rev_ind; intros d outs Ha Hb H s m e.
  { injection H as <- <-. by intros ?%elem_of_nil. }
  rewrite app_length in Hb. cbn [length] in Hb.
  destruct (drun_snoc_inv _ _ _ _ _ _ H) as (d1 & o1 & out & H1 & H2 & ->).
  rewrite dtrace_snoc in Ha |- * by (by eapply drun_length).
  assert (Ha1 : forall p, never_shared (dtrace_of h o1) p).
  { intros p s' m' a to Hin. apply (Ha p s' m' a to). by right. }
  intros [E|K]%elem_of_cons; [|by apply (IH d1 o1 Ha1 ltac:(lia) H1 s m e)]. injection E as <- <-.
  by apply (unshared_called h o s m d1 d o1 e Ha1 ltac:(lia) H1).
Qed.
Lemma unanswered_unshared honest es c cl r : N.of_nat (length es) <= two53 -> decently honest empty_net es ->
  let n := hrun empty_net es in
  n_crashed n = [] -> at_rest n -> honest c -> n_clients n !! c = Some cl -> r ∈ hcalled c empty_net es ->
  (forall p, never_shared (dtr n) p) ->
  r ∈ answer_ids (hread c empty_net es)
  \/ exists call v k, (DReceive c (MCall call), DMsg (MInvocation v) k) ∈ dtr n /\ ca_request call = r
     /\ open_inv (dtr n) (in_request v) c r (says (ca_options call) "receive_progress")
     /\ (is_Some (n_clients n !! k) -> MInvocation v ∈ hread k empty_net es).
Proof.
  intros Hk Hd n Hcr Hr Hh Hc Hin Ha. destruct (unanswered honest es c cl r Hk Hd Hcr Hr Hh Hc Hin) as [A|(call & out & H1 & H2 & H3)]; [by left|].
  right. fold n in H1, H3. pose proof (pinv_at es Hk) as P. fold n in P. pose proof (pi_dlen _ _ _ _ P).
  destruct out as [e| |x|a k]; try done.
  - exfalso. revert H1. apply (unshared_errs (n_dh n) (n_dealer n) (n_douts n)); [done|lia|apply (pi_d _ _ _ _ P)].
  - destruct a; try done. destruct H3. by eexists _, _, _.
Qed.
