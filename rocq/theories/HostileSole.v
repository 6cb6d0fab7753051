(** Calls of procedures nobody asks to share, in a network with hostile
    clients. *)
From Verif Require Import Prelude Value Msg IdGen Types PathMatch Mutex Broker Dealer Session Network.
From Verif Require Import BrokerSpec DealerSpec DealerKind DealerSole.
From Verif Require Import NetworkSpec NetworkProofs NetworkFinal Hostile HostileProofs HostileFinal.

Section Hostile.
Context (honest : N -> Prop).

Lemma h_call_reaches es o x clx call rest c g : N.of_nat (length es) < two53 -> decently honest empty_net es ->
  let n := hrun empty_net es in
  n_crashed n = [] -> never_shared (dtr n) (ca_procedure call) ->
  n_clients n !! x = Some clx -> cl_up clx = MCall call :: rest -> owns (dtr n) c (ca_procedure call) g ->
  exists v, in_registration v = g /\
  forall y cly, n_clients n !! y = Some cly ->
  exists cl', n_clients (hstep n (HNet (NRoute o x))) !! y = Some cl'
    /\ cl_down cl' = cl_down cly ++ (if y =? c then [MInvocation v] else []).
Proof.
  intros Hl Hf n Hcr Hns Hx Hu Ho. assert (Hl' : N.of_nat (length es) <= two53) by lia.
  pose proof (hv_d _ _ _ (hreached honest es Hl' Hf Hcr)) as D. fold n in D.
  destruct (sole_served (n_dh n) o x call (n_dealer n) (n_douts n) c g Hns) as (d & v & E & Ei).
  { pose proof (hd_len _ _ _ _ _ _ _ D). lia. }
  { apply (hd_run _ _ _ _ _ _ _ D). }
  { intros _. apply (hd_pres _ _ _ _ _ _ _ D). by rewrite Hx. }
  { exact Ho. }
  exists v. split; [done|]. intros y cly Hy. cbn [hstep]. rewrite (route_step _ _ _ _ _ _ Hx Hu). cbn [handle].
  unfold call_dealer. rewrite E.
  match goal with |- context [post ?a ?b ?t] => destruct (post_fields a b t) as (cls & -> & Hcls) end.
  cbn [n_clients nset_clients] in *. rewrite taken_lookup, Hcls, Hy.
  destruct (N.eqb_spec y c) as [->|Hne].
  - rewrite !(decide_True (P := c = c)) by done. case_decide; cbn; eexists; (split; [done|]); done.
  - rewrite !(decide_False (P := y = c)) by done. case_decide; cbn; eexists; (split; [done|]); cbn; by rewrite app_nil_r.
Qed.

(** The procedures of an honest client are those it holds. *)
Lemma h_invoked es o x clx call rest c g v cl' clc m : N.of_nat (length es) < two53 -> decently honest empty_net es ->
  let n := hrun empty_net es in
  n_crashed n = [] -> n_clients n !! x = Some clx -> cl_up clx = MCall call :: rest ->
  n_clients n !! c = Some clc -> n_clients (hstep n (HNet (NRoute o x))) !! c = Some cl' ->
  cl_down cl' = cl_down clc ++ [MInvocation v] -> in_registration v = g ->
  registered_under (dtr n) g m -> never_shared (dtr n) (rg_procedure m) ->
  owns (dtr n) c (rg_procedure m) g.
Proof.
  intros Hl Hf n Hcr Hx Hu Hc Hc' Hd <- Hm Hns. assert (Hl' : N.of_nat (length es) <= two53) by lia.
  pose proof (hv_d _ _ _ (hreached honest es Hl' Hf Hcr)) as D. fold n in D.
  cbn [hstep] in Hc'. rewrite (route_step _ _ _ _ _ _ Hx Hu) in Hc'. cbn [handle] in Hc'. unfold call_dealer in Hc'.
  assert (Same : (taken x (n_clients n)) !! c = Some cl' -> False).
  { rewrite taken_lookup, Hc. case_decide; intros E; injection E as <-; cbn in Hd;
      apply (f_equal length) in Hd; rewrite app_length in Hd; cbn in Hd; lia. }
  destruct (dstep o (n_dealer n) (DReceive x (MCall call))) as [d out|w] eqn:E.
  2:{ exfalso. by apply Same. }
  destruct out as [| | |a to]; try (exfalso; by apply Same).
  match goal with H : context [post ?a ?b ?t] |- _ => destruct (post_fields a b t) as (cls & Ep & Hcls); rewrite Ep in H end.
  cbn [n_clients nset_clients] in *. rewrite taken_lookup, Hcls, Hc in Hc'.
  assert (to = c /\ a = MInvocation v) as [-> ->].
  { destruct (decide (c = to)) as [->|Hne].
    - split; [done|]. case_decide; injection Hc' as <-; cbn in Hd; by apply app_inj_tail in Hd as [_ ?].
    - exfalso. case_decide; injection Hc' as <-; cbn in Hd; apply (f_equal length) in Hd; rewrite app_length in Hd; cbn in Hd; lia. }
  eapply (sole_invoked (n_dh n) o x call (n_dealer n) (n_douts n)); [| |exact E|exact Hm|done].
  { pose proof (hd_len _ _ _ _ _ _ _ D). lia. }
  { apply (hd_run _ _ _ _ _ _ _ D). }
Qed.
End Hostile.
