(** What a client session still remembers: the requests without an answer, and
    others. *)
From Verif Require Import Prelude Value Msg Mutex Session SessionSpec SessionLeftSpec SessionFacts SessionProofs SessionEx.

Definition itracks (s : session) (tr : list sevent) : Prop :=
  forall i, i ∈ cs_invocations s <-> invocation_open tr i.

Lemma itracks_same s s' tr e : itracks s tr -> cs_invocations s' = cs_invocations s ->
  (forall m, e <> Got (MInvocation m)) ->
  (forall m, e = Sent (MYield m) -> yes (yi_options m) "progress") -> (forall m, e <> Sent (MError m)) ->
  itracks s' (e :: tr).
Proof.
  intros K E H1 H2 H3 i. rewrite E, (K i). unfold invocation_open. symmetry. apply since_skip.
  - intros (m & -> & _). by eapply H1.
  - intros [(m & -> & _ & H)|(m & -> & _)]; [by apply H, H2|by eapply H3].
Qed.

Lemma send_itracks s tr data m s' out : itracks s tr -> run_prog (send_prog data m) s = (s', out) ->
  itracks s' (match out with Ok _ => [Sent m] | _ => [] end ++ tr).
Proof.
  intros K E. destruct m as [m|m|m|m|m|m|m|m|m|m|m|m|m|m|m|m|m|m|m|m|m|m|m|m];
    cbn [send_prog run_prog write load] in E;
    try (injection E as <- <-; (exact K || (apply itracks_same with s; done))).
  - destruct (negb _); cbn in E; injection E as <- <-; [exact K|]. cbn [app].
    unfold itracks. apply (since_leave (cs_invocations s) _ (er_request m)
      tr (Sent (MError m)) (fun i e => exists x, e = Got (MInvocation x) /\ in_request x = i)
      (fun i _ e => (exists x, e = Sent (MYield x) /\ yi_request x = i /\ ~ yes (yi_options x) "progress")
                    \/ (exists x, e = Sent (MError x) /\ er_request x = i))); [exact K| | |done].
    + by intros y (x & ? & _).
    + intros y. split; [|intros ->; right; by exists m]. intros [(x & ? & _)|(x & E & <-)]; [done|by injection E as ->].
  - destruct (flag _ _); cbn in E; injection E as <- <-; apply itracks_same with s; done.
  - destruct (bool_decide _); cbn in E; injection E as <- <-; [|exact K]. apply itracks_same with s; done.
  - destruct (flag _ _) eqn:F; cbn in E; injection E as <- <-; cbn [app].
    + apply itracks_same with s; try done. intros x Ex. injection Ex as <-. by apply flag_yes.
    + apply flag_no in F.
      unfold itracks. apply (since_leave (cs_invocations s) _ (yi_request m)
        tr (Sent (MYield m)) (fun i e => exists x, e = Got (MInvocation x) /\ in_request x = i)
        (fun i _ e => (exists x, e = Sent (MYield x) /\ yi_request x = i /\ ~ yes (yi_options x) "progress")
                      \/ (exists x, e = Sent (MError x) /\ er_request x = i))); [exact K| | |done].
      * by intros y (x & ? & _).
      * intros y. split; [|intros ->; left; by exists m]. intros [(x & E & <- & _)|(x & ? & _)]; [by injection E as ->|done].
Qed.

Lemma receive_itracks s tr m s' out : itracks s tr -> run_prog (receive_prog m) s = (s', out) ->
  itracks s' (match out with Ok _ => [Got m] | _ => [] end ++ tr).
Proof.
  intros K E.
  assert (Same : (forall x, m <> MInvocation x) -> cs_invocations s' = cs_invocations s ->
    itracks s' (match out with Ok _ => [Got m] | _ => [] end ++ tr)).
  { intros Hm Hs. destruct out as [x|x|x]; cbn [app].
    - apply itracks_same with s; try done. intros x0 E0. injection E0. apply Hm.
    - intros i. rewrite Hs. apply K.
    - intros i. rewrite Hs. apply K. }
  destruct m as [m|m|m|m|m|m|m|m|m|m|m|m|m|m|m|m|m|m|m|m|m|m|m|m];
    try (apply Same; [done|]; cbn [receive_prog run_prog write load load_and_delete] in E;
         repeat (match type of E with
                 | context [if ?b then _ else _] => destruct b
                 | context [match ?b with Some _ => _ | None => _ end] => destruct b
                 end; cbn [run_prog write load load_and_delete] in E);
         injection E as <- <-; done).
  cbn [receive_prog run_prog write load] in E. clear Same.
  destruct (bool_decide _); cbn in E; injection E as <- <-; [|exact K]. cbn [app].
  unfold itracks. apply (since_join (cs_invocations s) _ (in_request m)
      tr (Got (MInvocation m)) (fun i e => exists x, e = Got (MInvocation x) /\ in_request x = i)
      (fun i _ e => (exists x, e = Sent (MYield x) /\ yi_request x = i /\ ~ yes (yi_options x) "progress")
                    \/ (exists x, e = Sent (MError x) /\ er_request x = i))); [exact K| | |done].
  - intros y. split; [|intros ->; by exists m]. intros (x & E & <-). by injection E as ->.
  - intros y _ [(x & ? & _)|(x & ? & _)]; done.
Qed.

Lemma srun_itracks_from h : forall s tr s' outs, itracks s tr -> srun s h = (s', outs) ->
  itracks s' (strace_of h outs ++ tr).
Proof.
  induction h as [|op h IH]; intros s tr s' outs K E; cbn [srun] in E.
  - injection E as <- <-. done.
  - destruct (sstep s op) as [s1 r] eqn:E1. destruct (srun s1 h) as [s2 rs] eqn:E2. injection E as <- <-.
    cbn [strace_of]. rewrite <- app_assoc. apply (IH s1); [|done].
    unfold sstep in E1.
    destruct op as [[data|e|w] m|[m|e|w]|m]; cbn [sop_prog run_prog] in E1; try (injection E1 as <- <-; exact K).
    + pose proof (send_itracks _ _ _ _ _ _ K E1). by destruct r.
    + pose proof (receive_itracks _ _ _ _ _ K E1). by destruct r.
    + pose proof (receive_itracks _ _ _ _ _ K E1). by destruct r.
Qed.
Lemma srun_itracks h s outs : srun new_session h = (s, outs) -> itracks s (strace_of h outs).
Proof.
  intros E. rewrite <- (app_nil_r (strace_of h outs)). eapply srun_itracks_from; [|exact E].
  intros i. cbn. set_solver.
Qed.

Lemma left_open h s outs : srun new_session h = (s, outs) -> let tr := strace_of h outs in
  (forall r, r ∈ cs_calls s <-> call_open tr r)
  /\ (forall r, r ∈ cs_registers s <-> register_open tr r)
  /\ (forall r, r ∈ cs_publishes s <-> publish_open tr r)
  /\ (forall i, i ∈ cs_invocations s <-> invocation_open tr i)
  /\ (forall g, g ∈ cs_registrations s <-> registered_at tr g)
  /\ (forall g, g ∈ cs_subscriptions s <-> subscribed_at tr g).
Proof.
  intros E tr. destruct (srun_tracks _ _ _ E) as [K1 K2 K3 K4 K5 K6 K7 K8]. pose proof (srun_itracks _ _ _ E). done.
Qed.

(** The other three: answered by an ERROR or not at all. *)
Lemma left_asked h s outs : srun new_session h = (s, outs) -> let tr := strace_of h outs in
  (forall r, r ∈ cs_subscribes s <-> subscribe_asked tr r)
  /\ (forall r g, cs_unregisters s !! r = Some g <-> unregister_asked tr r g)
  /\ (forall r g, cs_unsubscribes s !! r = Some g <-> unsubscribe_asked tr r g).
Proof. intros E tr. destruct (srun_tracks _ _ _ E) as [K1 K2 K3 K4 K5 K6 K7 K8]. done. Qed.

Lemma left_none h s outs : srun new_session h = (s, outs) -> let tr := strace_of h outs in
  nothing_open tr -> (forall m, Sent m ∈ tr -> ~ kept_request m) -> s = new_session.
Proof.
  intros E tr [N1 N2 N3 N4 N5 N6 _ _ _] Hn. destruct (left_open _ _ _ E) as (K1 & K2 & K3 & K4 & K5 & K6).
  destruct (left_asked _ _ _ E) as (K7 & K8 & K9). fold tr in K1, K2, K3, K4, K5, K6, K7, K8, K9.
  assert (Since : forall (st : sevent -> Prop) en, (forall e, st e -> e ∉ tr) -> ~ since st en tr).
  { clear. clearbody tr. intros st en H. induction tr as [|e tr IH]; [by intros []|]. intros [Hs|[_ Hs]].
    - apply (H e Hs). by left.
    - apply IH; [|done]. intros e' He Hin. apply (H e' He). by right. }
  destruct s as [a b c d e f g i j]. cbn [cs_calls cs_registers cs_registrations cs_invocations cs_unregisters cs_publishes cs_subscribes cs_subscriptions cs_unsubscribes] in *.
  assert (a = ∅) as -> by (apply elem_of_equiv_empty_L; intros x; rewrite K1; apply N1).
  assert (b = ∅) as -> by (apply elem_of_equiv_empty_L; intros x; rewrite K2; apply N2).
  assert (f = ∅) as -> by (apply elem_of_equiv_empty_L; intros x; rewrite K3; apply N3).
  assert (d = ∅) as -> by (apply elem_of_equiv_empty_L; intros x; rewrite K4; apply N4).
  assert (c = ∅) as -> by (apply elem_of_equiv_empty_L; intros x; rewrite K5; apply N5).
  assert (i = ∅) as -> by (apply elem_of_equiv_empty_L; intros x; rewrite K6; apply N6).
  assert (g = ∅) as ->.
  { apply elem_of_equiv_empty_L. intros x. rewrite K7. apply Since. intros e0 (m & -> & _) Hin. by apply (Hn _ Hin). }
  assert (e = ∅) as ->.
  { apply map_empty. intros x. destruct (e !! x) as [y|] eqn:Ey; [|done]. exfalso. apply K8 in Ey. revert Ey.
    apply Since. intros e0 (m & -> & _) Hin. by apply (Hn _ Hin). }
  assert (j = ∅) as ->.
  { apply map_empty. intros x. destruct (j !! x) as [y|] eqn:Ey; [|done]. exfalso. apply K9 in Ey. revert Ey.
    apply Since. intros e0 (m & -> & _) Hin. by apply (Hn _ Hin). }
  done.
Qed.

(** ** Growing without limit *)

Definition cycle (k : N) : list sop :=
  [send (c_subscribe (4 * k + 1)); recv (c_subscribed (4 * k + 1) 7);
   send (c_unsubscribe (4 * k + 2) 7); recv (c_unsubscribed (4 * k + 2));
   send (c_register (4 * k + 3)); recv (c_registered (4 * k + 3) 9);
   send (c_unregister (4 * k + 4) 9); recv (c_unregistered (4 * k + 4))].
Definition cycle_events (k : N) : list sevent :=
  [Got (c_unregistered (4 * k + 4)); Sent (c_unregister (4 * k + 4) 9);
   Got (c_registered (4 * k + 3) 9); Sent (c_register (4 * k + 3));
   Got (c_unsubscribed (4 * k + 2)); Sent (c_unsubscribe (4 * k + 2) 7);
   Got (c_subscribed (4 * k + 1) 7); Sent (c_subscribe (4 * k + 1))].
Fixpoint cycles (k : N) (n : nat) : list sop :=
  match n with O => [] | S n' => cycle k ++ cycles (k + 1) n' end.

Definition kept (U : gmap N N) (S : gset N) (V : gmap N N) : session := Session ∅ ∅ ∅ ∅ U ∅ S ∅ V.
Lemma union_back (x : N) : ({[x]} ∪ ∅) ∖ {[x]} = (∅ : gset N).
Proof. set_solver. Qed.
Lemma in_union (x : N) (X : gset N) : bool_decide (x ∈ {[x]} ∪ X) = true.
Proof. apply bool_decide_eq_true_2. set_solver. Qed.

Lemma cycle_run U S V k : exists outs, srun (kept U S V) (cycle k)
  = (kept (<[4 * k + 4 := 9]> U) ({[4 * k + 1]} ∪ S) (<[4 * k + 2 := 7]> V), outs)
  /\ strace_of (cycle k) outs = cycle_events k.
Proof.
  eexists. split.
  - unfold cycle, kept. cbn [srun].
    repeat (unfold sstep at 1; cbn [sop_prog send recv bytes send_prog receive_prog c_subscribe c_subscribed c_unsubscribe c_unsubscribed
      c_register c_registered c_unregister c_unregistered run_prog write load load_and_delete
      su_request sd_request sd_subscription us_request us_subscription ud_request rg_request rd_request rd_registration
      ur_request ur_registration un_request new_subscribe
      cset_subscribes cset_subscriptions cset_unsubscribes cset_registers cset_registrations cset_unregisters
      cs_calls cs_registers cs_registrations cs_invocations cs_unregisters cs_publishes cs_subscribes cs_subscriptions cs_unsubscribes];
      rewrite ?in_union, ?lookup_insert, ?union_back; cbn [run_prog write load load_and_delete]).
    cbn [cset_subscribes cset_subscriptions cset_unsubscribes cset_registers cset_registrations cset_unregisters
      cs_calls cs_registers cs_registrations cs_invocations cs_unregisters cs_publishes cs_subscribes cs_subscriptions cs_unsubscribes].
    rewrite in_union, union_back. reflexivity.
  - reflexivity.
Qed.

(** The requests of one cycle are answered in it. *)
Ltac closing N :=
  intros H; repeat (let Hn := fresh "Hn" in destruct H as [(m & E & X)|[Hn H]];
    [first [discriminate E | injection E as <-; cbn in X; subst;
       match goal with Hn : ~ _ |- _ => apply Hn; left; by eexists end
       | injection E as <-; cbn in X; subst;
       match goal with Hn : ~ _ |- _ => apply Hn; by (eexists; split; [reflexivity|left; eexists]) end]|]);
  by apply N in H.
Lemma cycle_nothing k tr : nothing_open tr -> nothing_open (cycle_events k ++ tr).
Proof.
  intros [N1 N2 N3 N4 N5 N6 N7 N8 N9].
  assert (Skip : forall st en, ~ since st en tr -> (forall e, e ∈ cycle_events k -> ~ st e) ->
    ~ since st en (cycle_events k ++ tr)).
  { intros st en Hn Hs. by apply since_app_not; [|apply Forall_forall]. }
  assert (In : forall e, e ∈ cycle_events k -> (forall c, e <> Sent (MCall c)) /\ (forall c, e <> Sent (MPublish c))
    /\ (forall c, e <> Got (MInvocation c))).
  { intros e He. unfold cycle_events in He. repeat (apply elem_of_cons in He as [->|He]; [done|]). by apply elem_of_nil in He. }
  constructor; intros r.
  - apply Skip; [apply N1|]. intros e He (m & -> & _). destruct (In _ He) as (A & B & C). (by eapply A) || (by eapply B) || (by eapply C).
  - unfold register_open. cbn [app cycle_events since]. closing N2.
  - apply Skip; [apply N3|]. intros e He (m & -> & _). destruct (In _ He) as (A & B & C). (by eapply A) || (by eapply B) || (by eapply C).
  - apply Skip; [apply N4|]. intros e He (m & -> & _). destruct (In _ He) as (A & B & C). (by eapply A) || (by eapply B) || (by eapply C).
  - unfold registered_at. cbn [app cycle_events since]. closing N5.
  - unfold subscribed_at. cbn [app cycle_events since]. closing N6.
  - unfold subscribe_open. cbn [app cycle_events since]. closing N7.
  - unfold unregister_open. cbn [app cycle_events since]. closing N8.
  - unfold unsubscribe_open. cbn [app cycle_events since]. closing N9.
Qed.

Lemma cycles_run n : forall k U S V tr, nothing_open tr ->
  (forall x, 4 * k < x -> U !! x = None /\ x ∉ S /\ V !! x = None) ->
  exists U' S' V' outs, srun (kept U S V) (cycles k n) = (kept U' S' V', outs)
    /\ size U' = (size U + n)%nat /\ size S' = (size S + n)%nat /\ size V' = (size V + n)%nat
    /\ nothing_open (strace_of (cycles k n) outs ++ tr).
Proof.
  induction n as [|n IH]; intros k U S V tr Ht Hf.
  { exists U, S, V, []. repeat split; try lia; apply Ht. }
  destruct (cycle_run U S V k) as (o1 & E1 & T1).
  destruct (IH (k + 1) (<[4 * k + 4 := 9]> U) ({[4 * k + 1]} ∪ S) (<[4 * k + 2 := 7]> V) (cycle_events k ++ tr))
    as (U' & S' & V' & o2 & E2 & Z1 & Z2 & Z3 & Hn).
  { by apply cycle_nothing. }
  { intros x Hx. destruct (Hf x ltac:(lia)) as (F1 & F2 & F3).
    rewrite !lookup_insert_ne by lia. split; [done|]. split; [|done].
    apply not_elem_of_union. split; [|done]. rewrite elem_of_singleton. lia. }
  exists U', S', V', (o1 ++ o2). cbn [cycles]. split; [by eapply srun_app|].
  destruct (Hf (4 * k + 4) ltac:(lia)) as (F1 & _ & _). destruct (Hf (4 * k + 1) ltac:(lia)) as (_ & F2 & _).
  destruct (Hf (4 * k + 2) ltac:(lia)) as (_ & _ & F3).
  rewrite Z1, Z2, Z3, !map_size_insert_None by done.
  rewrite size_union by set_solver. rewrite size_singleton.
  split; [lia|]. split; [lia|]. split; [lia|].
  rewrite strace_of_app by (by eapply srun_length). rewrite <- app_assoc, T1. exact Hn.
Qed.

Lemma nothing_new : nothing_open [].
Proof. constructor; by intros r []. Qed.
Lemma left_growing n : exists h s outs, srun new_session h = (s, outs) /\ nothing_open (strace_of h outs)
  /\ size (cs_subscribes s) = n /\ size (cs_unregisters s) = n /\ size (cs_unsubscribes s) = n.
Proof.
  destruct (cycles_run n 0 ∅ ∅ ∅ [] nothing_new) as (U & S & V & outs & E & Z1 & Z2 & Z3 & Hn); [done|].
  exists (cycles 0 n), (kept U S V), outs. rewrite app_nil_r in Hn. split; [exact E|]. split; [done|].
  cbn [kept cs_subscribes cs_unregisters cs_unsubscribes]. rewrite Z1, Z2, Z3, map_size_empty, size_empty. done.
Qed.
