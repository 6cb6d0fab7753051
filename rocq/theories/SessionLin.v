(** With one receiver at a time, a session is linearizable. *)
From Verif Require Import Prelude Value Msg Mutex Session SessionSpec SessionProofs SessionHistory.

(** An effect still to come of a call that has already been given its instant. *)
Inductive pend : Type := Nothing | AddUnsub (r g : N) | AddReg (g : N) | DelReg (g : N).
Definition apply (e : pend) (s : session) : session :=
  match e with
  | Nothing => s
  | AddUnsub r g => cset_unsubscribes (<[r := g]> (cs_unsubscribes s)) s
  | AddReg g => cset_registrations ({[g]} ∪ cs_registrations s) s
  | DelReg g => cset_registrations (cs_registrations s ∖ {[g]}) s
  end.
Fixpoint applies (es : list pend) (s : session) : session :=
  match es with [] => s | e :: es' => apply e (applies es' s) end.

Definition compat (e e' : pend) : Prop :=
  match e, e' with
  | AddUnsub r _, AddUnsub r' _ => r <> r'
  | (AddReg _ | DelReg _), (AddReg _ | DelReg _) => False
  | _, _ => True
  end.
Lemma compat_sym e e' : compat e e' -> compat e' e.
Proof. destruct e, e'; cbn; congruence. Qed.
Lemma apply_comm e e' s : compat e e' -> apply e (apply e' s) = apply e' (apply e s).
Proof.
  destruct s, e, e'; cbn; intros C; try done;
    unfold cset_unsubscribes, cset_registrations; cbn; try done.
  by rewrite insert_commute.
Qed.
Lemma applies_in es e s : (forall t e', es !! t = Some e' -> compat e e') ->
  applies es (apply e s) = apply e (applies es s).
Proof.
  induction es as [|x es IH]; intros C; [done|]. cbn [applies].
  rewrite IH by (intros t e' H; exact (C (S t) e' H)).
  apply apply_comm. apply compat_sym. exact (C 0%nat x eq_refl).
Qed.
Lemma applies_put es t e s : es !! t = Some Nothing ->
  (forall t' e', t' <> t -> es !! t' = Some e' -> compat e e') ->
  applies (<[t := e]> es) s = apply e (applies es s).
Proof.
  revert t. induction es as [|x es IH]; intros [|t] H C; [done..| |]; cbn in H |- *.
  - injection H as ->. done.
  - change (apply x (applies (<[t := e]> es) s) = apply e (apply x (applies es s))).
    rewrite (IH t H) by (intros t' e' Hn Hl; apply (C (S t') e'); [lia|done]).
    apply apply_comm, compat_sym. apply (C 0%nat); [lia|done].
Qed.

Definition passes (f : session -> session * sprog) (e : pend) : Prop :=
  forall s, f (apply e s) = (apply e (f s).1, (f s).2).
Lemma passes_all f es s : (forall t e, es !! t = Some e -> passes f e) ->
  f (applies es s) = (applies es (f s).1, (f s).2).
Proof.
  induction es as [|x es IH]; intros C; cbn [applies]; [by destruct (f s)|].
  rewrite (C 0%nat x eq_refl). rewrite IH by (intros t e H; exact (C (S t) e H)). done.
Qed.

(** The effect [e] belongs to a call [op]. *)
Definition owned (op : sop) (e : pend) : Prop :=
  match e with
  | Nothing => True
  | AddUnsub r _ => about op r /\ ~ receiving op
  | AddReg _ | DelReg _ => receiving op
  end.
(** Calls that may be underway together. *)
Definition apart (op op' : sop) : Prop :=
  ~ (receiving op /\ receiving op') /\ forall r, about op r -> about op' r -> False.
Lemma apart_compat op op' e e' : apart op op' -> owned op e -> owned op' e' -> compat e e'.
Proof.
  intros [A B] O O'. destruct e, e'; cbn in *; try tauto.
  intros ->. destruct O as [O _], O' as [O' _]. by apply (B r0).
Qed.

Ltac unset := unfold cset_calls, cset_registers, cset_registrations, cset_invocations, cset_unregisters,
  cset_publishes, cset_subscribes, cset_subscriptions, cset_unsubscribes in *.

Lemma send_passes data m f e : send_prog data m = PAct f -> passes f e.
Proof.
  intros H. destruct m; cbn [send_prog] in H; unfold write, load in H; try discriminate;
    repeat match type of H with context [if ?b then _ else _] => destruct b end;
    try discriminate; injection H as <-; intros s; destruct e, s; reflexivity.
Qed.
Lemma receive_passes m f e : receive_prog m = PAct f ->
  match e with Nothing => True | AddUnsub r _ => ~ about (SReceiveMessage m) r | _ => False end -> passes f e.
Proof.
  intros H A. destruct m; cbn [receive_prog] in H; unfold write, load, load_and_delete in H; try discriminate;
    repeat match type of H with context [if ?b then _ else _] => destruct b eqn:? end;
    try discriminate; injection H as <-; intros s; destruct e, s; try done;
    cbn; unset; cbn.
  - (* ERROR *) cbn in A. assert (r <> er_request m) as N.
    { intros ->. apply A. split; [|done]. by apply N.eqb_eq. }
    rewrite lookup_insert_ne by done. by rewrite delete_insert_ne by done.
  - (* UNSUBSCRIBED *) cbn in A. by rewrite lookup_insert_ne by congruence.
Qed.

(** The first access was made, the call has not been given its instant; what
    the access saw still holds. *)
Inductive middle (a : session) (m : message) : sprog -> Prop :=
| mid_result r : m = MResult r -> re_request r ∈ cs_calls a -> flag (re_details r) "progress" = false ->
    middle a m (write (fun s => cset_calls (cs_calls s ∖ {[re_request r]}) s) (PRet (Ok (SMessage m))))
| mid_invocation i : m = MInvocation i -> in_registration i ∈ cs_registrations a ->
    middle a m (write (fun s => cset_invocations ({[in_request i]} ∪ cs_invocations s) s) (PRet (Ok (SMessage m))))
| mid_subscribed u : m = MSubscribed u -> sd_request u ∈ cs_subscribes a ->
    middle a m (write (fun s => cset_subscriptions ({[sd_subscription u]} ∪ cs_subscriptions s) s) (PRet (Ok (SMessage m))))
| mid_unsubscribed u g : m = MUnsubscribed u -> cs_unsubscribes a !! ud_request u = Some g ->
    middle a m (load_and_delete (fun s => bool_decide (g ∈ cs_subscriptions s))
              (fun s => cset_subscriptions (cs_subscriptions s ∖ {[g]}) s) (fun found =>
              if found then PRet (Ok (SMessage m)) else PRet (Err "invalid request id"))).

(** The call has been given its instant and the effect [e] is still to come. *)
Inductive late (s : session) : sop -> sprog -> res sout -> pend -> Prop :=
| late_unsubscribe data u :
    late s (SSend (Ok data) (MUnsubscribe u))
      (write (fun s => cset_unsubscribes (<[us_request u := us_subscription u]> (cs_unsubscribes s)) s)
             (PRet (Ok (SData data)))) (Ok (SData data)) (AddUnsub (us_request u) (us_subscription u))
| late_registered op m r : receives op m -> m = MRegistered r ->
    late s op (write (fun s => cset_registrations ({[rd_registration r]} ∪ cs_registrations s) s)
                     (PRet (Ok (SMessage m)))) (Ok (SMessage m)) (AddReg (rd_registration r))
| late_unregistered op m u g : receives op m -> m = MUnregistered u ->
    late s op (load_and_delete (fun s => bool_decide (g ∈ cs_registrations s))
              (fun s => cset_registrations (cs_registrations s ∖ {[g]}) s) (fun found =>
              if found then PRet (Ok (SMessage m)) else PRet (Err "invalid request id")))
      (if bool_decide (g ∈ cs_registrations s) then Ok (SMessage m) else Err "invalid request id") (DelReg g).

Inductive doing (s a : session) (op : sop) : sprog -> stage -> pend -> Prop :=
| do_start : doing s a op (sop_prog op) (Begun op) Nothing
| do_middle m p : receives op m -> middle a m p -> doing s a op p (Begun op) Nothing
| do_late p r e : late s op p r e -> doing s a op p (Marked op r) e
| do_done r : doing s a op (PRet r) (Marked op r) Nothing.

Lemma receives_prog op m : receives op m -> sop_prog op = receive_prog m /\ receiving op.
Proof. by intros [-> | ->]. Qed.
Lemma receives_about op m r : receives op m -> about op r <-> about (SReceiveMessage m) r.
Proof. intros [-> | ->]; done. Qed.

Lemma late_owned s op p r e : late s op p r e -> owned op e.
Proof. intros [data u|op' m r' H _|op' m u g H _]; cbn; [tauto|by apply receives_prog in H as [_ ?]..]. Qed.
Lemma doing_owned s a op p st e : doing s a op p st e -> owned op e.
Proof. intros [|m p' _ _|p' r e' L|r]; [done|done|by eapply late_owned|done]. Qed.

(** Stepping over the parts. *)
Lemma middle_run a m p : middle a m p -> run_prog (receive_prog m) a = run_prog p a.
Proof.
  intros [r -> H F|i -> H|u -> H|u g -> H]; cbn [receive_prog]; unfold load; cbn [run_prog].
  - rewrite bool_decide_true by done. by rewrite F.
  - by rewrite bool_decide_true by done.
  - by rewrite bool_decide_true by done.
  - by rewrite H.
Qed.
Lemma middle_access a m p f : middle a m p -> p = PAct f ->
  (forall s, exists r, (f s).2 = PRet r) /\ forall e, passes f e.
Proof.
  intros [r -> H F|i -> H|u -> H|u g -> H]; unfold write, load_and_delete; intros [= <-]; split; intros s; cbn; eauto;
    try (intros x; destruct s, x; reflexivity).
  destruct (bool_decide _); eauto.
Qed.
Lemma late_access s op p r e f : late s op p r e -> p = PAct f -> f s = (apply e s, PRet r).
Proof.
  intros [data u|op' m r' H _|op' m u g H _]; unfold write, load_and_delete; intros [= <-]; cbn; [done..|].
  by destruct (bool_decide _).
Qed.

(** The first access: the call is over, or waits, or has an effect to come. *)
Lemma first_access op f s s' a a1 p' :
  sop_prog op = PAct f -> f s = (s', p') -> f a = (a1, p') ->
  (receiving op -> cs_registrations a1 = cs_registrations s') ->
  (exists r, p' = PRet r)
  \/ (exists m, receives op m /\ middle a m p' /\ s' = s /\ a1 = a)
  \/ (exists e r, late s' op p' r e /\ run_prog p' a1 = (apply e a1, r)).
Proof.
  intros P Fs Fa Hreg.
  assert ((exists data m, op = SSend (Ok data) m /\ send_prog data m = PAct f)
          \/ (exists m, receives op m /\ receive_prog m = PAct f)) as [(data & m & -> & Q)|(m & R & Q)].
  { destruct op as [[data|?|?] m|[m|?|?]|m]; cbn in P; try discriminate; [left; eauto|right; unfold receives; eauto..]. }
  - destruct m; cbn [send_prog] in Q; unfold write, load in Q; try discriminate;
      repeat match type of Q with context [if ?b then _ else _] => destruct b end;
      try discriminate; injection Q as <-; injection Fs as <- <-; try (left; by eauto).
    injection Fa as <- E. destruct (bool_decide (us_subscription m ∈ cs_subscriptions s)) eqn:B; [|left; by eauto].
    right; right. eexists _, _. split; [by constructor|]. done.
  - apply receives_prog in R as X. destruct X as [_ RR]. specialize (Hreg RR).
    destruct m; cbn [receive_prog] in Q; unfold write, load, load_and_delete in Q; try discriminate;
      repeat match type of Q with context [if ?b then _ else _] => destruct b eqn:? end;
      try discriminate; injection Q as <-; injection Fa as <- <-; injection Fs as <- _; cbn in Hreg;
      match goal with
      | |- context [bool_decide ?b] => destruct (bool_decide b) eqn:B; [apply bool_decide_eq_true_1 in B|left; by eauto]
      | |- context [match ?b with Some _ => _ | None => _ end] => destruct b as [g|] eqn:B; [|left; by eauto]
      end; try (left; by eauto).
    + right; left. exists (MSubscribed m). split; [done|]. split; [by apply (mid_subscribed _ _ m)|done].
    + right; left. exists (MUnsubscribed m). split; [done|]. split; [by apply (mid_unsubscribed _ _ m)|done].
    + right; left. exists (MResult m). split; [done|]. split; [by apply (mid_result _ _ m)|done].
    + right; right. exists (AddReg (rd_registration m)), (Ok (SMessage (MRegistered m))).
      split; [by apply late_registered|done].
    + right; right. exists (DelReg g). eexists.
      split; [by apply (late_unregistered _ _ (MUnregistered m) m)|]. cbn. rewrite Hreg. by destruct (bool_decide _).
    + right; left. exists (MInvocation m). split; [done|]. split; [by apply (mid_invocation _ _ m)|done].
Qed.

(** What senders leave alone, from the point of view of a reception [op]. *)
Definition quiet (op : sop) (x x' : session) : Prop :=
  cs_registrations x' = cs_registrations x
  /\ cs_calls x ⊆ cs_calls x' /\ cs_subscribes x ⊆ cs_subscribes x'
  /\ forall r, about op r -> cs_unsubscribes x' !! r = cs_unsubscribes x !! r.
Lemma quiet_refl op x : quiet op x x.
Proof. done. Qed.

Lemma doing_stable s a s' a' op p st e :
  (receiving op -> quiet op s s' /\ quiet op a a') -> doing s a op p st e -> doing s' a' op p st e.
Proof.
  intros Q [|m p' R M|p' r e' L|r]; [by constructor| | |by constructor].
  - apply (do_middle _ _ _ m); [done|]. pose proof (receives_prog _ _ R) as [_ RR].
    destruct (Q RR) as [_ (Q1 & Q2 & Q3 & Q4)].
    destruct M as [r E H F|i E H|u E H|u g E H].
    + by apply mid_result; [|set_solver|].
    + by apply mid_invocation; [|rewrite Q1].
    + by apply mid_subscribed; [|set_solver].
    + apply (mid_unsubscribed _ _ u g); [done|]. rewrite Q4; [done|]. apply (receives_about _ _ _ R). by subst m.
  - constructor. destruct L as [data u|op' m r' H E|op' m u g H E]; [by constructor|by constructor|].
    pose proof (receives_prog _ _ H) as [_ RR]. destruct (Q RR) as [[Q1 _] _]. rewrite <- Q1.
    by apply (late_unregistered _ _ m u g).
Qed.

Lemma send_quiet op data m f x x' p' : send_prog data m = PAct f -> f x = (x', p') -> quiet op x x'.
Proof.
  intros Q F. destruct m; cbn [send_prog] in Q; unfold write, load in Q; try discriminate;
    repeat match type of Q with context [if ?b then _ else _] => destruct b end;
    try discriminate; injection Q as <-; injection F as <- _; split_and!; cbn; set_solver.
Qed.
Lemma send_run_quiet op data m x : (forall r, about op r -> about (SSend (Ok data) m) r -> False) ->
  quiet op x (run_prog (send_prog data m) x).1.
Proof.
  intros A. destruct m; cbn [send_prog]; unfold write, load; cbn [run_prog fst];
    repeat match goal with |- context [if ?b then _ else _] => destruct b end; cbn [run_prog fst];
    split_and!; cbn; try set_solver.
  intros r Hr. rewrite lookup_insert_ne; [done|]. intros <-. by apply (A (us_request m)).
Qed.

(** * The invariant *)
Record linv (ls ms : list label) (c : gconfig) (es : list pend) (a : session) : Prop := {
  li_filter : List.filter (fun l => negb (is_point l)) ms = ls;
  li_run : srun new_session (map fst (rev (points ms))) = (a, map snd (rev (points ms)));
  li_abs : a = applies es (g_state c);
  li_none : forall t, g_threads c !! t = None -> es !! t = None /\ underway t ls = None /\ at_stage t ms Idle;
  li_some : forall t th, g_threads c !! t = Some th -> exists e, es !! t = Some e /\
    match gt_now th with
    | None => e = Nothing /\ underway t ls = None /\ at_stage t ms Idle
    | Some (op, p) => exists st, underway t ls = Some op /\ at_stage t ms st
                                 /\ doing (g_state c) a op p st e
    end }.

Lemma srun_app s h1 h2 : srun s (h1 ++ h2) =
  let (s1, r1) := srun s h1 in let (s2, r2) := srun s1 h2 in (s2, r1 ++ r2).
Proof.
  revert s. induction h1 as [|op h1 IH]; intros s; cbn [srun app]; [by destruct (srun s h2)|].
  destruct (sstep s op) as [s1 r]. rewrite IH. destruct (srun s1 h1) as [s2 r1]. by destruct (srun s2 h2).
Qed.
Lemma run_point ms a t op a' r :
  srun new_session (map fst (rev (points ms))) = (a, map snd (rev (points ms))) ->
  run_prog (sop_prog op) a = (a', r) ->
  srun new_session (map fst (rev (points (LPoint t op r :: ms)))) = (a', map snd (rev (points (LPoint t op r :: ms)))).
Proof.
  intros H1 H2. cbn [points rev]. rewrite !map_app, srun_app, H1. cbn [map fst snd srun]. unfold sstep. by rewrite H2.
Qed.

Lemma apart_from ls t t' op op' : one_receiver ls -> one_about ls -> t <> t' ->
  underway t ls = Some op -> underway t' ls = Some op' -> apart op op'.
Proof.
  intros O1 O2 N U U'. split.
  - intros [R R']. by apply N, (O1 t t' op op').
  - intros r A A'. by apply N, (O2 t t' op op' r).
Qed.
Lemma linv_apart ls ms c es a t op : linv ls ms c es a -> one_receiver ls -> one_about ls ->
  underway t ls = Some op -> forall t' e', t' <> t -> es !! t' = Some e' ->
  e' = Nothing \/ exists op', owned op' e' /\ apart op op'.
Proof.
  intros V O1 O2 U t' e' N He. destruct (g_threads c !! t') as [th|] eqn:Ht.
  - destruct (li_some _ _ _ _ _ V _ _ Ht) as (e & He2 & H). rewrite He in He2; injection He2 as <-.
    destruct (gt_now th) as [[op' p]|]; [|left; tauto]. right. destruct H as (st & U' & _ & D).
    exists op'. split; [by eapply doing_owned|]. by apply (apart_from ls t t').
  - destruct (li_none _ _ _ _ _ V _ Ht) as [H _]. congruence.
Qed.

Lemma insert_none {A} (l : list A) t x t' : <[t := x]> l !! t' = None -> l !! t' = None.
Proof. rewrite !lookup_ge_None, insert_length. done. Qed.

Lemma linv_update ls ms s th log es a t op todo p ms' s' p' st' e' :
  linv ls ms (GConfig s th log) es a -> one_receiver ls -> one_about ls ->
  th !! t = Some (GoThread todo (Some (op, p))) ->
  (ms' = ms \/ exists r, ms' = LPoint t op r :: ms) ->
  at_stage t ms' st' ->
  srun new_session (map fst (rev (points ms'))) = (applies (<[t := e']> es) s', map snd (rev (points ms'))) ->
  doing s' (applies (<[t := e']> es) s') op p' st' e' ->
  (forall op', apart op op' -> receiving op' ->
     quiet op' s s' /\ quiet op' a (applies (<[t := e']> es) s')) ->
  linv ls ms' (GConfig s' (<[t := GoThread todo (Some (op, p'))]> th) log) (<[t := e']> es) (applies (<[t := e']> es) s').
Proof.
  intros V O1 O2 Ht Hms Hst Hrun Hdo Hq.
  destruct (li_some _ _ _ _ _ V _ _ Ht) as (e & He & st & U & A & D); cbn [g_state] in *.
  assert (forall t', t' <> t -> forall x, at_stage t' ms x -> at_stage t' ms' x) as Other.
  { intros t' N x H. destruct Hms as [-> | (r & ->)]; [done|]. apply at_other; [done|]. cbn. congruence. }
  constructor; cbn [g_state g_threads].
  - destruct Hms as [-> | (r & ->)]; apply (li_filter _ _ _ _ _ V).
  - done.
  - done.
  - intros t' Hn. apply insert_none in Hn. assert (t' <> t) as N by congruence.
    destruct (li_none _ _ _ _ _ V t' Hn) as (H1 & H2 & H3).
    split_and!; [|done|by apply Other]. rewrite list_lookup_insert_ne by done. done.
  - intros t' th' Ht'. destruct (decide (t' = t)) as [->|N].
    + rewrite list_lookup_insert in Ht' by (by eapply lookup_lt_Some). injection Ht' as <-. cbn [gt_now].
      exists e'. split; [apply list_lookup_insert; by eapply lookup_lt_Some|]. by exists st'.
    + rewrite list_lookup_insert_ne in Ht' by done. rewrite list_lookup_insert_ne by done.
      destruct (li_some _ _ _ _ _ V _ _ Ht') as (x & Hx & H). exists x. split; [done|]. cbn [g_state] in H.
      destruct (gt_now th') as [[op' q]|].
      * destruct H as (sx & U' & A' & D'). exists sx. split_and!; [done|by apply Other|].
        apply (doing_stable s a); [|done]. intros R. apply Hq; [|done]. by apply (apart_from ls t t').
      * destruct H as (H1 & H2 & H3). split_and!; [done..|by apply Other].
Qed.

Lemma apart_passes op f e op' : sop_prog op = PAct f -> owned op' e -> apart op op' -> passes f e.
Proof.
  intros P O [A B].
  destruct op as [[data|?|?] m|[m|?|?]|m]; cbn in P; try discriminate.
  - by eapply send_passes.
  - eapply receive_passes; [done|]. destruct e as [|r g|g|g]; cbn in O; [done| |by apply A..]. intros X. destruct O as [O _]. exact (B r X O).
  - eapply receive_passes; [done|]. destruct e as [|r g|g|g]; cbn in O; [done| |by apply A..]. intros X. destruct O as [O _]. exact (B r X O).
Qed.
Lemma nothing_passes f : passes f Nothing.
Proof. intros s. cbn. by destruct (f s). Qed.
Lemma applies_registrations es s :
  (forall t e, es !! t = Some e -> match e with AddReg _ | DelReg _ => False | _ => True end) ->
  cs_registrations (applies es s) = cs_registrations s.
Proof.
  induction es as [|x es IH]; intros H; [done|]. cbn [applies].
  pose proof (H 0%nat x eq_refl). rewrite <- IH by (intros t e He; exact (H (S t) e He)). by destruct x.
Qed.

Lemma linv_access ls ms s th log es a t op f todo s' p' :
  linv ls ms (GConfig s th log) es a -> one_receiver ls -> one_about ls ->
  th !! t = Some (GoThread todo (Some (op, PAct f))) -> f s = (s', p') ->
  exists ms' es' a', linv ls ms' (GConfig s' (<[t := GoThread todo (Some (op, p'))]> th) log) es' a'.
Proof.
  intros V O1 O2 Ht Fs.
  destruct (li_some _ _ _ _ _ V _ _ Ht) as (e & He & st & U & A & D); cbn [g_state] in *.
  pose proof (li_run _ _ _ _ _ V) as Hrun. pose proof (li_abs _ _ _ _ _ V) as Habs. cbn [g_state] in Habs.
  pose proof (linv_apart _ _ _ _ _ _ _ V O1 O2 U) as Hap.
  assert (forall e1 t' e', owned op e1 -> t' <> t -> es !! t' = Some e' -> compat e1 e') as Comp.
  { intros e1 t' e' Ow N H. destruct (Hap t' e' N H) as [->|(op' & Ow' & Ap)]; [by destruct e1|].
    by apply (apart_compat op op'). }
  inversion D as [P|m p R M P|p r e1 L P|r P].
  - (* first access *)
    subst st e. assert (sop_prog op = PAct f) as P' by done. clear D.
    assert (forall t' e', es !! t' = Some e' -> passes f e') as Pass.
    { intros t' e' H. destruct (decide (t' = t)) as [->|N].
      - rewrite He in H; injection H as <-. apply nothing_passes.
      - destruct (Hap t' e' N H) as [->|(op' & Ow' & Ap)]; [apply nothing_passes|]. by apply (apart_passes op _ _ op'). }
    pose proof (passes_all f es s Pass) as Fa. rewrite <- Habs, Fs in Fa. cbn [fst snd] in Fa.
    assert (receiving op -> cs_registrations (applies es s') = cs_registrations s') as Hreg.
    { intros R. apply applies_registrations. intros t' e' H. destruct (decide (t' = t)) as [->|N].
      - rewrite He in H; by injection H as <-.
      - destruct (Hap t' e' N H) as [->|(op' & Ow' & Ap & _)]; [done|]. destruct e'; cbn in Ow'; tauto. }
    assert (forall op' x, apart op op' -> receiving op' -> x = applies es s' \/ x = (run_prog (sop_prog op) a).1 ->
              quiet op' s s' /\ quiet op' a x) as Hquiet.
    { intros op' x [Ap1 Ap2] R'. destruct op as [[data|?|?] m| |]; cbn in P'; try discriminate; [|cbn in Ap1; tauto..].
      intros Hx. split; [by eapply send_quiet|]. destruct Hx as [-> | ->]; [by eapply send_quiet|].
      apply send_run_quiet. intros r H1 H2. by apply (Ap2 r). }
    destruct (first_access _ _ _ _ _ _ _ P' Fs Fa Hreg) as [(r & ->)|[(m & R & M & -> & Ea)|(e' & r & L & Hr)]].
    + (* over *)
      assert (run_prog (sop_prog op) a = (applies es s', r)) as Er by (rewrite P'; cbn [run_prog]; by rewrite Fa).
      exists (LPoint t op r :: ms), (<[t := Nothing]> es), (applies (<[t := Nothing]> es) s').
      pose proof (list_insert_id es t Nothing He) as Eid.
      eapply linv_update; [exact V|done|done|exact Ht|by eauto| | | |]; rewrite ?Eid.
      * eapply at_mine; [exact A|done|constructor].
      * by apply (run_point _ a).
      * apply do_done.
      * intros op' Ap R'. apply Hquiet; auto.
    + (* waits *)
      exists ms, (<[t := Nothing]> es), (applies (<[t := Nothing]> es) s).
      pose proof (list_insert_id es t Nothing He) as Eid.
      eapply linv_update; [exact V|done|done|exact Ht|by eauto|exact A| | |]; rewrite ?Eid.
      * by rewrite Ea.
      * rewrite Ea. by apply (do_middle _ _ _ m).
      * intros op' Ap R'. rewrite Ea. done.
    + (* an effect to come *)
      assert (applies (<[t := e']> es) s' = apply e' (applies es s')) as Eput.
      { apply applies_put; [done|]. intros t' x N H. apply (Comp _ t'); [by eapply late_owned|done|done]. }
      assert (run_prog (sop_prog op) a = (apply e' (applies es s'), r)) as Er.
      { rewrite P'. cbn [run_prog]. by rewrite Fa. }
      exists (LPoint t op r :: ms), (<[t := e']> es), (applies (<[t := e']> es) s').
      eapply linv_update; [exact V|done|done|exact Ht|by eauto| | | |]; rewrite ?Eput.
      * eapply at_mine; [exact A|done|constructor].
      * by apply (run_point _ a).
      * by apply do_late.
      * intros op' Ap R'. apply Hquiet; [done..|]. right. by rewrite Er.
  - (* second access of a waiting call *)
    subst p st e. destruct (middle_access _ _ _ _ M eq_refl) as [Hret Pass].
    pose proof (passes_all f es s (fun _ e' _ => Pass e')) as Fa. rewrite <- Habs, Fs in Fa. cbn [fst snd] in Fa.
    destruct (Hret s) as (r & Er). rewrite Fs in Er. cbn in Er. subst p'.
    pose proof (receives_prog _ _ R) as [Ep RR].
    assert (run_prog (sop_prog op) a = (applies es s', r)) as Er.
    { rewrite Ep, (middle_run _ _ _ M). cbn [run_prog]. by rewrite Fa. }
    exists (LPoint t op r :: ms), (<[t := Nothing]> es), (applies (<[t := Nothing]> es) s').
    pose proof (list_insert_id es t Nothing He) as Eid.
    eapply linv_update; [exact V|done|done|exact Ht|by eauto| | | |]; rewrite ?Eid.
    + eapply at_mine; [exact A|done|constructor].
    + by apply (run_point _ a).
    + apply do_done.
    + intros op' [Ap _] R'. tauto.
  - (* the effect comes *)
    subst p st e1. rewrite (late_access _ _ _ _ _ _ L eq_refl) in Fs. injection Fs as <- <-.
    assert (es !! t = Some e -> applies (<[t := Nothing]> es) (apply e s) = a) as Ea.
    { intros _. rewrite applies_in.
      - rewrite <- (applies_put (<[t := Nothing]> es) t e).
        + by rewrite list_insert_insert, list_insert_id.
        + apply list_lookup_insert. by eapply lookup_lt_Some.
        + intros t' x N H. rewrite list_lookup_insert_ne in H by done. apply (Comp _ t'); [by eapply late_owned|done|done].
      - intros t' x H. destruct (decide (t' = t)) as [->|N].
        + rewrite list_lookup_insert in H by (by eapply lookup_lt_Some). injection H as <-. by destruct e.
        + rewrite list_lookup_insert_ne in H by done. apply (Comp _ t'); [by eapply late_owned|done|done]. }
    specialize (Ea He).
    exists ms, (<[t := Nothing]> es), (applies (<[t := Nothing]> es) (apply e s)).
    eapply linv_update; [exact V|done|done|exact Ht|by eauto|exact A| | |]; rewrite ?Ea.
    + done.
    + apply do_done.
    + intros op' [Ap1 Ap2] R'. split; [|done].
      pose proof (late_owned _ _ _ _ _ L) as Ow. destruct e as [|r' g|g|g]; cbn in Ow; [done| |tauto..].
      split_and!; cbn; [done..|]. intros r0 Hr0. rewrite lookup_insert_ne; [done|].
      intros E. subst. destruct Ow as [Ow _]. by eapply Ap2.
Qed.

Lemma linv_begin ls ms s th log es a t op todo :
  linv ls ms (GConfig s th log) es a -> th !! t = Some (GoThread (op :: todo) None) ->
  linv (LBegin t op :: ls) (LBegin t op :: ms)
    (GConfig s (<[t := GoThread todo (Some (op, sop_prog op))]> th) (GBegin op :: log)) es a.
Proof.
  intros V Ht. destruct (li_some _ _ _ _ _ V _ _ Ht) as (e & He & -> & U & A).
  constructor; cbn [g_state g_threads].
  - cbn. by rewrite (li_filter _ _ _ _ _ V).
  - apply (li_run _ _ _ _ _ V).
  - apply (li_abs _ _ _ _ _ V).
  - intros t' Hn. apply insert_none in Hn.
    assert (t' <> t) as N by congruence. destruct (li_none _ _ _ _ _ V t' Hn) as (H1 & H2 & H3).
    split_and!; [done| |apply at_other; [done|cbn; congruence]].
    cbn. by rewrite (proj2 (Nat.eqb_neq t' t) N).
  - intros t' th' Ht'. destruct (decide (t' = t)) as [->|N].
    + rewrite list_lookup_insert in Ht' by (by eapply lookup_lt_Some). injection Ht' as <-. cbn [gt_now].
      exists Nothing. split; [done|]. exists (Begun op). cbn. rewrite Nat.eqb_refl.
      split_and!; [done|eapply at_mine; [exact A|done|constructor]|constructor].
    + rewrite list_lookup_insert_ne in Ht' by done.
      destruct (li_some _ _ _ _ _ V _ _ Ht') as (x & Hx & H). exists x. split; [done|]. cbn [g_state] in H.
      cbn [underway]. rewrite (proj2 (Nat.eqb_neq t' t) N).
      destruct (gt_now th') as [[op' q]|].
      * destruct H as (sx & U' & A' & D'). exists sx. split_and!; [done|apply at_other; [done|cbn; congruence]|done].
      * destruct H as (H1 & H2 & H3). split_and!; [done..|apply at_other; [done|cbn; congruence]].
Qed.

Lemma linv_end ls ms s th log es a t op r todo :
  linv ls ms (GConfig s th log) es a -> th !! t = Some (GoThread todo (Some (op, PRet r))) ->
  exists ms', linv (LEnd t op r :: ls) ms' (GConfig s (<[t := GoThread todo None]> th) (GEnd op r :: log)) es a.
Proof.
  intros V Ht. destruct (li_some _ _ _ _ _ V _ _ Ht) as (e & He & st & U & A & D); cbn [g_state] in *.
  assert (exists ms1, (ms1 = ms \/ ms1 = LPoint t op r :: ms) /\ at_stage t ms1 (Marked op r)
           /\ srun new_session (map fst (rev (points ms1))) = (a, map snd (rev (points ms1))) /\ e = Nothing)
    as (ms1 & Hms & A1 & R1 & ->).
  { inversion D as [P|m p R M P|p r1 e1 L P|r1 P].
    - exists (LPoint t op r :: ms). split_and!; [by right| | |done].
      + subst st. eapply at_mine; [exact A|done|constructor].
      + apply (run_point _ a); [apply (li_run _ _ _ _ _ V)|]. by rewrite P.
    - exfalso. subst p. inversion M.
    - exfalso. subst p. inversion L.
    - exists ms. subst. split_and!; [by left|done|apply (li_run _ _ _ _ _ V)|done]. }
  exists (LEnd t op r :: ms1).
  assert (forall t' x, t' <> t -> at_stage t' ms x -> at_stage t' (LEnd t op r :: ms1) x) as Other.
  { intros t' x N H. apply at_other; [|cbn; congruence]. destruct Hms as [-> | ->]; [done|].
    apply at_other; [done|cbn; congruence]. }
  constructor; cbn [g_state g_threads].
  - cbn. f_equal. rewrite <- (li_filter _ _ _ _ _ V). by destruct Hms as [-> | ->].
  - done.
  - apply (li_abs _ _ _ _ _ V).
  - intros t' Hn. apply insert_none in Hn.
    assert (t' <> t) as N by congruence. destruct (li_none _ _ _ _ _ V t' Hn) as (H1 & H2 & H3).
    split_and!; [done| |by apply Other]. cbn. by rewrite (proj2 (Nat.eqb_neq t' t) N).
  - intros t' th' Ht'. destruct (decide (t' = t)) as [->|N].
    + rewrite list_lookup_insert in Ht' by (by eapply lookup_lt_Some). injection Ht' as <-. cbn [gt_now].
      exists Nothing. split; [done|]. cbn. rewrite Nat.eqb_refl.
      split_and!; [done|done|eapply at_mine; [exact A1|done|constructor]].
    + rewrite list_lookup_insert_ne in Ht' by done.
      destruct (li_some _ _ _ _ _ V _ _ Ht') as (x & Hx & H). exists x. split; [done|]. cbn [g_state] in H.
      cbn [underway]. rewrite (proj2 (Nat.eqb_neq t' t) N).
      destruct (gt_now th') as [[op' q]|].
      * destruct H as (sx & U' & A' & D'). exists sx. split_and!; [done|by apply Other|done].
      * destruct H as (H1 & H2 & H3). split_and!; [done..|by apply Other].
Qed.

Lemma linv_start work : linv [] [] (ginit work) (map (fun _ => Nothing) work) new_session.
Proof.
  assert (forall t, map (fun w => GoThread w None) work !! t = (fun w => GoThread w None) <$> (work !! t)) as E
    by (intros t; apply list_lookup_fmap).
  assert (forall t, map (fun _ => Nothing) work !! t = (fun _ => Nothing) <$> (work !! t)) as E'
    by (intros t; apply list_lookup_fmap).
  constructor; cbn [g_state g_threads ginit].
  - done.
  - done.
  - clear. induction work as [|w work IH]; [done|]. cbn. done.
  - intros t. rewrite E, E'. destruct (work !! t); [done|]. intros _. split_and!; [done|done|constructor].
  - intros t th. rewrite E, E'. destruct (work !! t) as [w|]; [|done]. intros [= <-].
    exists Nothing. split; [done|]. cbn. split_and!; [done|done|constructor].
Qed.

Lemma throughout_now P ls : throughout P ls -> P ls.
Proof. destruct ls; cbn; tauto. Qed.
Lemma throughout_tail P l ls : throughout P (l :: ls) -> throughout P ls.
Proof. cbn; tauto. Qed.

Lemma linv_run work ls c : lrun work ls c -> orderly ls -> exists ms es a, linv ls ms c es a.
Proof.
  intros H. induction H as [|ls t op todo s th log H IH Ht|ls t op f todo s s' p' th log H IH Ht Fs|ls t op r todo s th log H IH Ht];
    intros [O1 O2].
  - eexists _, _, _. apply linv_start.
  - destruct IH as (ms & es & a & V); [split; by eapply throughout_tail|]. eexists _, _, _. by apply linv_begin.
  - destruct IH as (ms & es & a & V); [done|].
    apply throughout_now in O1, O2. destruct (linv_access _ _ _ _ _ _ _ _ _ _ _ _ _ V O1 O2 Ht Fs) as (ms' & es' & a' & V').
    eauto.
  - destruct IH as (ms & es & a & V); [split; by eapply throughout_tail|].
    destruct (linv_end _ _ _ _ _ _ _ _ _ _ _ V Ht) as (ms' & V'). eauto.
Qed.

Theorem linearizable work ls c : lrun work ls c -> orderly ls ->
  exists ms s, linearizes ls ms s /\ ((forall t, underway t ls = None) -> g_state c = s).
Proof.
  intros H O. destruct (linv_run _ _ _ H O) as (ms & es & a & V). exists ms, a. split.
  - split; [apply (li_filter _ _ _ _ _ V)|]. split; [|apply (li_run _ _ _ _ _ V)].
    intros t. destruct (g_threads c !! t) as [th|] eqn:Ht.
    + destruct (li_some _ _ _ _ _ V _ _ Ht) as (e & _ & X). destruct (gt_now th) as [[op p]|].
      * destruct X as (st & _ & A & _). eauto.
      * destruct X as (_ & _ & A). eauto.
    + destruct (li_none _ _ _ _ _ V _ Ht) as (_ & _ & A). eauto.
  - intros Q. rewrite (li_abs _ _ _ _ _ V).
    assert (forall t e, es !! t = Some e -> e = Nothing) as N.
    { intros t e He. destruct (g_threads c !! t) as [th|] eqn:Ht.
      - destruct (li_some _ _ _ _ _ V _ _ Ht) as (e' & He' & X). rewrite He in He'; injection He' as <-.
        destruct (gt_now th) as [[op p]|]; [|tauto]. destruct X as (st & U & _). by rewrite Q in U.
      - destruct (li_none _ _ _ _ _ V _ Ht) as (X & _). congruence. }
    clear - N. induction es as [|e es IH]; [done|]. cbn [applies]. rewrite (N 0%nat e eq_refl).
    cbn. apply IH. intros t x Hx. exact (N (S t) x Hx).
Qed.

(** The labelled executions are the executions. *)
Lemma lrun_greach work ls c : lrun work ls c -> greach (ginit work) c.
Proof.
  intros H. induction H; [constructor|eapply greach_step; [eassumption|by econstructor]..].
Qed.
Lemma greach_lrun work c : greach (ginit work) c -> exists ls, lrun work ls c.
Proof.
  intros H. induction H as [|c c' _ (ls & IH) St]; [eexists; constructor|].
  destruct St; eexists; [by eapply lrun_begin|by eapply lrun_access|by eapply lrun_end].
Qed.
Lemma runs_agree work c : greach (ginit work) c <-> exists ls, lrun work ls c.
Proof. split; [apply greach_lrun|intros (ls & H); by eapply lrun_greach]. Qed.
