From Verif Require Import Prelude Value Msg Mutex Session SessionSpec SessionFacts.

Lemma gone (X : gset N) x : x ∉ X -> X ∖ {[x]} = X.
Proof. set_solver. Qed.
Lemma gone_map (X : gmap N N) x : ~ is_Some (X !! x) -> delete x X = X.
Proof. intros H. apply delete_notin. by apply eq_None_not_Some. Qed.

Lemma same_calls s x : x ∉ cs_calls s -> cset_calls (cs_calls s ∖ {[x]}) s = s.
Proof. intros H. rewrite gone by done. by destruct s. Qed.
Lemma same_registers s x : x ∉ cs_registers s -> cset_registers (cs_registers s ∖ {[x]}) s = s.
Proof. intros H. rewrite gone by done. by destruct s. Qed.
Lemma same_registrations s x : x ∉ cs_registrations s -> cset_registrations (cs_registrations s ∖ {[x]}) s = s.
Proof. intros H. rewrite gone by done. by destruct s. Qed.
Lemma same_publishes s x : x ∉ cs_publishes s -> cset_publishes (cs_publishes s ∖ {[x]}) s = s.
Proof. intros H. rewrite gone by done. by destruct s. Qed.
Lemma same_subscribes s x : x ∉ cs_subscribes s -> cset_subscribes (cs_subscribes s ∖ {[x]}) s = s.
Proof. intros H. rewrite gone by done. by destruct s. Qed.
Lemma same_subscriptions s x : x ∉ cs_subscriptions s -> cset_subscriptions (cs_subscriptions s ∖ {[x]}) s = s.
Proof. intros H. rewrite gone by done. by destruct s. Qed.
Lemma same_unregisters s x : ~ is_Some (cs_unregisters s !! x) -> cset_unregisters (delete x (cs_unregisters s)) s = s.
Proof. intros H. rewrite gone_map by done. by destruct s. Qed.
Lemma same_unsubscribes s x : ~ is_Some (cs_unsubscribes s !! x) -> cset_unsubscribes (delete x (cs_unsubscribes s)) s = s.
Proof. intros H. rewrite gone_map by done. by destruct s. Qed.

(** invocationRequests is never read. *)
Lemma tracks_inv s x tr : stracks s tr -> stracks (cset_invocations x s) tr.
Proof. intros [K1 K2 K3 K4 K5 K6 K7 K8]. by split. Qed.

Definition answered (tr : list sevent) (s s' : session) (out good : res sout) (e : sevent) (ok : Prop) : Prop :=
  (ok /\ out = good /\ stracks s' (e :: tr)) \/ (~ ok /\ (exists x, out = Err x) /\ s' = s).

Ltac good := left; split; [try done|split; [done|]].
Ltac bad := right; split; [try done|split; [by eexists|try done]].
Ltac dec P := let H := fresh "D" in destruct (bool_decide P) eqn:H;
  [apply bool_decide_eq_true_1 in H|apply bool_decide_eq_false_1 in H].

Lemma send_spec s tr data m s' out : stracks s tr ->
  run_prog (send_prog data m) s = (s', out) ->
  answered tr s s' out (Ok (SData data)) (Sent m) (sendable tr m).
Proof.
  intros K E.
  destruct m as [m|m|m|m|m|m|m|m|m|m|m|m|m|m|m|m|m|m|m|m|m|m|m|m];
    cbn [send_prog run_prog write load] in E;
    try (injection E as <- <-; right; split; [by intros []|split; [by eexists|done]]).
  - injection E as <- <-. good. by apply tracks_inert.
  - cbn [sendable]. unfold tInvocation in E. destruct (N.eqb_spec (er_type m) 68) as [->|Hn]; cbn in E; injection E as <- <-.
    + good. apply tracks_inert; [done|]. by apply tracks_inv.
    + bad.
  - destruct (flag _ _) eqn:F; cbn in E; injection E as <- <-; good.
    + apply tracks_publish; [by apply flag_yes|done].
    + apply tracks_inert; [by apply flag_no|done].
  - injection E as <- <-. good. by apply tracks_subscribe.
  - cbn [sendable]. dec (us_subscription m ∈ cs_subscriptions s); cbn in E; injection E as <- <-.
    + good; [by apply (k_subscriptions _ _ K)|]. by apply tracks_unsubscribe.
    + bad. by rewrite <- (k_subscriptions _ _ K).
  - injection E as <- <-. good. by apply tracks_call.
  - injection E as <- <-. good. by apply tracks_register.
  - injection E as <- <-. good. by apply tracks_unregister.
  - destruct (flag _ _) eqn:F; cbn in E; injection E as <- <-; good.
    + by apply tracks_inert.
    + apply tracks_inert; [done|]. by apply tracks_inv.
Qed.

Lemma receive_spec s tr m s' out : stracks s tr ->
  run_prog (receive_prog m) s = (s', out) ->
  answered tr s s' out (Ok (SMessage m)) (Got m) (acceptable tr m).
Proof.
  intros K E.
  destruct m as [m|m|m|m|m|m|m|m|m|m|m|m|m|m|m|m|m|m|m|m|m|m|m|m];
    cbn [receive_prog run_prog write load load_and_delete] in E;
    try (injection E as <- <-; right; split; [by intros []|split; [by eexists|done]]).
  - injection E as <- <-. good. by apply tracks_inert.
  - injection E as <- <-. good. by apply tracks_inert.
  - pose proof (tracks_error s tr m K) as KE. cbn [acceptable].
    unfold tCall, tRegister, tUnregister, tSubscribe, tUnsubscribe, tPublish in *.
    revert E KE.
    destruct (N.eqb_spec (er_type m) 48) as [Ht|Ht]; [|destruct (N.eqb_spec (er_type m) 64) as [Ht1|Ht1];
      [|destruct (N.eqb_spec (er_type m) 66) as [Ht2|Ht2]; [|destruct (N.eqb_spec (er_type m) 32) as [Ht3|Ht3];
      [|destruct (N.eqb_spec (er_type m) 34) as [Ht4|Ht4]; [|destruct (N.eqb_spec (er_type m) 16) as [Ht5|Ht5]]]]]]; intros E KE;
      cbn [run_prog load_and_delete] in E.
    + dec (er_request m ∈ cs_calls s); cbn in E; injection E as <- <-.
      * good; [|exact KE]. left. by rewrite <- (k_calls _ _ K).
      * bad; [|by apply same_calls]. rewrite <- (k_calls _ _ K). intros X; noev; congruence.
    + dec (er_request m ∈ cs_registers s); cbn in E; injection E as <- <-.
      * good; [|exact KE]. right; left. by rewrite <- (k_registers _ _ K).
      * bad; [|by apply same_registers]. rewrite <- (k_registers _ _ K). intros X; noev; congruence.
    + dec (is_Some (cs_unregisters s !! er_request m)); cbn in E; injection E as <- <-.
      * good; [|exact KE]. right; right; left. destruct D as [g D]. split; [done|]. exists g. by rewrite <- (k_unregisters _ _ K).
      * bad; [|by apply same_unregisters]. intros X; noev; try congruence.
        apply D. eexists. by rewrite (k_unregisters _ _ K).
    + dec (er_request m ∈ cs_subscribes s); cbn in E; injection E as <- <-.
      * good; [|exact KE]. right; right; right; left. by rewrite <- (k_subscribes _ _ K).
      * bad; [|by apply same_subscribes]. rewrite <- (k_subscribes _ _ K). intros X; noev; congruence.
    + dec (is_Some (cs_unsubscribes s !! er_request m)); cbn in E; injection E as <- <-.
      * good; [|exact KE]. right; right; right; right; left. destruct D as [g D]. split; [done|]. exists g. by rewrite <- (k_unsubscribes _ _ K).
      * bad; [|by apply same_unsubscribes]. intros X; noev; try congruence.
        apply D. eexists. by rewrite (k_unsubscribes _ _ K).
    + dec (er_request m ∈ cs_publishes s); cbn in E; injection E as <- <-.
      * good; [|exact KE]. right; right; right; right; right. by rewrite <- (k_publishes _ _ K).
      * bad; [|by apply same_publishes]. rewrite <- (k_publishes _ _ K). intros X; noev; congruence.
    + injection E as <- <-. bad. intros X; noev; congruence.
  - cbn [acceptable]. dec (pd_request m ∈ cs_publishes s); cbn in E; injection E as <- <-.
    + good; [by apply (k_publishes _ _ K)|]. by apply tracks_published.
    + bad; [by rewrite <- (k_publishes _ _ K)|by apply same_publishes].
  - cbn [acceptable]. dec (sd_request m ∈ cs_subscribes s); cbn in E; injection E as <- <-.
    + good; [by apply (k_subscribes _ _ K)|]. by apply tracks_subscribed.
    + bad. by rewrite <- (k_subscribes _ _ K).
  - cbn [acceptable]. destruct (cs_unsubscribes s !! ud_request m) as [g|] eqn:L; cbn [run_prog load_and_delete] in E.
    + pose proof L as L'. apply (k_unsubscribes _ _ K) in L'.
      dec (g ∈ cs_subscriptions s); cbn in E; injection E as <- <-.
      * good; [exists g; split; [done|by apply (k_subscriptions _ _ K)]|]. by apply tracks_unsubscribed.
      * bad; [|by apply same_subscriptions]. intros (g' & A & B). apply (unsubscribe_fun _ _ K _ _ _ L') in A as <-.
        by apply D, (k_subscriptions _ _ K).
    + injection E as <- <-. bad. intros (g & A & _). apply (k_unsubscribes _ _ K) in A. congruence.
  - cbn [acceptable]. dec (ev_subscription m ∈ cs_subscriptions s); cbn in E; injection E as <- <-.
    + good; [by apply (k_subscriptions _ _ K)|]. by apply tracks_inert.
    + bad. by rewrite <- (k_subscriptions _ _ K).
  - cbn [acceptable]. dec (re_request m ∈ cs_calls s); cbn in E.
    + destruct (flag _ _) eqn:F; cbn in E; injection E as <- <-; (good; [by apply (k_calls _ _ K)|]).
      * apply tracks_inert; [by apply flag_yes|done].
      * apply tracks_result; [by apply flag_no|done].
    + injection E as <- <-. bad. by rewrite <- (k_calls _ _ K).
  - cbn [acceptable]. dec (rd_request m ∈ cs_registers s); cbn in E; injection E as <- <-.
    + good; [by apply (k_registers _ _ K)|]. by apply (tracks_registered s tr m).
    + bad; [by rewrite <- (k_registers _ _ K)|by apply same_registers].
  - cbn [acceptable]. destruct (cs_unregisters s !! un_request m) as [g|] eqn:L; cbn [run_prog load_and_delete] in E.
    + pose proof L as L'. apply (k_unregisters _ _ K) in L'.
      dec (g ∈ cs_registrations s); cbn in E; injection E as <- <-.
      * good; [exists g; split; [done|by apply (k_registrations _ _ K)]|]. by apply tracks_unregistered.
      * bad; [|by apply same_registrations]. intros (g' & A & B). apply (unregister_fun _ _ K _ _ _ L') in A as <-.
        by apply D, (k_registrations _ _ K).
    + injection E as <- <-. bad. intros (g & A & _). apply (k_unregisters _ _ K) in A. congruence.
  - cbn [acceptable]. dec (in_registration m ∈ cs_registrations s); cbn in E; injection E as <- <-.
    + good; [by apply (k_registrations _ _ K)|]. apply tracks_inert; [done|]. by apply tracks_inv.
    + bad. by rewrite <- (k_registrations _ _ K).
Qed.

(** One operation of any kind. *)
Lemma sstep_tracks s tr op s' out : stracks s tr -> sstep s op = (s', out) ->
  stracks s' (match event_of op out with Some e => [e] | None => [] end ++ tr)
  /\ ((forall x, out <> Ok x) -> s' = s).
Proof.
  intros K E. unfold sstep in E.
  assert (forall m, run_prog (receive_prog m) s = (s', out) ->
    stracks s' (match out with Ok _ => [Got m] | _ => [] end ++ tr) /\ ((forall x, out <> Ok x) -> s' = s)) as HR.
  { intros m R. destruct (receive_spec _ _ _ _ _ K R) as [(A & -> & B)|(A & (e & ->) & ->)]; [|done].
    split; [done|]. intros X. by destruct (X (SMessage m)). }
  destruct op as [[data|e|w] m|[m|e|w]|m]; cbn [sop_prog run_prog] in E; try (injection E as <- <-; by cbn).
  - destruct (send_spec _ _ _ _ _ _ K E) as [(A & -> & B)|(A & (e & ->) & ->)]; [|done].
    split; [done|]. intros X. by destruct (X (SData data)).
  - destruct (HR m E) as [H1 H2]. split; [|done]. by destruct out.
  - destruct (HR m E) as [H1 H2]. split; [|done]. by destruct out.
Qed.

Lemma srun_tracks_from h : forall s tr s' outs, stracks s tr -> srun s h = (s', outs) ->
  stracks s' (strace_of h outs ++ tr).
Proof.
  induction h as [|op h IH]; intros s tr s' outs K E; cbn [srun] in E.
  - injection E as <- <-. done.
  - destruct (sstep s op) as [s1 r] eqn:E1. destruct (srun s1 h) as [s2 rs] eqn:E2. injection E as <- <-.
    destruct (sstep_tracks _ _ _ _ _ K E1) as [K1 _].
    cbn [strace_of]. rewrite <- app_assoc. by apply (IH s1).
Qed.
Lemma srun_tracks h s outs : srun new_session h = (s, outs) -> stracks s (strace_of h outs).
Proof. intros E. rewrite <- (app_nil_r (strace_of h outs)). exact (srun_tracks_from _ _ _ _ _ tracks_new E). Qed.

Lemma receive_answer h s outs op m s' out :
  srun new_session h = (s, outs) -> receives op m -> sstep s op = (s', out) ->
  let tr := strace_of h outs in
  (acceptable tr m /\ out = Ok (SMessage m)) \/ (~ acceptable tr m /\ (exists e, out = Err e) /\ s' = s).
Proof.
  intros H R E tr. apply srun_tracks in H.
  assert (run_prog (receive_prog m) s = (s', out)) as E' by (destruct R as [->| ->]; exact E).
  destruct (receive_spec _ _ _ _ _ H E') as [(A & B & _)|A]; [by left|by right].
Qed.
Lemma send_answer h s outs op m s' out :
  srun new_session h = (s, outs) -> sends op m -> sstep s op = (s', out) ->
  let tr := strace_of h outs in
  (sendable tr m /\ exists data, op = SSend (Ok data) m /\ out = Ok (SData data))
  \/ (~ sendable tr m /\ (exists e, out = Err e) /\ s' = s).
Proof.
  intros H [data ->] E tr. apply srun_tracks in H.
  destruct (send_spec _ _ _ _ _ _ H E) as [(A & B & _)|A]; [left|by right]. eauto.
Qed.
Lemma rejected_no_effect s op s' out : sstep s op = (s', out) -> (forall x, out <> Ok x) -> s' = s.
Proof.
  (* any state, not only reachable ones: the programs write only on the way to Ok *)
  intros E X. unfold sstep in E.
  destruct op as [[data|e|w] m|[m|e|w]|m]; cbn [sop_prog run_prog] in E; try (injection E as <- <-; done).
  all: destruct m as [m|m|m|m|m|m|m|m|m|m|m|m|m|m|m|m|m|m|m|m|m|m|m|m];
    cbn [send_prog receive_prog run_prog write load load_and_delete] in E;
    try (injection E as <- <-; solve [done|by destruct (X _ eq_refl)]);
    repeat match type of E with
    | context [bool_decide ?P] => dec P
    | context [if ?c then _ else _] => destruct c eqn:?
    | context [match ?x with Some _ => _ | None => _ end] => destruct x eqn:?
    end; cbn in E;
    repeat match type of E with
    | context [bool_decide ?P] => dec P
    | context [if ?c then _ else _] => destruct c eqn:?
    end; cbn in E; injection E as <- <-;
    solve [done|by destruct (X _ eq_refl)|by apply same_calls|by apply same_registers|by apply same_registrations
          |by apply same_publishes|by apply same_subscribes|by apply same_subscriptions|by apply same_unregisters
          |by apply same_unsubscribes].
Qed.

Lemma accepted_returns s op s' x : sstep s op = (s', Ok x) ->
  match op with
  | SSend data _ => exists bytes, data = Ok bytes /\ x = SData bytes
  | SReceive decoded => exists m, decoded = Ok m /\ x = SMessage m
  | SReceiveMessage m => x = SMessage m
  end.
Proof.
  intros E. unfold sstep in E.
  destruct op as [[data|e|w] m|[m|e|w]|m]; cbn [sop_prog run_prog] in E; try congruence.
  1: exists data; split; [done|]. 2: exists m; split; [done|].
  all: destruct m as [m|m|m|m|m|m|m|m|m|m|m|m|m|m|m|m|m|m|m|m|m|m|m|m];
    cbn [send_prog receive_prog run_prog write load load_and_delete] in E;
    try congruence;
    repeat match type of E with
    | context [bool_decide ?P] => dec P
    | context [if ?c then _ else _] => destruct c eqn:?
    | context [match ?x with Some _ => _ | None => _ end] => destruct x eqn:?
    end; cbn in E;
    repeat match type of E with
    | context [bool_decide ?P] => dec P
    | context [if ?c then _ else _] => destruct c eqn:?
    end; cbn in E; congruence.
Qed.

(** ** Consequences in the form of the property list *)
Lemma error_answer type (ok : list sevent -> N -> Prop) h s outs op m s' out :
  (forall tr, acceptable tr (MError m) <-> ok tr (er_request m)) -> er_type m = type ->
  srun new_session h = (s, outs) -> receives op (MError m) -> sstep s op = (s', out) ->
  let tr := strace_of h outs in
  (ok tr (er_request m) /\ out = Ok (SMessage (MError m)))
  \/ (~ ok tr (er_request m) /\ (exists e, out = Err e) /\ s' = s).
Proof.
  intros Hok Ht H R E tr. rewrite <- Hok. exact (receive_answer _ _ _ _ _ _ _ H R E).
Qed.
Ltac which_error Ht := intros ?tr; cbn [acceptable]; rewrite Ht; split; [intros ?X; noev; try done; try discriminate|intros ?X; tauto].
Lemma call_error_ok m : er_type m = 48 -> forall tr, acceptable tr (MError m) <-> call_open tr (er_request m).
Proof. intros Ht. which_error Ht. Qed.
Lemma register_error_ok m : er_type m = 64 -> forall tr, acceptable tr (MError m) <-> register_open tr (er_request m).
Proof. intros Ht. which_error Ht. Qed.
Lemma publish_error_ok m : er_type m = 16 -> forall tr, acceptable tr (MError m) <-> publish_open tr (er_request m).
Proof. intros Ht. which_error Ht. Qed.
Lemma subscribe_error_ok m : er_type m = 32 -> forall tr, acceptable tr (MError m) <-> subscribe_asked tr (er_request m).
Proof. intros Ht. which_error Ht. Qed.

Lemma since_app_not st en newer tr : ~ since st en tr -> Forall (fun e => ~ st e) newer ->
  ~ since st en (newer ++ tr).
Proof.
  intros H F. induction F as [|e newer He F IH]; [exact H|]. cbn [app since]. tauto.
Qed.
Lemma since_app_stays st en newer tr : since st en tr ->
  (forall a e b, newer = a ++ e :: b -> ~ en (b ++ tr) e) -> since st en (newer ++ tr).
Proof.
  intros H. induction newer as [|e newer IH]; intros F; [exact H|]. cbn [app since]. right. split.
  - exact (F [] e newer eq_refl).
  - apply IH. intros a x b ->. apply (F (e :: a) x b). done.
Qed.

Lemma strace_of_app h1 h2 o1 o2 : length h1 = length o1 ->
  strace_of (h1 ++ h2) (o1 ++ o2) = strace_of h2 o2 ++ strace_of h1 o1.
Proof.
  revert o1. induction h1 as [|op h1 IH]; intros [|o o1] L; try discriminate; cbn [app strace_of].
  - by rewrite app_nil_r.
  - cbn in L. rewrite IH by lia. by rewrite app_assoc.
Qed.
Lemma srun_length h : forall s s' outs, srun s h = (s', outs) -> length h = length outs.
Proof.
  induction h as [|op h IH]; intros s s' outs E; cbn [srun] in E.
  - by injection E as <- <-.
  - destruct (sstep s op) as [s1 r]. destruct (srun s1 h) as [s2 rs] eqn:E2. injection E as <- <-.
    cbn. f_equal. by eapply IH.
Qed.
Lemma srun_app h1 h2 s s1 o1 s2 o2 : srun s h1 = (s1, o1) -> srun s1 h2 = (s2, o2) ->
  srun s (h1 ++ h2) = (s2, o1 ++ o2).
Proof.
  revert s s1 o1. induction h1 as [|op h1 IH]; intros s s1 o1 A B; cbn [srun app] in *.
  - by injection A as <- <-.
  - destruct (sstep s op) as [s0 r]. destruct (srun s0 h1) as [sx rs] eqn:E. injection A as <- <-.
    by rewrite (IH _ _ _ E B).
Qed.

(** After UNREGISTERED [r] was accepted, a second one is rejected unless a
    REGISTERED came or UNREGISTER [r] was sent again. *)
Lemma unregistered_once h1 s1 o1 op u s2 h2 s3 o2 op' s4 out :
  srun new_session h1 = (s1, o1) -> receives op (MUnregistered u) ->
  sstep s1 op = (s2, Ok (SMessage (MUnregistered u))) ->
  srun s2 h2 = (s3, o2) ->
  (forall e, e ∈ strace_of h2 o2 -> (forall x, e <> Got (MRegistered x))
     /\ forall x, e = Sent (MUnregister x) -> ur_request x <> un_request u) ->
  receives op' (MUnregistered u) -> sstep s3 op' = (s4, out) ->
  exists e, out = Err e.
Proof.
  intros H1 R1 E1 H2 Hno R2 E2.
  destruct (receive_answer _ _ _ _ _ _ _ H1 R1 E1) as [[(g & Ag & Rg) _]|(_ & (e & X) & _)]; [|discriminate].
  assert (srun new_session (h1 ++ op :: h2) = (s3, o1 ++ Ok (SMessage (MUnregistered u)) :: o2)) as H.
  { eapply srun_app; [exact H1|]. cbn [srun]. rewrite E1. by rewrite H2. }
  destruct (receive_answer _ _ _ _ _ _ _ H R2 E2) as [[(g' & Ag' & Rg') _]|(_ & X & _)]; [exfalso|exact X].
  revert Ag' Rg'. rewrite strace_of_app by (by eapply srun_length). cbn [strace_of].
  assert (event_of op (Ok (SMessage (MUnregistered u))) = Some (Got (MUnregistered u))) as ->
    by (by destruct R1 as [->| ->]).
  rewrite <- app_assoc. cbn [app]. intros Ag' Rg'.
  assert (g' = g) as ->.
  { pose proof (srun_tracks _ _ _ H) as K. rewrite strace_of_app in K by (by eapply srun_length).
    cbn [strace_of] in K.
    assert (event_of op (Ok (SMessage (MUnregistered u))) = Some (Got (MUnregistered u))) as X
      by (by destruct R1 as [->| ->]).
    rewrite X in K. rewrite <- app_assoc in K. cbn [app] in K.
    destruct (decide (g' = g)) as [->|Hne]; [done|]. exfalso.
    (* the last UNREGISTER naming g' would be newer *)
    refine (since_app_not _ _ (strace_of h2 o2) _ _ _ Ag').
    - cbn [since]. intros [X'|[_ X']]; [noev|].
      pose proof (srun_tracks _ _ _ H1) as K1. exact (Hne (unregister_fun _ _ K1 _ _ _ X' Ag)).
    - apply Forall_forall. intros e He (m & -> & Hr & _). by apply (proj2 (Hno _ He) m). }
  refine (since_app_not _ _ (strace_of h2 o2) _ _ _ Rg').
  - cbn [since]. intros [X|[X _]]; [noev|]. apply X. eauto.
  - apply Forall_forall. intros e He (m & -> & _). by apply (proj1 (Hno _ He) m).
Qed.
Lemma unsubscribed_once h1 s1 o1 op u s2 h2 s3 o2 op' s4 out :
  srun new_session h1 = (s1, o1) -> receives op (MUnsubscribed u) ->
  sstep s1 op = (s2, Ok (SMessage (MUnsubscribed u))) ->
  srun s2 h2 = (s3, o2) ->
  (forall e, e ∈ strace_of h2 o2 -> (forall x, e <> Got (MSubscribed x))
     /\ forall x, e = Sent (MUnsubscribe x) -> us_request x <> ud_request u) ->
  receives op' (MUnsubscribed u) -> sstep s3 op' = (s4, out) ->
  exists e, out = Err e.
Proof.
  intros H1 R1 E1 H2 Hno R2 E2.
  destruct (receive_answer _ _ _ _ _ _ _ H1 R1 E1) as [[(g & Ag & Rg) _]|(_ & (e & X) & _)]; [|discriminate].
  assert (srun new_session (h1 ++ op :: h2) = (s3, o1 ++ Ok (SMessage (MUnsubscribed u)) :: o2)) as H.
  { eapply srun_app; [exact H1|]. cbn [srun]. rewrite E1. by rewrite H2. }
  destruct (receive_answer _ _ _ _ _ _ _ H R2 E2) as [[(g' & Ag' & Rg') _]|(_ & X & _)]; [exfalso|exact X].
  revert Ag' Rg'. rewrite strace_of_app by (by eapply srun_length). cbn [strace_of].
  assert (event_of op (Ok (SMessage (MUnsubscribed u))) = Some (Got (MUnsubscribed u))) as ->
    by (by destruct R1 as [->| ->]).
  rewrite <- app_assoc. cbn [app]. intros Ag' Rg'.
  assert (g' = g) as ->.
  { destruct (decide (g' = g)) as [->|Hne]; [done|]. exfalso.
    refine (since_app_not _ _ (strace_of h2 o2) _ _ _ Ag').
    - cbn [since]. intros [X'|[_ X']]; [noev|].
      pose proof (srun_tracks _ _ _ H1) as K1. exact (Hne (unsubscribe_fun _ _ K1 _ _ _ X' Ag)).
    - apply Forall_forall. intros e He (m & -> & Hr & _). by apply (proj2 (Hno _ He) m). }
  refine (since_app_not _ _ (strace_of h2 o2) _ _ _ Rg').
  - cbn [since]. intros [X|[X _]]; [noev|]. apply X. eauto.
  - apply Forall_forall. intros e He (m & -> & _). by apply (proj1 (Hno _ He) m).
Qed.
(** After an ERROR answered SUBSCRIBE [r], no answer is accepted until it is
    sent again. *)
Lemma subscribe_error_final h1 s1 o1 op e s2 h2 s3 o2 op' m s4 out :
  srun new_session h1 = (s1, o1) -> receives op (MError e) -> er_type e = 32 ->
  sstep s1 op = (s2, Ok (SMessage (MError e))) ->
  srun s2 h2 = (s3, o2) ->
  (forall x, Sent (MSubscribe x) ∈ strace_of h2 o2 -> su_request x <> er_request e) ->
  (exists x, m = MSubscribed x /\ sd_request x = er_request e)
  \/ (exists x, m = MError x /\ er_type x = 32 /\ er_request x = er_request e) ->
  receives op' m -> sstep s3 op' = (s4, out) ->
  exists e, out = Err e.
Proof.
  intros H1 R1 Ht E1 H2 Hno Hm R2 E2.
  assert (srun new_session (h1 ++ op :: h2) = (s3, o1 ++ Ok (SMessage (MError e)) :: o2)) as H.
  { eapply srun_app; [exact H1|]. cbn [srun]. rewrite E1. by rewrite H2. }
  assert (~ subscribe_asked (strace_of (h1 ++ op :: h2) (o1 ++ Ok (SMessage (MError e)) :: o2)) (er_request e)) as N.
  { rewrite strace_of_app by (by eapply srun_length). cbn [strace_of].
    assert (event_of op (Ok (SMessage (MError e))) = Some (Got (MError e))) as -> by (by destruct R1 as [->| ->]).
    rewrite <- app_assoc. cbn [app]. apply since_app_not.
    - cbn [since]. intros [X|[X _]]; [noev|]. apply X. unfold got_error. eauto.
    - apply Forall_forall. intros x Hx (y & -> & Hy). by apply (Hno y). }
  destruct (receive_answer _ _ _ _ _ _ _ H R2 E2) as [[A _]|(_ & X & _)]; [exfalso|exact X].
  destruct Hm as [(x & -> & Hx)|(x & -> & Hx & Hr)]; cbn [acceptable] in A; apply N.
  - by rewrite Hx in A.
  - rewrite <- Hr. by apply (subscribe_error_ok x).
Qed.

Lemma open_after_result tr m :
  (yes (re_details m) "progress" -> forall r, call_open (Got (MResult m) :: tr) r <-> call_open tr r)
  /\ (~ yes (re_details m) "progress" -> ~ call_open (Got (MResult m) :: tr) (re_request m)).
Proof.
  split.
  - intros Hy r. apply since_skip; unfold got_error; intros X; noev. contradiction.
  - intros Hn. unfold call_open. cbn [since]. intros [X|[X _]]; [noev|]. apply X. left. eauto.
Qed.

Lemma answers_unchecked s op m :
  sends op m -> (exists y, m = MYield y) \/ (exists e, m = MError e /\ er_type e = 68) ->
  exists s' data, op = SSend (Ok data) m /\ sstep s op = (s', Ok (SData data)).
Proof.
  intros [data ->] [[y ->]|(e & -> & He)]; unfold sstep; cbn [sop_prog send_prog].
  - destruct (flag _ _); cbn; eauto.
  - rewrite He. cbn. eauto.
Qed.
