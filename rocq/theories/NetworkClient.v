(** One client and its two queues: replaying the queue from the router on the
    client's session leads to a session that agrees with the router. *)
From Verif Require Import Prelude Value Msg IdGen Types PathMatch Mutex Broker Dealer Session Network.
From Verif Require Import BrokerSpec DealerSpec NetworkSpec.

(** ** What ReceiveMessage does, as a function *)

Definition pop_call r s := if decide (r ∈ cs_calls s) then Some (cset_calls (cs_calls s ∖ {[r]}) s) else None.
Definition pop_register r s := if decide (r ∈ cs_registers s) then Some (cset_registers (cs_registers s ∖ {[r]}) s) else None.
Definition pop_publish r s := if decide (r ∈ cs_publishes s) then Some (cset_publishes (cs_publishes s ∖ {[r]}) s) else None.

Definition acc (s : session) (m : message) : option session :=
  match m with
  | MResult x =>
      if flag (re_details x) "progress"
      then if decide (re_request x ∈ cs_calls s) then Some s else None
      else pop_call (re_request x) s
  | MRegistered x =>
      (fun s' => cset_registrations ({[rd_registration x]} ∪ cs_registrations s) s') <$> pop_register (rd_request x) s
  | MUnregistered x =>
      match cs_unregisters s !! un_request x with
      | Some g => if decide (g ∈ cs_registrations s)
                  then Some (cset_registrations (cs_registrations s ∖ {[g]}) s) else None
      | None => None
      end
  | MInvocation x =>
      if decide (in_registration x ∈ cs_registrations s)
      then Some (cset_invocations ({[in_request x]} ∪ cs_invocations s) s) else None
  | MPublished x => pop_publish (pd_request x) s
  | MSubscribed x =>
      if decide (sd_request x ∈ cs_subscribes s)
      then Some (cset_subscriptions ({[sd_subscription x]} ∪ cs_subscriptions s) s) else None
  | MUnsubscribed x =>
      match cs_unsubscribes s !! ud_request x with
      | Some g => if decide (g ∈ cs_subscriptions s)
                  then Some (cset_subscriptions (cs_subscriptions s ∖ {[g]}) s) else None
      | None => None
      end
  | MEvent x => if decide (ev_subscription x ∈ cs_subscriptions s) then Some s else None
  | MError x =>
      let r := er_request x in
      if er_type x =? tCall then pop_call r s
      else if er_type x =? tRegister then pop_register r s
      else if er_type x =? tUnregister then
        if decide (is_Some (cs_unregisters s !! r))
        then Some (cset_unregisters (delete r (cs_unregisters s)) s) else None
      else if er_type x =? tSubscribe then
        if decide (r ∈ cs_subscribes s)
        then Some (cset_subscribes (cs_subscribes s ∖ {[r]}) s) else None
      else if er_type x =? tUnsubscribe then
        if decide (is_Some (cs_unsubscribes s !! r))
        then Some (cset_unsubscribes (delete r (cs_unsubscribes s)) s) else None
      else if er_type x =? tPublish then pop_publish r s
      else None
  | MGoodbye _ | MAbort _ => Some s
  | _ => None
  end.

Lemma acc_ok s m s' : acc s m = Some s' -> exists x, sstep s (SReceiveMessage m) = (s', Ok x).
Proof.
  unfold sstep, sop_prog.
  destruct m; cbn [acc receive_prog]; try discriminate; unfold pop_call, pop_register, pop_publish;
    cbn [run_prog load load_and_delete write fmap option_fmap option_map].
  all: try (case_decide; [|discriminate]; rewrite bool_decide_eq_true_2 by done).
  all: cbn [run_prog load load_and_delete write fmap option_fmap option_map].
  all: try (intros HH; injection HH as <-; eexists; reflexivity).
  - repeat match goal with |- context [if ?b =? ?c then _ else _] => destruct (b =? c) end.
    all: cbn [run_prog load load_and_delete]; try discriminate.
    all: case_decide; [|discriminate]; rewrite bool_decide_eq_true_2 by done;
      intros H'; injection H' as <-; eexists; reflexivity.
  - destruct (_ !! _); [|discriminate]. case_decide; [|discriminate].
    cbn [run_prog load_and_delete]. rewrite bool_decide_eq_true_2 by done.
    intros H'; injection H' as <-; eexists; reflexivity.
  - destruct (flag _ _); (case_decide; [|discriminate]); rewrite bool_decide_eq_true_2 by done;
      intros H'; injection H' as <-; eexists; reflexivity.
  - destruct (_ !! _); [|discriminate]. case_decide; [|discriminate].
    cbn [run_prog load_and_delete]. rewrite bool_decide_eq_true_2 by done.
    intros H'; injection H' as <-; eexists; reflexivity.
Qed.

Definition replay (s : session) (q : list message) : option session :=
  fold_left (fun x m => x ≫= (fun s => acc s m)) q (Some s).
Lemma replay_none q : fold_left (fun x m => x ≫= (fun s => acc s m)) q None = None.
Proof. induction q; [done|]. cbn. done. Qed.
Lemma replay_cons s m q s' : replay s (m :: q) = Some s' -> exists s1, acc s m = Some s1 /\ replay s1 q = Some s'.
Proof.
  unfold replay. cbn [fold_left]. change (Some s ≫= _) with (acc s m).
  destruct (acc s m) as [s1|] eqn:E; [eauto|]. by rewrite replay_none.
Qed.
Lemma replay_cons_2 s m q s1 : acc s m = Some s1 -> replay s (m :: q) = replay s1 q.
Proof. unfold replay. cbn [fold_left]. change (Some s ≫= _) with (acc s m). by intros ->. Qed.
Lemma replay_snoc s q m s' : replay s q = Some s' -> replay s (q ++ [m]) = acc s' m.
Proof. unfold replay. rewrite fold_left_app. by intros ->. Qed.

(** ** What SendMessage does *)

Definition noted (s : session) (m : message) : session :=
  match m with
  | MCall c => cset_calls ({[ca_request c]} ∪ cs_calls s) s
  | MRegister r => cset_registers ({[rg_request r]} ∪ cs_registers s) s
  | MUnregister u => cset_unregisters (<[ur_request u := ur_registration u]> (cs_unregisters s)) s
  | MPublish p => if flag (pu_options p) "acknowledge"
                  then cset_publishes ({[pu_request p]} ∪ cs_publishes s) s else s
  | MSubscribe u => cset_subscribes ({[su_request u]} ∪ cs_subscribes s) s
  | MUnsubscribe u => cset_unsubscribes (<[us_request u := us_subscription u]> (cs_unsubscribes s)) s
  | _ => s
  end.
Lemma send_noted s d m s' r : sstep s (SSend (Ok d) m) = (s', r) ->
  (exists x, r = Ok x /\ exists X, s' = cset_invocations X (noted s m)) \/ (s' = s /\ exists e, r = Err e).
Proof.
  unfold sstep, sop_prog.
  assert (Hid : forall t, t = cset_invocations (cs_invocations t) t) by (by intros []).
  destruct m; cbn [send_prog run_prog load write noted]; intros H.
  all: try (injection H as <- <-; right; split; [done|by eexists]).
  all: try (injection H as <- <-; left; eexists; split; [done|eexists; apply Hid]).
  - destruct (negb _); cbn [run_prog write] in H; injection H as <- <-; [right|left].
    + split; [done|by eexists].
    + eexists; split; [done|]. by eexists.
  - destruct (flag _ _); cbn [run_prog write] in H; injection H as <- <-; left; (eexists; split; [done|]); [eexists; apply Hid..].
  - case_bool_decide; cbn [run_prog write] in H; injection H as <- <-; [left|right].
    + eexists; split; [done|]. eexists. apply Hid.
    + split; [done|by eexists].
  - destruct (flag _ _); cbn [run_prog write] in H; injection H as <- <-; left; (eexists; split; [done|]).
    + eexists. apply Hid.
    + by eexists.
Qed.

(** ** The two commute *)

Definition ans (m : message) : option N :=
  match m with
  | MResult x => Some (re_request x)
  | MRegistered x => Some (rd_request x)
  | MUnregistered x => Some (un_request x)
  | MPublished x => Some (pd_request x)
  | MSubscribed x => Some (sd_request x)
  | MUnsubscribed x => Some (ud_request x)
  | MError x => Some (er_request x)
  | _ => None
  end.

Ltac scbn := cbn [cs_calls cs_registers cs_registrations cs_invocations
        cs_unregisters cs_publishes cs_subscribes cs_subscriptions cs_unsubscribes cset_calls cset_registers
        cset_registrations cset_unregisters cset_publishes cset_subscribes cset_subscriptions cset_unsubscribes
        cset_invocations fmap option_fmap option_map acc].

(** Messages that do not look at a field. *)
Definition err_on (t : N) (x : error) : option N := if er_type x =? t then Some (er_request x) else None.
Definition on_calls (m : message) : option N :=
  match m with MResult x => Some (re_request x) | MError x => err_on tCall x | _ => None end.
Definition on_registers (m : message) : option N :=
  match m with MRegistered x => Some (rd_request x) | MError x => err_on tRegister x | _ => None end.
Definition on_publishes (m : message) : option N :=
  match m with MPublished x => Some (pd_request x) | MError x => err_on tPublish x | _ => None end.
Definition on_subscribes (m : message) : option N :=
  match m with MSubscribed x => Some (sd_request x) | MError x => err_on tSubscribe x | _ => None end.
Definition on_unregisters (m : message) : option N :=
  match m with MUnregistered x => Some (un_request x) | MError x => err_on tUnregister x | _ => None end.
Definition on_unsubscribes (m : message) : option N :=
  match m with MUnsubscribed x => Some (ud_request x) | MError x => err_on tUnsubscribe x | _ => None end.

Ltac frame s m :=
  destruct s; destruct m; intros H; try discriminate H; try reflexivity;
  scbn; unfold pop_call, pop_register, pop_publish; scbn;
  cbn [on_calls on_registers on_publishes on_subscribes on_unregisters on_unsubscribes err_on] in H;
  unfold err_on in H; revert H;
  repeat match goal with |- context [match ?b with _ => _ end] =>
    destruct b eqn:?; try (intros H; discriminate H); try (intros _; reflexivity) end.
Lemma frame_calls X s m : on_calls m = None -> acc (cset_calls X s) m = cset_calls X <$> acc s m.
Proof. frame s m. Qed.
Lemma frame_registers X s m : on_registers m = None -> acc (cset_registers X s) m = cset_registers X <$> acc s m.
Proof. frame s m. Qed.
Lemma frame_publishes X s m : on_publishes m = None -> acc (cset_publishes X s) m = cset_publishes X <$> acc s m.
Proof. frame s m. Qed.
Lemma frame_subscribes X s m : on_subscribes m = None -> acc (cset_subscribes X s) m = cset_subscribes X <$> acc s m.
Proof. frame s m. Qed.
Lemma frame_unregisters X s m : on_unregisters m = None -> acc (cset_unregisters X s) m = cset_unregisters X <$> acc s m.
Proof. frame s m. Qed.
Lemma frame_unsubscribes X s m : on_unsubscribes m = None -> acc (cset_unsubscribes X s) m = cset_unsubscribes X <$> acc s m.
Proof. frame s m. Qed.
Lemma frame_invocations X s m : exists X', acc (cset_invocations X s) m = cset_invocations X' <$> acc s m.
Proof.
  destruct m; try (exists ∅; reflexivity).
  all: try (exists X; destruct s; scbn; unfold pop_call, pop_register, pop_publish; scbn;
    repeat match goal with |- context [match ?b with _ => _ end] => destruct b eqn:?; try reflexivity end; done).
  destruct s. scbn. eexists. by case_decide.
Qed.

Lemma same_calls s m s' : acc s m = Some s' -> on_calls m = None -> cs_calls s' = cs_calls s.
Proof.
  intros H E. assert (Hs : cset_calls (cs_calls s) s = s) by (by destruct s).
  pose proof (frame_calls (cs_calls s) s m E) as F. rewrite Hs, H in F.
  cbn in F. injection F as F. rewrite F. done.
Qed.

Lemma same_registers s m s' : acc s m = Some s' -> on_registers m = None -> cs_registers s' = cs_registers s.
Proof.
  intros H E. assert (Hs : cset_registers (cs_registers s) s = s) by (by destruct s).
  pose proof (frame_registers (cs_registers s) s m E) as F. rewrite Hs, H in F.
  cbn in F. injection F as F. rewrite F. done.
Qed.

Lemma same_publishes s m s' : acc s m = Some s' -> on_publishes m = None -> cs_publishes s' = cs_publishes s.
Proof.
  intros H E. assert (Hs : cset_publishes (cs_publishes s) s = s) by (by destruct s).
  pose proof (frame_publishes (cs_publishes s) s m E) as F. rewrite Hs, H in F.
  cbn in F. injection F as F. rewrite F. done.
Qed.

Lemma same_subscribes s m s' : acc s m = Some s' -> on_subscribes m = None -> cs_subscribes s' = cs_subscribes s.
Proof.
  intros H E. assert (Hs : cset_subscribes (cs_subscribes s) s = s) by (by destruct s).
  pose proof (frame_subscribes (cs_subscribes s) s m E) as F. rewrite Hs, H in F.
  cbn in F. injection F as F. rewrite F. done.
Qed.

Lemma same_unregisters s m s' : acc s m = Some s' -> on_unregisters m = None -> cs_unregisters s' = cs_unregisters s.
Proof.
  intros H E. assert (Hs : cset_unregisters (cs_unregisters s) s = s) by (by destruct s).
  pose proof (frame_unregisters (cs_unregisters s) s m E) as F. rewrite Hs, H in F.
  cbn in F. injection F as F. rewrite F. done.
Qed.

Lemma same_unsubscribes s m s' : acc s m = Some s' -> on_unsubscribes m = None -> cs_unsubscribes s' = cs_unsubscribes s.
Proof.
  intros H E. assert (Hs : cset_unsubscribes (cs_unsubscribes s) s = s) by (by destruct s).
  pose proof (frame_unsubscribes (cs_unsubscribes s) s m E) as F. rewrite Hs, H in F.
  cbn in F. injection F as F. rewrite F. done.
Qed.
Lemma add_calls r s m s' : acc s m = Some s' -> on_calls m <> Some r ->
  acc (cset_calls ({[r]} ∪ cs_calls s) s) m = Some (cset_calls ({[r]} ∪ cs_calls s') s').
Proof.
  intros H Hr. destruct (on_calls m) as [q|] eqn:E.
  2:{ rewrite frame_calls, H by done. by rewrite (same_calls _ _ _ H E). }
  assert (q <> r) by congruence. clear Hr.
  assert (Hq : ({[r]} ∪ cs_calls s) ∖ {[q]} = {[r]} ∪ (cs_calls s ∖ {[q]})) by set_solver.
  destruct m; try discriminate E.
  - cbn [on_calls] in E. unfold err_on in E. destruct (er_type m =? _) eqn:Et; [|discriminate].
    injection E as Eq. apply N.eqb_eq in Et. cbn [acc] in H |- *. rewrite Et in H |- *.
    unfold pop_call, pop_register, pop_publish in H |- *. rewrite Eq in H |- *.
    cbn in H |- *. case_decide; [|discriminate]. rewrite decide_True by set_solver.
    injection H as <-. destruct s; unfold cset_calls; cbn. cbn in Hq. by rewrite Hq.
  - cbn [on_calls] in E. injection E as Eq. cbn [acc] in H |- *. unfold pop_call in *. rewrite Eq in H |- *.
    cbn [cs_calls cset_calls]. destruct (flag _ _); (case_decide; [|discriminate]); rewrite decide_True by set_solver;
      injection H as <-; [done|]. destruct s; unfold cset_calls; cbn. cbn in Hq. by rewrite Hq.
Qed.
Lemma add_registers r s m s' : acc s m = Some s' -> on_registers m <> Some r ->
  acc (cset_registers ({[r]} ∪ cs_registers s) s) m = Some (cset_registers ({[r]} ∪ cs_registers s') s').
Proof.
  intros H Hr. destruct (on_registers m) as [q|] eqn:E.
  2:{ rewrite frame_registers, H by done. by rewrite (same_registers _ _ _ H E). }
  assert (q <> r) by congruence. clear Hr.
  assert (Hq : ({[r]} ∪ cs_registers s) ∖ {[q]} = {[r]} ∪ (cs_registers s ∖ {[q]})) by set_solver.
  destruct m; try discriminate E.
  - cbn [on_registers] in E. unfold err_on in E. destruct (er_type m =? _) eqn:Et; [|discriminate].
    injection E as Eq. apply N.eqb_eq in Et. cbn [acc] in H |- *. rewrite Et in H |- *.
    unfold pop_call, pop_register, pop_publish in H |- *. rewrite Eq in H |- *.
    cbn in H |- *. case_decide; [|discriminate]. rewrite decide_True by set_solver.
    injection H as <-. destruct s; unfold cset_registers; cbn. cbn in Hq. by rewrite Hq.
  - cbn [on_registers] in E. injection E as Eq. cbn [acc] in H |- *. unfold pop_register in *. rewrite Eq in H |- *.
    cbn [cs_registers cset_registers]. case_decide; [|discriminate]. rewrite decide_True by set_solver.
    injection H as <-. destruct s; unfold cset_registers; cbn. cbn in Hq. by rewrite Hq.
Qed.
Lemma add_publishes r s m s' : acc s m = Some s' -> on_publishes m <> Some r ->
  acc (cset_publishes ({[r]} ∪ cs_publishes s) s) m = Some (cset_publishes ({[r]} ∪ cs_publishes s') s').
Proof.
  intros H Hr. destruct (on_publishes m) as [q|] eqn:E.
  2:{ rewrite frame_publishes, H by done. by rewrite (same_publishes _ _ _ H E). }
  assert (q <> r) by congruence. clear Hr.
  assert (Hq : ({[r]} ∪ cs_publishes s) ∖ {[q]} = {[r]} ∪ (cs_publishes s ∖ {[q]})) by set_solver.
  destruct m; try discriminate E.
  - cbn [on_publishes] in E. unfold err_on in E. destruct (er_type m =? _) eqn:Et; [|discriminate].
    injection E as Eq. apply N.eqb_eq in Et. cbn [acc] in H |- *. rewrite Et in H |- *.
    unfold pop_call, pop_register, pop_publish in H |- *. rewrite Eq in H |- *.
    cbn in H |- *. case_decide; [|discriminate]. rewrite decide_True by set_solver.
    injection H as <-. destruct s; unfold cset_publishes; cbn. cbn in Hq. by rewrite Hq.
  - cbn [on_publishes] in E. injection E as Eq. cbn [acc] in H |- *. unfold pop_publish in *. rewrite Eq in H |- *.
    cbn [cs_publishes cset_publishes]. case_decide; [|discriminate]. rewrite decide_True by set_solver.
    injection H as <-. destruct s; unfold cset_publishes; cbn. cbn in Hq. by rewrite Hq.
Qed.
Lemma add_subscribes r s m s' : acc s m = Some s' -> on_subscribes m <> Some r ->
  acc (cset_subscribes ({[r]} ∪ cs_subscribes s) s) m = Some (cset_subscribes ({[r]} ∪ cs_subscribes s') s').
Proof.
  intros H Hr. destruct (on_subscribes m) as [q|] eqn:E.
  2:{ rewrite frame_subscribes, H by done. by rewrite (same_subscribes _ _ _ H E). }
  assert (q <> r) by congruence. clear Hr.
  assert (Hq : ({[r]} ∪ cs_subscribes s) ∖ {[q]} = {[r]} ∪ (cs_subscribes s ∖ {[q]})) by set_solver.
  destruct m; try discriminate E.
  - cbn [on_subscribes] in E. unfold err_on in E. destruct (er_type m =? _) eqn:Et; [|discriminate].
    injection E as Eq. apply N.eqb_eq in Et. cbn [acc] in H |- *. rewrite Et in H |- *.
    unfold pop_call, pop_register, pop_publish in H |- *. rewrite Eq in H |- *.
    cbn in H |- *. case_decide; [|discriminate]. rewrite decide_True by set_solver.
    injection H as <-. destruct s; unfold cset_subscribes; cbn. cbn in Hq. by rewrite Hq.
  - cbn [on_subscribes] in E. injection E as Eq. cbn [acc] in H |- *. rewrite Eq in H |- *.
    cbn [cs_subscribes cset_subscribes]. case_decide; [|discriminate]. rewrite decide_True by set_solver.
    injection H as <-. done.
Qed.
Lemma add_unregisters r g s m s' : acc s m = Some s' -> on_unregisters m <> Some r ->
  acc (cset_unregisters (<[r := g]> (cs_unregisters s)) s) m = Some (cset_unregisters (<[r := g]> (cs_unregisters s')) s').
Proof.
  intros H Hr. destruct (on_unregisters m) as [q|] eqn:E.
  2:{ rewrite frame_unregisters, H by done. by rewrite (same_unregisters _ _ _ H E). }
  assert (r <> q) by congruence. clear Hr.
  destruct m; try discriminate E.
  - cbn [on_unregisters] in E. unfold err_on in E. destruct (er_type m =? _) eqn:Et; [|discriminate].
    injection E as Eq. apply N.eqb_eq in Et. cbn [acc] in H |- *. rewrite Et in H |- *.
    rewrite Eq in H |- *. cbn in H |- *. rewrite lookup_insert_ne by done.
    case_decide; [|discriminate].
    injection H as <-. destruct s; unfold cset_unregisters; cbn. by rewrite delete_insert_ne by done.
  - cbn [on_unregisters] in E. injection E as Eq. cbn [acc] in H |- *. rewrite Eq in H |- *.
    cbn [cs_unregisters cset_unregisters cs_registrations cs_subscriptions]. rewrite lookup_insert_ne by done.
    destruct (cs_unregisters s !! q); [|discriminate]. cbn. case_decide; [|discriminate]. by injection H as <-.
Qed.
Lemma add_unsubscribes r g s m s' : acc s m = Some s' -> on_unsubscribes m <> Some r ->
  acc (cset_unsubscribes (<[r := g]> (cs_unsubscribes s)) s) m = Some (cset_unsubscribes (<[r := g]> (cs_unsubscribes s')) s').
Proof.
  intros H Hr. destruct (on_unsubscribes m) as [q|] eqn:E.
  2:{ rewrite frame_unsubscribes, H by done. by rewrite (same_unsubscribes _ _ _ H E). }
  assert (r <> q) by congruence. clear Hr.
  destruct m; try discriminate E.
  - cbn [on_unsubscribes] in E. unfold err_on in E. destruct (er_type m =? _) eqn:Et; [|discriminate].
    injection E as Eq. apply N.eqb_eq in Et. cbn [acc] in H |- *. rewrite Et in H |- *.
    rewrite Eq in H |- *. cbn in H |- *. rewrite lookup_insert_ne by done.
    case_decide; [|discriminate].
    injection H as <-. destruct s; unfold cset_unsubscribes; cbn. by rewrite delete_insert_ne by done.
  - cbn [on_unsubscribes] in E. injection E as Eq. cbn [acc] in H |- *. rewrite Eq in H |- *.
    cbn [cs_unsubscribes cset_unsubscribes cs_registrations cs_subscriptions]. rewrite lookup_insert_ne by done.
    destruct (cs_unsubscribes s !! q); [|discriminate]. cbn. case_decide; [|discriminate]. by injection H as <-.
Qed.

Lemma acc_noted s x m s' : acc s m = Some s' -> (forall r, request_of x = Some r -> ans m <> Some r) ->
  acc (noted s x) m = Some (noted s' x).
Proof.
  intros H Hr. destruct x as [x|x|x|x|x|x|x|x|x|x|x|x|x|x|x|x|x|x|x|x|x|x|x|x]; cbn [noted]; try done.
  all: cbn [request_of] in Hr; specialize (Hr _ eq_refl).
  1: destruct (flag _ _); [|done].
  all: first [apply add_calls|apply add_registers|apply add_publishes|apply add_subscribes
             |apply add_unregisters|apply add_unsubscribes]; [done|].
  all: destruct m; try done.
  all: cbn [ans on_calls on_registers on_publishes on_subscribes on_unregisters on_unsubscribes] in Hr |- *; try congruence.
  all: unfold err_on; destruct (_ =? _); congruence.
Qed.
Lemma replay_noted x q : forall s s', replay s q = Some s' ->
  (forall m r, m ∈ q -> request_of x = Some r -> ans m <> Some r) -> replay (noted s x) q = Some (noted s' x).
Proof.
  induction q as [|m q IH]; intros s s' H Hr.
  - injection H as <-. done.
  - apply replay_cons in H as (s1 & H1 & H2). rewrite (replay_cons_2 _ _ _ (noted s1 x)).
    + apply IH; [done|]. intros m' r Hm. apply Hr. by right.
    + apply acc_noted; [done|]. intros r. apply Hr. by left.
Qed.
Lemma replay_invocations X q : forall s s', replay s q = Some s' ->
  exists X', replay (cset_invocations X s) q = Some (cset_invocations X' s').
Proof.
  revert X. induction q as [|m q IH]; intros X s s' H.
  - injection H as <-. by exists X.
  - apply replay_cons in H as (s1 & H1 & H2). destruct (frame_invocations X s m) as [X1 E]. rewrite H1 in E.
    destruct (IH X1 _ _ H2) as [X' E']. exists X'. by rewrite (replay_cons_2 _ _ _ _ E).
Qed.
