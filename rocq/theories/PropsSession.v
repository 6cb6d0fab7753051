(** Properties C54-C61, C78 and C87: the client session.
    [srun new_session h = (s, outs)] says that the calls of [h], in order, on a
    new session return [outs] and leave it in state [s]; [sstep s op = (s', out)]
    is one more call; [strace_of h outs] are the messages accepted so far. *)
From Verif Require Import Prelude Value Msg Mutex Session SessionSpec SessionProofs SessionConc SessionEx SessionHistory SessionLin SessionLinFacts.

(** ** C54 *)
Theorem C54_result : forall h s outs op m s' out,
  srun new_session h = (s, outs) -> receives op (MResult m) -> sstep s op = (s', out) ->
  let tr := strace_of h outs in
  (call_open tr (re_request m) /\ out = Ok (SMessage (MResult m)))
  \/ (~ call_open tr (re_request m) /\ (exists e, out = Err e) /\ s' = s).
Proof. intros h s outs op m. exact (receive_answer h s outs op (MResult m)). Qed.
Theorem C54_call_error : forall h s outs op m s' out,
  srun new_session h = (s, outs) -> receives op (MError m) -> er_type m = 48 -> sstep s op = (s', out) ->
  let tr := strace_of h outs in
  (call_open tr (er_request m) /\ out = Ok (SMessage (MError m)))
  \/ (~ call_open tr (er_request m) /\ (exists e, out = Err e) /\ s' = s).
Proof.
  intros h s outs op m s' out H R Ht E.
  exact (error_answer 48 call_open h s outs op m s' out (call_error_ok m Ht) Ht H R E).
Qed.
(** A progressive RESULT leaves the call open, a final one or an ERROR closes it. *)
Theorem C54_open_after : forall tr m,
  (yes (re_details m) "progress" -> forall r, call_open (Got (MResult m) :: tr) r <-> call_open tr r)
  /\ (~ yes (re_details m) "progress" -> ~ call_open (Got (MResult m) :: tr) (re_request m)).
Proof. exact open_after_result. Qed.
Example C54_ex : verdicts
  [recv (c_result 1 []); send (c_call 1); recv (c_result 1 [("progress"%string, ctrue)]);
   recv (c_result 2 []); recv (c_result 1 []); recv (c_result 1 []); send (c_call 1);
   recv (c_error 48 1); recv (c_error 48 1)]
  = [false; true; true; false; true; false; true; true; false].
Proof. vm_compute. reflexivity. Qed.

(** ** C55 *)
Theorem C55_registered : forall h s outs op m s' out,
  srun new_session h = (s, outs) -> receives op (MRegistered m) -> sstep s op = (s', out) ->
  let tr := strace_of h outs in
  (register_open tr (rd_request m) /\ out = Ok (SMessage (MRegistered m)))
  \/ (~ register_open tr (rd_request m) /\ (exists e, out = Err e) /\ s' = s).
Proof. intros h s outs op m. exact (receive_answer h s outs op (MRegistered m)). Qed.
Theorem C55_register_error : forall h s outs op m s' out,
  srun new_session h = (s, outs) -> receives op (MError m) -> er_type m = 64 -> sstep s op = (s', out) ->
  let tr := strace_of h outs in
  (register_open tr (er_request m) /\ out = Ok (SMessage (MError m)))
  \/ (~ register_open tr (er_request m) /\ (exists e, out = Err e) /\ s' = s).
Proof.
  intros h s outs op m s' out H R Ht E.
  exact (error_answer 64 register_open h s outs op m s' out (register_error_ok m Ht) Ht H R E).
Qed.
Theorem C55_published : forall h s outs op m s' out,
  srun new_session h = (s, outs) -> receives op (MPublished m) -> sstep s op = (s', out) ->
  let tr := strace_of h outs in
  (publish_open tr (pd_request m) /\ out = Ok (SMessage (MPublished m)))
  \/ (~ publish_open tr (pd_request m) /\ (exists e, out = Err e) /\ s' = s).
Proof. intros h s outs op m. exact (receive_answer h s outs op (MPublished m)). Qed.
Theorem C55_publish_error : forall h s outs op m s' out,
  srun new_session h = (s, outs) -> receives op (MError m) -> er_type m = 16 -> sstep s op = (s', out) ->
  let tr := strace_of h outs in
  (publish_open tr (er_request m) /\ out = Ok (SMessage (MError m)))
  \/ (~ publish_open tr (er_request m) /\ (exists e, out = Err e) /\ s' = s).
Proof.
  intros h s outs op m s' out H R Ht E.
  exact (error_answer 16 publish_open h s outs op m s' out (publish_error_ok m Ht) Ht H R E).
Qed.
Example C55_ex : verdicts
  [send (c_register 1); recv (c_registered 2 9); recv (c_registered 1 9); recv (c_registered 1 9); recv (c_error 64 1);
   send (c_publish 3 []); recv (c_published 3); send (c_publish 3 [("acknowledge"%string, ctrue)]);
   recv (c_error 16 3); recv (c_published 3)]
  = [true; false; true; false; false; true; false; true; true; false].
Proof. vm_compute. reflexivity. Qed.

(** ** C56 *)
Theorem C56_invocation : forall h s outs op m s' out,
  srun new_session h = (s, outs) -> receives op (MInvocation m) -> sstep s op = (s', out) ->
  let tr := strace_of h outs in
  (registered_at tr (in_registration m) /\ out = Ok (SMessage (MInvocation m)))
  \/ (~ registered_at tr (in_registration m) /\ (exists e, out = Err e) /\ s' = s).
Proof. intros h s outs op m. exact (receive_answer h s outs op (MInvocation m)). Qed.
Theorem C56_unregistered : forall h s outs op m s' out,
  srun new_session h = (s, outs) -> receives op (MUnregistered m) -> sstep s op = (s', out) ->
  let tr := strace_of h outs in
  let ok := exists g, unregister_asked tr (un_request m) g /\ registered_at tr g in
  (ok /\ out = Ok (SMessage (MUnregistered m))) \/ (~ ok /\ (exists e, out = Err e) /\ s' = s).
Proof. intros h s outs op m. exact (receive_answer h s outs op (MUnregistered m)). Qed.
Example C56_ex : verdicts
  [recv (c_invocation 5 9); send (c_register 1); recv (c_registered 1 9); recv (c_invocation 5 9);
   recv (c_invocation 6 1); send (c_unregister 2 9); recv (c_invocation 6 9); recv (c_unregistered 2);
   recv (c_invocation 7 9); recv (c_unregistered 2)]
  = [false; true; true; true; false; true; true; true; false; false].
Proof. vm_compute. reflexivity. Qed.

(** ** C57 *)
Theorem C57_event : forall h s outs op m s' out,
  srun new_session h = (s, outs) -> receives op (MEvent m) -> sstep s op = (s', out) ->
  let tr := strace_of h outs in
  (subscribed_at tr (ev_subscription m) /\ out = Ok (SMessage (MEvent m)))
  \/ (~ subscribed_at tr (ev_subscription m) /\ (exists e, out = Err e) /\ s' = s).
Proof. intros h s outs op m. exact (receive_answer h s outs op (MEvent m)). Qed.
Theorem C57_unsubscribe : forall h s outs op m s' out,
  srun new_session h = (s, outs) -> sends op (MUnsubscribe m) -> sstep s op = (s', out) ->
  let tr := strace_of h outs in
  (subscribed_at tr (us_subscription m) /\ exists data, op = SSend (Ok data) (MUnsubscribe m) /\ out = Ok (SData data))
  \/ (~ subscribed_at tr (us_subscription m) /\ (exists e, out = Err e) /\ s' = s).
Proof. intros h s outs op m. exact (send_answer h s outs op (MUnsubscribe m)). Qed.
Theorem C57_unsubscribed : forall h s outs op m s' out,
  srun new_session h = (s, outs) -> receives op (MUnsubscribed m) -> sstep s op = (s', out) ->
  let tr := strace_of h outs in
  let ok := exists g, unsubscribe_asked tr (ud_request m) g /\ subscribed_at tr g in
  (ok /\ out = Ok (SMessage (MUnsubscribed m))) \/ (~ ok /\ (exists e, out = Err e) /\ s' = s).
Proof. intros h s outs op m. exact (receive_answer h s outs op (MUnsubscribed m)). Qed.
Example C57_ex : verdicts
  [recv (c_event 9); send (c_unsubscribe 2 9); send (c_subscribe 1); recv (c_subscribed 1 9); recv (c_event 9);
   recv (c_event 1); send (c_unsubscribe 2 9); recv (c_event 9); recv (c_unsubscribed 2); recv (c_event 9);
   send (c_unsubscribe 3 9)]
  = [false; false; true; true; true; false; true; true; true; false; false].
Proof. vm_compute. reflexivity. Qed.

(** ** C58: in every state, reachable or not. *)
Theorem C58_no_effect : forall s op s' out,
  sstep s op = (s', out) -> (forall x, out <> Ok x) -> s' = s.
Proof. exact rejected_no_effect. Qed.
(** What is returned without an error is what Serialize or Deserialize
    returned: its failures are never swallowed and nothing else is handed over. *)
Theorem C58_returns : forall s op s' x, sstep s op = (s', Ok x) ->
  match op with
  | SSend data _ => exists bytes, data = Ok bytes /\ x = SData bytes
  | SReceive decoded => exists m, decoded = Ok m /\ x = SMessage m
  | SReceiveMessage m => x = SMessage m
  end.
Proof. exact accepted_returns. Qed.
Example C58_ex : let s := after [send (c_register 1); send (c_subscribe 2)] in
  snd (sstep s (recv (c_registered 2 9))) = Err "invalid request id"
  /\ snd (sstep s (SSend (Err "cannot encode") (c_call 7))) = Err "cannot encode"
  /\ snd (sstep s (SReceive (Panic "decoder"))) = Panic "decoder"
  /\ verdicts [send (c_register 1); send (c_subscribe 2); recv (c_registered 2 9); recv (c_registered 1 9)]
     = [true; true; false; true].
Proof. vm_compute. done. Qed.

(** ** C59 *)
(** False: SUBSCRIBED is accepted again and again for one SUBSCRIBE; after
    UNSUBSCRIBED and UNREGISTERED the ERROR for the same request is still
    accepted. *)
Theorem C59_once_refuted :
  verdicts [send (c_subscribe 1); recv (c_subscribed 1 9); recv (c_subscribed 1 9); recv (c_subscribed 1 10);
            recv (c_error 32 1)]
    = [true; true; true; true; true]
  /\ verdicts [send (c_subscribe 1); recv (c_subscribed 1 9); send (c_unsubscribe 2 9); recv (c_unsubscribed 2);
               recv (c_error 34 2)]
    = [true; true; true; true; true]
  /\ verdicts [send (c_register 1); recv (c_registered 1 9); send (c_unregister 2 9); recv (c_unregistered 2);
               recv (c_error 66 2)]
    = [true; true; true; true; true].
Proof. vm_compute. done. Qed.
(** What holds: a second UNREGISTERED (UNSUBSCRIBED) is rejected as long as no
    REGISTERED (SUBSCRIBED) was accepted and the request was not sent again;
    after the ERROR to a SUBSCRIBE nothing more is accepted for it. *)
Theorem C59_unregistered_partial : forall h1 s1 o1 op u s2 h2 s3 o2 op' s4 out,
  srun new_session h1 = (s1, o1) -> receives op (MUnregistered u) ->
  sstep s1 op = (s2, Ok (SMessage (MUnregistered u))) ->
  srun s2 h2 = (s3, o2) ->
  (forall e, e ∈ strace_of h2 o2 -> (forall x, e <> Got (MRegistered x))
     /\ forall x, e = Sent (MUnregister x) -> ur_request x <> un_request u) ->
  receives op' (MUnregistered u) -> sstep s3 op' = (s4, out) ->
  exists e, out = Err e.
Proof. exact unregistered_once. Qed.
Theorem C59_unsubscribed_partial : forall h1 s1 o1 op u s2 h2 s3 o2 op' s4 out,
  srun new_session h1 = (s1, o1) -> receives op (MUnsubscribed u) ->
  sstep s1 op = (s2, Ok (SMessage (MUnsubscribed u))) ->
  srun s2 h2 = (s3, o2) ->
  (forall e, e ∈ strace_of h2 o2 -> (forall x, e <> Got (MSubscribed x))
     /\ forall x, e = Sent (MUnsubscribe x) -> us_request x <> ud_request u) ->
  receives op' (MUnsubscribed u) -> sstep s3 op' = (s4, out) ->
  exists e, out = Err e.
Proof. exact unsubscribed_once. Qed.
Theorem C59_subscribe_error_partial : forall h1 s1 o1 op e s2 h2 s3 o2 op' m s4 out,
  srun new_session h1 = (s1, o1) -> receives op (MError e) -> er_type e = 32 ->
  sstep s1 op = (s2, Ok (SMessage (MError e))) ->
  srun s2 h2 = (s3, o2) ->
  (forall x, Sent (MSubscribe x) ∈ strace_of h2 o2 -> su_request x <> er_request e) ->
  (exists x, m = MSubscribed x /\ sd_request x = er_request e)
  \/ (exists x, m = MError x /\ er_type x = 32 /\ er_request x = er_request e) ->
  receives op' m -> sstep s3 op' = (s4, out) ->
  exists e, out = Err e.
Proof. exact subscribe_error_final. Qed.
Example C59_ex :
  verdicts [send (c_register 1); recv (c_registered 1 9); send (c_unregister 2 9); recv (c_unregistered 2);
            send (c_call 8); recv (c_unregistered 2)] = [true; true; true; true; true; false]
  /\ verdicts [send (c_subscribe 1); recv (c_error 32 1); send (c_subscribe 2); recv (c_subscribed 1 7);
               recv (c_error 32 1); recv (c_subscribed 2 7)] = [true; true; true; false; false; true].
Proof. vm_compute. done. Qed.

(** ** C60: [greach (ginit work) c]: goroutine [t] makes the calls [work !! t],
    the accesses to the maps interleaved in any way. *)
Theorem C60_register : forall work c r, greach (ginit work) c ->
  (accepted (fun op => is_registered r op || is_error 64 r op) (g_log c) <= begun (is_register r) (g_log c))%nat.
Proof. exact concurrent_register. Qed.
Theorem C60_publish : forall work c r, greach (ginit work) c ->
  (accepted (fun op => is_published r op || is_error 16 r op) (g_log c) <= begun (is_publish r) (g_log c))%nat.
Proof. exact concurrent_publish. Qed.
Theorem C60_errors : forall work c r, greach (ginit work) c ->
  (accepted (is_error 48 r) (g_log c) <= begun (is_call r) (g_log c)
  /\ accepted (is_error 32 r) (g_log c) <= begun (is_subscribe r) (g_log c)
  /\ accepted (is_error 66 r) (g_log c) <= begun (is_unregister r) (g_log c)
  /\ accepted (is_error 34 r) (g_log c) <= begun (is_unsubscribe r) (g_log c))%nat.
Proof. exact concurrent_errors. Qed.
(** Ends of registrations and subscriptions are never accepted more often than
    their beginnings were offered. *)
Theorem C60_ends : forall work c, greach (ginit work) c ->
  (accepted any_unregistered (g_log c) <= begun any_registered (g_log c)
  /\ accepted any_unsubscribed (g_log c) <= begun any_subscribed (g_log c))%nat.
Proof. exact concurrent_ends. Qed.
(** False for RESULT: Load and Delete are two accesses, so two goroutines can
    both accept a final RESULT for one CALL. *)
Theorem C60_result_refuted : exists c, greach (ginit race) c
  /\ begun (is_call 1) (g_log c) = 1%nat
  /\ accepted (fun op => is_result 1 op || is_error 48 1 op) (g_log c) = 2%nat.
Proof. exact race_reached. Qed.
Example C60_ex : exists c, greach (ginit [[send (c_register 1)]; [recv (c_registered 1 9)]; [recv (c_error 64 1)]]) c
  /\ begun (is_register 1) (g_log c) = 1%nat
  /\ accepted (fun op => is_registered 1 op || is_error 64 1 op) (g_log c) = 1%nat
  /\ (exists e, GEnd (recv (c_error 64 1)) (Err e) ∈ g_log c).
Proof. exact fair_reached. Qed.

(** ** C61: false, YIELD and ERROR are passed on whatever was received. *)
Theorem C61_unasked_refuted : exists h op i,
  (sends op (c_yield i) /\ ~ invocation_open (trace h) i)
  /\ exists s', sstep (after h) op = (s', Ok (SData "bytes")).
Proof. exact unasked_yield. Qed.
Theorem C61_unchecked : forall s op m,
  sends op m -> (exists y, m = MYield y) \/ (exists e, m = MError e /\ er_type e = 68) ->
  exists s' data, op = SSend (Ok data) m /\ sstep s op = (s', Ok (SData data)).
Proof. exact answers_unchecked. Qed.
Example C61_ex : verdicts [send (c_yield 5); send (c_error 68 5); send (c_error 48 5)] = [true; true; false].
Proof. vm_compute. reflexivity. Qed.

(** ** C78: the session's answer to every message is determined by the
    messages it accepted before. *)
Theorem C78_receive : forall h s outs op m s' out,
  srun new_session h = (s, outs) -> receives op m -> sstep s op = (s', out) ->
  let tr := strace_of h outs in
  (acceptable tr m /\ out = Ok (SMessage m)) \/ (~ acceptable tr m /\ (exists e, out = Err e) /\ s' = s).
Proof. exact receive_answer. Qed.
Theorem C78_send : forall h s outs op m s' out,
  srun new_session h = (s, outs) -> sends op m -> sstep s op = (s', out) ->
  let tr := strace_of h outs in
  (sendable tr m /\ exists data, op = SSend (Ok data) m /\ out = Ok (SData data))
  \/ (~ sendable tr m /\ (exists e, out = Err e) /\ s' = s).
Proof. exact send_answer. Qed.
Example C78_ex : verdicts
  [recv (MGoodbye (Goodbye (Some []) "bye")); recv (MAbort (Abort (Some []) "why" None None));
   recv (c_call 1); recv (c_publish 1 []); send (c_result 1 []); send (MGoodbye (Goodbye (Some []) "bye"));
   recv (c_error 49 1); recv (c_error 68 1)]
  = [true; true; false; false; false; true; false; false].
Proof. vm_compute. reflexivity. Qed.

(** ** C87: goroutines sharing a session, at most one of them receiving at any
    time, and no two calls about the same UNSUBSCRIBE overlapping. *)
Theorem C87_linearizable : forall work ls c, lrun work ls c -> orderly ls ->
  exists ms s, linearizes ls ms s /\ ((forall t, underway t ls = None) -> g_state c = s).
Proof. exact linearizable. Qed.
(** [lrun] is [greach] with the history kept. *)
Theorem C87_all_runs : forall work c,
  greach (ginit work) c <-> exists ls, lrun work ls c.
Proof. exact runs_agree. Qed.
(** What C60 refutes in general holds of orderly histories. *)
Theorem C87_one_answer : forall work ls c r, lrun work ls c -> orderly ls ->
  (accepted (fun op => is_final_result r op || is_error 48 r op) (g_log c) <= begun (is_call r) (g_log c))%nat.
Proof. exact one_answer. Qed.
(** Neither condition can be dropped. *)
Theorem C87_two_receivers_refuted : exists work ls c,
  lrun work ls c /\ throughout one_about ls /\ forall ms s, ~ linearizes ls ms s.
Proof. exists race. exact race_history. Qed.
Theorem C87_overlap_refuted : exists work ls c,
  lrun work ls c /\ throughout one_receiver ls /\ forall ms s, ~ linearizes ls ms s.
Proof. exists hasty. exact hasty_history. Qed.
Example C87_ex : exists ls c, lrun busy ls c /\ orderly ls
  /\ (exists ls1 ls2, ls = (ls1 ++ ls2)%list
       /\ underway 0 ls2 = Some (send (c_call 3)) /\ underway 1 ls2 = Some (recv (c_result 2 [])))
  /\ accepted (fun op => is_final_result 2 op || is_error 48 2 op) (g_log c) = 1%nat
  /\ rev (concat (map result_of ls)) =
     [(send (c_subscribe 1), true); (recv (c_subscribed 1 9), true); (send (c_call 2), true);
      (send (c_call 3), true); (recv (c_result 2 []), true); (recv (c_result 2 []), false);
      (send (c_unsubscribe 4 9), true); (recv (c_unsubscribed 4), true)].
Proof. exact busy_history. Qed.

(** * Assumptions *)
Print Assumptions C54_result.
Print Assumptions C54_call_error.
Print Assumptions C54_open_after.
Print Assumptions C55_registered.
Print Assumptions C55_register_error.
Print Assumptions C55_published.
Print Assumptions C55_publish_error.
Print Assumptions C56_invocation.
Print Assumptions C56_unregistered.
Print Assumptions C57_event.
Print Assumptions C57_unsubscribe.
Print Assumptions C57_unsubscribed.
Print Assumptions C58_no_effect.
Print Assumptions C58_returns.
Print Assumptions C59_once_refuted.
Print Assumptions C59_unregistered_partial.
Print Assumptions C59_unsubscribed_partial.
Print Assumptions C59_subscribe_error_partial.
Print Assumptions C60_register.
Print Assumptions C60_publish.
Print Assumptions C60_errors.
Print Assumptions C60_ends.
Print Assumptions C60_result_refuted.
Print Assumptions C61_unasked_refuted.
Print Assumptions C61_unchecked.
Print Assumptions C78_receive.
Print Assumptions C78_send.
Print Assumptions C87_linearizable.
Print Assumptions C87_all_runs.
Print Assumptions C87_one_answer.
Print Assumptions C87_two_receivers_refuted.
Print Assumptions C87_overlap_refuted.
