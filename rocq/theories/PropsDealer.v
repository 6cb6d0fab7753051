(** Properties C35-C53: the dealer.  [drun new_dealer h = Ret d outs] says that
    the calls of [h], in order, on a new dealer return the results [outs] and
    leave it in state [d]; [dstep o d op = Ret d' out] is one more call. *)
From Verif Require Import Prelude Value Msg IdGen Types PathMatch Dealer DealerSpec DealerFacts.
From Verif Require Import DealerProofs DealerStep DealerPolite DealerShare DealerFinal DealerEx.
From Verif Require Import DealerKind DealerKindProofs DealerKindEx DealerMore DealerSole.

(** ** C35 *)
Theorem C35_add_session : forall h o s d0 d outs out,
  drun new_dealer h = Ret d0 outs -> dstep o d0 (DAdd s) = Ret d out ->
  (present (dtrace_of h outs) (se_id s) /\ (exists e, out = DErr e) /\ d = d0)
  \/ (~ present (dtrace_of h outs) (se_id s) /\ out = DOk).
Proof. exact add_answer. Qed.
Theorem C35_remove_session : forall h o id d0 d outs out,
  drun new_dealer h = Ret d0 outs -> dstep o d0 (DRemove id) = Ret d out ->
  (~ present (dtrace_of h outs) id /\ (exists e, out = DErr e) /\ d = d0)
  \/ (present (dtrace_of h outs) id /\ out = DOk).
Proof. exact remove_answer. Qed.
Example C35_ex :
  results (hist [DAdd (peer 1); DAdd (peer 1); DRemove 2; DRemove 1; DRemove 1; DAdd (peer 1)])
  = [DOk; DErr "already attached"; DErr "not attached"; DOk; DErr "not attached"; DOk].
Proof. vm_compute. reflexivity. Qed.

(** ** C36 *)
(** In every history: an answer REGISTERED to REGISTER either carries an id
    that no REGISTERED carried before, or one that stands for the same
    procedure with the same policy, which is a sharing one. *)
Theorem C36_shared_policy : forall h o sid m d0 d outs g to, N.of_nat (length h) < two53 ->
  drun new_dealer h = Ret d0 outs ->
  dstep o d0 (DReceive sid (MRegister m)) = Ret d (DMsg (MRegistered g) to) ->
  let tr := dtrace_of h outs in
  to = sid /\ rd_request g = rg_request m /\ present tr sid /\
  ((rd_registration g = used tr + 1 /\ forall m', ~ registered_under tr (used tr + 1) m')
   \/ (invoke_policy m <> "" /\ invoke_policy m <> "single"
       /\ (exists m', registered_under tr (rd_registration g) m')
       /\ forall m', registered_under tr (rd_registration g) m' ->
            rg_procedure m' = rg_procedure m /\ invoke_policy m' = invoke_policy m)).
Proof. exact shared_policy. Qed.
Example C36_ex : let h := hist [DAdd (peer 1); DAdd (peer 2); dreg 1 10 "p" rr] in
  next_result h e0 (dreg 2 11 "p" rr) = Some (DMsg (MRegistered (Registered 11 1)) 2)
  /\ next_result h e0 (dreg 2 11 "p" []) = Some (DMsg (refusal 64 11 "wamp.error.procedure_already_exists") 2)
  /\ next_result h e0 (dreg 2 11 "q" rr) = Some (DMsg (MRegistered (Registered 11 2)) 2).
Proof. vm_compute. done. Qed.
(** Exactly when REGISTERED and when refused: in considerate histories (nobody
    gives up what it does not hold, see DealerKind.v). *)
Theorem C36_register_iff_partial : forall h o sid m d0 d outs out,
  considerate_history h -> N.of_nat (length h) < two53 ->
  drun new_dealer h = Ret d0 outs -> dstep o d0 (DReceive sid (MRegister m)) = Ret d out ->
  let tr := dtrace_of h outs in
  present tr sid ->
  (forall x g m', owns tr x (rg_procedure m) g -> registered_under tr g m' ->
     (invoke_policy m' <> "" /\ invoke_policy m' <> "single" /\ invoke_policy m' = invoke_policy m
      /\ out = DMsg (MRegistered (Registered (rg_request m) g)) sid)
     \/ ((invoke_policy m' = "" \/ invoke_policy m' = "single" \/ invoke_policy m' <> invoke_policy m)
         /\ out = DMsg (refusal 64 (rg_request m) "wamp.error.procedure_already_exists") sid /\ d = d0))
  /\ ((forall x g, ~ owns tr x (rg_procedure m) g) ->
      out = DMsg (MRegistered (Registered (rg_request m) (used tr + 1))) sid).
Proof. exact considerate_register. Qed.
Example C36_ex_polite : considerate_history h_shared /\ drun new_dealer h_shared = Ret (after h_shared) (results h_shared)
  /\ present (trace h_shared) 5 /\ owns (trace h_shared) 2 "p" 2
  /\ next_result h_shared e0 (dreg 5 30 "p" rr) = Some (DMsg (MRegistered (Registered 30 2)) 5)
  /\ next_result h_shared e0 (dreg 5 30 "p" fst_policy) = Some (DMsg (refusal 64 30 "wamp.error.procedure_already_exists") 5)
  /\ next_result h_shared e0 (dreg 5 30 "q" []) = Some (DMsg (MRegistered (Registered 30 5)) 5).
Proof.
  split; [exact (polite_considerate _ h_shared_polite)|]. split; [apply ran; by vm_compute|]. split; [vm_compute; tauto|].
  split; [own|]. vm_compute. done.
Qed.
(** In every history, for a procedure that was not registered to be shared. *)
Theorem C36_unshared_partial : forall h o sid m d0 d outs out,
  never_shared (dtrace_of h outs) (rg_procedure m) -> N.of_nat (length h) < two53 ->
  drun new_dealer h = Ret d0 outs -> dstep o d0 (DReceive sid (MRegister m)) = Ret d out ->
  let tr := dtrace_of h outs in
  present tr sid ->
  (forall x g, owns tr x (rg_procedure m) g ->
     out = DMsg (refusal 64 (rg_request m) "wamp.error.procedure_already_exists") sid /\ d = d0)
  /\ ((forall x g, ~ owns tr x (rg_procedure m) g) ->
      out = DMsg (MRegistered (Registered (rg_request m) (used tr + 1))) sid).
Proof. exact sole_registering. Qed.
Example C36_ex_unshared : never_shared (trace h_alone) "s" /\ present (trace h_alone) 1 /\ owns (trace h_alone) 4 "s" 3
  /\ next_result h_alone e0 (dreg 1 20 "s" rr) = Some (DMsg (refusal 64 20 "wamp.error.procedure_already_exists") 1)
  /\ next_result (h_alone ++ hist [dunreg 4 21 3]) e0 (dreg 1 22 "s" rr) = Some (DMsg (MRegistered (Registered 22 4)) 1).
Proof.
  split; [apply never_sharedb_sound; by vm_compute|]. split; [vm_compute; tauto|]. split; [own|]. vm_compute. done.
Qed.
(** In general a procedure that somebody holds can be registered again. *)
Theorem C36_register_iff_refuted : exists h d0 outs o sid m d x g,
  drun new_dealer h = Ret d0 outs /\ present (dtrace_of h outs) sid
  /\ owns (dtrace_of h outs) x (rg_procedure m) g /\ present (dtrace_of h outs) x
  /\ (invoke_policy m = "")
  /\ dstep o d0 (DReceive sid (MRegister m)) = Ret d (DMsg (MRegistered (Registered (rg_request m) 3)) sid).
Proof.
  exists h_stale, (after h_stale), (results h_stale), e0, 4, (Register 20 (Some []) "p"),
    (next_after h_stale e0 (dreg 4 20 "p" [])), 3, 2.
  split; [apply ran; by vm_compute|]. split; [vm_compute; tauto|]. split; [own|]. split; [vm_compute; tauto|].
  split; [done|]. apply (stepped h_stale e0 (dreg 4 20 "p" [])). by vm_compute.
Qed.

(** ** C37 *)
Theorem C37_result_origin : forall h o sid y d0 d outs m to, N.of_nat (length h) <= two53 ->
  drun new_dealer h = Ret d0 outs -> dstep o d0 (DReceive sid (MYield y)) = Ret d (DMsg m to) ->
  exists c out s, (DReceive to (MCall c), out) ∈ dtrace_of h outs
    /\ match out with DMsg (MInvocation v) _ => in_request v = yi_request y | DErr _ => True | _ => False end
    /\ present_as (dtrace_of h outs) to s
    /\ m = MResult (result_for y (ca_request c)
                     (says (ca_options c) "receive_progress" && says (yi_options y) "progress") s).
Proof. exact result_origin. Qed.
Theorem C37_error_origin : forall h o sid x d0 d outs m to, N.of_nat (length h) <= two53 ->
  drun new_dealer h = Ret d0 outs -> dstep o d0 (DReceive sid (MError x)) = Ret d (DMsg m to) ->
  exists c out, (DReceive to (MCall c), out) ∈ dtrace_of h outs
    /\ match out with DMsg (MInvocation v) _ => in_request v = er_request x | DErr _ => True | _ => False end
    /\ er_type x = 68
    /\ m = MError (Error 48 (ca_request c) (or_empty (er_details x)) (er_uri x) (er_args x) (er_kwargs x)).
Proof. exact error_origin. Qed.
(** Which YIELDs and ERRORs are answered: those for an invocation that is open
    according to the trace; at most one call is open under an invocation id. *)
Theorem C37_yield_answer : forall h o sid y d0 d outs out, N.of_nat (length h) <= two53 ->
  drun new_dealer h = Ret d0 outs -> dstep o d0 (DReceive sid (MYield y)) = Ret d out ->
  let tr := dtrace_of h outs in
  ((forall c r rp, ~ open_inv tr (yi_request y) c r rp) /\ (exists e, out = DErr e) /\ d = d0)
  \/ exists c r rp, open_inv tr (yi_request y) c r rp /\
       ((~ present tr c /\ exists e, out = DErr e)
        \/ exists s, present_as tr c s
             /\ out = DMsg (MResult (result_for y r (rp && says (yi_options y) "progress") s)) c).
Proof. exact yield_answer. Qed.
Theorem C37_error_answer : forall h o sid x d0 d outs out, N.of_nat (length h) <= two53 ->
  drun new_dealer h = Ret d0 outs -> dstep o d0 (DReceive sid (MError x)) = Ret d out ->
  let tr := dtrace_of h outs in
  ((er_type x <> 68 \/ forall c r rp, ~ open_inv tr (er_request x) c r rp)
    /\ (exists e, out = DErr e) /\ d = d0)
  \/ exists c r rp, er_type x = 68 /\ open_inv tr (er_request x) c r rp
       /\ out = DMsg (MError (Error 48 r (or_empty (er_details x)) (er_uri x) (er_args x) (er_kwargs x))) c.
Proof. exact error_answer. Qed.
Theorem C37_one_call_per_invocation : forall h d outs i c r rp c' r' rp', N.of_nat (length h) <= two53 ->
  drun new_dealer h = Ret d outs ->
  open_inv (dtrace_of h outs) i c r rp -> open_inv (dtrace_of h outs) i c' r' rp' ->
  c = c' /\ r = r' /\ rp = rp'.
Proof. exact open_unique. Qed.
Example C37_ex : let h := h_call [] ++ hist [DAdd (peer 4); dcall 4 20 "p" []] in
  drun new_dealer h = Ret (after h) (results h)
  /\ next_result h e0 (dyield 1 3 []) = Some (DMsg (MResult (Result 20 (Some []) (Some [VStr "yo"]) None no_bin)) 4)
  /\ next_result h e0 (dyield 1 2 []) = Some (DMsg (MResult (Result 20 (Some []) (Some [VStr "yo"]) None no_bin)) 2)
  /\ next_result h e0 (derr 1 3) = Some (DMsg (MError (Error 48 20 (Some []) "app.error" None None)) 4)
  /\ next_result h e0 (dyield 1 4 []) = Some (DErr "not pending").
Proof. split; [apply ran; by vm_compute|]. vm_compute. done. Qed.

(** ** C38 *)
Theorem C38_one_last_word : forall h1 o sid m m' to h2 o2 sid2 m2 out2 i d1 outs1 d2 d3 outs2 d4,
  N.of_nat (length (h1 ++ (o, DReceive sid m) :: h2)) <= two53 ->
  drun new_dealer h1 = Ret d1 outs1 -> dstep o d1 (DReceive sid m) = Ret d2 (DMsg m' to) ->
  answer_to m i -> last_word m' ->
  drun d2 h2 = Ret d3 outs2 -> answer_to m2 i -> dstep o2 d3 (DReceive sid2 m2) = Ret d4 out2 ->
  (exists e, out2 = DErr e) /\ d4 = d3.
Proof. exact one_last_word. Qed.
Example C38_ex :
  drop 5 (results (h_call [flag "receive_progress"] ++ hist
    [dyield 1 2 [flag "progress"]; dyield 1 2 []; dyield 1 2 []; derr 1 2; dyield 1 2 [flag "progress"]]))
  = [DMsg (MResult (Result 20 (Some [flag "progress"]) (Some [VStr "yo"]) None no_bin)) 2;
     DMsg (MResult (Result 20 (Some []) (Some [VStr "yo"]) None no_bin)) 2;
     DErr "not pending"; DErr "no pending invocation"; DErr "not pending"].
Proof. vm_compute. reflexivity. Qed.

(** ** C39 *)
Theorem C39_progressive_results : forall h o sid y d0 d outs r to, N.of_nat (length h) < two53 ->
  drun new_dealer h = Ret d0 outs -> dstep o d0 (DReceive sid (MYield y)) = Ret d (DMsg (MResult r) to) ->
  (says (re_details r) "progress" = true ->
     says (yi_options y) "progress" = true
     /\ exists c out, (DReceive to (MCall c), out) ∈ dtrace_of h outs /\ ca_request c = re_request r
          /\ says (ca_options c) "receive_progress" = true
          /\ match out with DMsg (MInvocation v) _ => in_request v = yi_request y | DErr _ => True | _ => False end)
  /\ (says (re_details r) "progress" = true -> forall o2 sid2 y2, yi_request y2 = yi_request y ->
        exists d2 r2, dstep o2 d (DReceive sid2 (MYield y2)) = Ret d2 (DMsg (MResult r2) to)
          /\ re_request r2 = re_request r)
  /\ (says (re_details r) "progress" = false -> forall o2 sid2 y2, yi_request y2 = yi_request y ->
        exists e, dstep o2 d (DReceive sid2 (MYield y2)) = Ret d (DErr e)).
Proof. exact progressive_result. Qed.
Example C39_ex : let h := h_call [flag "receive_progress"] in
  next_result h e0 (dyield 1 2 [flag "progress"])
    = Some (DMsg (MResult (Result 20 (Some [flag "progress"]) (Some [VStr "yo"]) None no_bin)) 2)
  /\ next_result (h_call []) e0 (dyield 1 2 [flag "progress"])
    = Some (DMsg (MResult (Result 20 (Some []) (Some [VStr "yo"]) None no_bin)) 2).
Proof. vm_compute. done. Qed.

(** ** C40 *)
(** The callee is attached and was answered REGISTERED with that id for a
    procedure which is the called one, or under which id some session
    registered the procedure with a policy that covers the called one. *)
Theorem C40_callee_registered_partial : forall h o sid c d0 d outs v callee,
  drun new_dealer h = Ret d0 outs -> dstep o d0 (DReceive sid (MCall c)) = Ret d (DMsg (MInvocation v) callee) ->
  let tr := dtrace_of h outs in
  present tr callee /\ exists p pol, once_registered tr callee p pol (in_registration v)
    /\ reaches tr (in_registration v) p (ca_procedure c).
Proof. exact call_found. Qed.
Definition h_joined : dhist := hist
  [DAdd (peer 1); DAdd (peer 2); dreg 1 10 "a" (prefixed ++ rr); dreg 2 11 "a" rr; dcall 1 20 "a.b" []].
Example C40_ex : exists v, drun new_dealer (hist [DAdd (peer 1); DAdd (peer 2); dreg 1 10 "a" prefixed])
     = Ret (after (hist [DAdd (peer 1); DAdd (peer 2); dreg 1 10 "a" prefixed])) [DOk; DOk; DMsg (MRegistered (Registered 10 1)) 1]
  /\ next_result (hist [DAdd (peer 1); DAdd (peer 2); dreg 1 10 "a" prefixed]) e0 (dcall 2 20 "a.b" []) = Some (DMsg (MInvocation v) 1)
  /\ in_registration v = 1.
Proof.
  exists (Invocation 2 1 (Some []) (Some [VStr "hi"]) None no_bin).
  split; [apply (ran (hist [DAdd (peer 1); DAdd (peer 2); dreg 1 10 "a" prefixed])); by vm_compute|]. vm_compute. done.
Qed.
(** A session that shares a procedure gets the match policy of the first
    registrant, whatever it asked for itself. *)
Theorem C40_own_policy_refuted : exists h d0 outs o sid c d v callee,
  drun new_dealer h = Ret d0 outs /\ dstep o d0 (DReceive sid (MCall c)) = Ret d (DMsg (MInvocation v) callee)
  /\ forall p pol g, once_registered (dtrace_of h outs) callee p pol g -> ~ covers p pol (ca_procedure c).
Proof.
  exists h_joined, (after h_joined), (results h_joined), e0, 1, (acall 21 "a.b" []),
    (next_after h_joined e0 (dcall 1 21 "a.b" [])), (Invocation 3 1 (Some []) (Some [VStr "hi"]) None no_bin), 2.
  split; [apply ran; by vm_compute|]. split; [apply (stepped h_joined e0 (dcall 1 21 "a.b" [])); by vm_compute|].
  intros p pol g. apply (for_registered _ (fun p pol => ~ covers p pol "a.b")). each; by vm_compute.
Qed.

(** ** C41 *)
Theorem C41_refused_unchanged : forall h o sid c d0 d outs x to,
  drun new_dealer h = Ret d0 outs -> dstep o d0 (DReceive sid (MCall c)) = Ret d (DMsg (MError x) to) ->
  d = d0 /\ to = sid /\ MError x = refusal 48 (ca_request c) "wamp.error.no_such_procedure".
Proof. exact refused_unchanged. Qed.
(** Nothing that was ever registered covers the procedure. *)
Theorem C41_never_registered : forall h o sid c d0 outs, drun new_dealer h = Ret d0 outs ->
  (forall x p pol g, once_registered (dtrace_of h outs) x p pol g ->
     p <> ca_procedure c /\ ~ covers p pol (ca_procedure c)) ->
  dstep o d0 (DReceive sid (MCall c))
    = Ret d0 (DMsg (refusal 48 (ca_request c) "wamp.error.no_such_procedure") sid).
Proof. exact nothing_covers. Qed.
(** Nothing that somebody holds reaches the procedure: in considerate histories. *)
Theorem C41_nobody_holds_partial : forall h o sid c d0 outs, considerate_history h -> N.of_nat (length h) < two53 ->
  drun new_dealer h = Ret d0 outs -> (disclosing_caller (dtrace_of h outs) = true -> present (dtrace_of h outs) sid) ->
  (forall x p g, owns (dtrace_of h outs) x p g -> ~ reaches (dtrace_of h outs) g p (ca_procedure c)) ->
  dstep o d0 (DReceive sid (MCall c))
    = Ret d0 (DMsg (refusal 48 (ca_request c) "wamp.error.no_such_procedure") sid).
Proof. exact considerate_refused. Qed.
Example C41_ex : considerate_history h_shared
  /\ (forall x p g, owns (trace h_shared) x p g -> ~ reaches (trace h_shared) g p "q")
  /\ next_result h_shared e0 (dcall 1 40 "q" []) = Some (DMsg (refusal 48 40 "wamp.error.no_such_procedure") 1).
Proof.
  split; [exact (polite_considerate _ h_shared_polite)|]. split; [|by vm_compute].
  intros x p g Ho Hr.
  assert (Hp : p <> "q"%string) by (revert Ho; crush). clear Ho.
  destruct Hr as [Hr|(c & pol & Ho' & Hc)]; [exact (Hp Hr)|]. revert Ho' Hp Hc.
  apply (for_registered _ (fun p pol => p <> "q"%string -> covers p pol "q" -> False)).
  each; try (by vm_compute); try (by intros ? [=]). by intros _ [z Hz].
Qed.
(** In general such a call can fail with an internal error instead: no answer
    reaches the caller. *)
Theorem C41_nobody_holds_refuted : exists h d0 outs o sid c d e,
  drun new_dealer h = Ret d0 outs /\ (forall x p g, ~ owns (dtrace_of h outs) x p g)
  /\ dstep o d0 (DReceive sid (MCall c)) = Ret d (DErr e).
Proof.
  exists h_ghost, (after h_ghost), (results h_ghost), e0, 1, (acall 30 "p" []),
    (next_after h_ghost e0 (dcall 1 30 "p" [])), "callee gone"%string.
  split; [apply ran; by vm_compute|]. split; [|apply (stepped h_ghost e0 (dcall 1 30 "p" [])); by vm_compute].
  intros x p g. crush.
Qed.

(** ** C42 *)
(** Sessions [l] registered [p], in this order, with a sharing policy, while
    nobody held it; afterwards nobody else registers it and none of them
    leaves.  Then they all got one id [g], every CALL of [p] is served under
    [g], and the j-th INVOCATION under [g] goes to the session the policy says. *)
Theorem C42_invocation_policies : forall h hr h2 l p inv d0 outs0 d1 outsr d2 outs2,
  polite_history (h ++ hr ++ h2) -> N.of_nat (length (h ++ hr ++ h2)) <= two53 ->
  drun new_dealer h = Ret d0 outs0 -> drun d0 hr = Ret d1 outsr -> drun d1 h2 = Ret d2 outs2 ->
  (forall x g, ~ owns (dtrace_of h outs0) x p g) ->
  (forall x, x ∈ l -> present (dtrace_of h outs0) x) ->
  (2 <= length l)%nat -> inv <> "" -> inv <> "single" ->
  register_all p inv l hr -> Forall (fun x => leaves_alone p l (snd x)) h2 ->
  exists g,
    Forall2 (fun x out => exists a, out = DMsg (MRegistered a) x /\ rd_registration a = g) l outsr
    /\ (forall j x, invoked g outs2 !! j = Some x ->
          x ∈ l /\ (inv = "first" -> head l = Some x) /\ (inv = "last" -> last l = Some x)
          /\ (inv = "roundrobin" -> l !! (j mod length l)%nat = Some x))
    /\ forall j o sid c, h2 !! j = Some (o, DReceive sid (MCall c)) -> ca_procedure c = p ->
         exists v to, outs2 !! j = Some (DMsg (MInvocation v) to) /\ in_registration v = g.
Proof. exact shared_run. Qed.
Definition h_before : dhist := hist [DAdd (peer 1); DAdd (peer 2); DAdd (peer 3); DAdd (peer 5)].
Definition h_sharing : dhist := hist [dreg 1 11 "p" rr; dreg 2 12 "p" rr; dreg 3 13 "p" rr].
Definition h_calls : dhist := hist
  [dcall 5 20 "p" []; dreg 5 14 "q" []; dcall 5 21 "q" []; dcall 1 22 "p" []; dcall 5 23 "p" []; dcall 5 24 "p" []].
Example C42_ex : polite_history (h_before ++ h_sharing ++ h_calls)
  /\ register_all "p" "roundrobin" [1; 2; 3] h_sharing
  /\ Forall (fun x => leaves_alone "p" [1; 2; 3] (snd x)) h_calls
  /\ invoked 1 (results (h_before ++ h_sharing ++ h_calls)) = [1; 2; 3; 1].
Proof.
  split; [apply polites_history; crush|]. split; [|split; [|by vm_compute]].
  - repeat constructor; eexists; split; done.
  - repeat constructor; done.
Qed.

(** ** C43 *)
Theorem C43_fresh_invocations : forall h o sid c d0 d outs v callee, N.of_nat (length h) < two53 ->
  drun new_dealer h = Ret d0 outs -> dstep o d0 (DReceive sid (MCall c)) = Ret d (DMsg (MInvocation v) callee) ->
  says (ca_options c) "progress" = false ->
  (forall op v' to, (op, DMsg (MInvocation v') to) ∈ dtrace_of h outs -> in_request v' < in_request v)
  /\ (forall op a to, (op, DMsg (MRegistered a) to) ∈ dtrace_of h outs -> rd_registration a < in_request v).
Proof. exact fresh_invocation. Qed.
Example C43_ex : results (h_call [] ++ hist [dcall 3 20 "p" []; dcall 2 20 "p" []]) = 
  results (h_call []) ++ [DMsg (MInvocation (Invocation 3 1 (Some []) (Some [VStr "hi"]) None no_bin)) 1;
                          DMsg (MInvocation (Invocation 4 1 (Some []) (Some [VStr "hi"]) None no_bin)) 1].
Proof. vm_compute. reflexivity. Qed.

(** ** C44 *)
Theorem C44_invocation : forall h o sid c d0 d outs v callee, N.of_nat (length h) < two53 ->
  drun new_dealer h = Ret d0 outs -> dstep o d0 (DReceive sid (MCall c)) = Ret d (DMsg (MInvocation v) callee) ->
  let tr := dtrace_of h outs in
  exists s who, present_as tr callee s
    /\ (if disclosing_caller tr then exists w, who = Some w /\ present_as tr sid w else who = None)
    /\ v = invocation_for c (in_request v) (in_registration v) (invocation_details c sid who) s.
Proof. exact invocation_form. Qed.
Example C44_ex : next_result (h_call [] ++ hist [DDisclose true]) e0 (dcall 3 20 "p" [flag "receive_progress"])
  = Some (DMsg (MInvocation (Invocation 3 1 (Some [flag "receive_progress"; opt "procedure" "p";
       ("caller"%string, VInt KUint64 3); opt "caller_authid" "john"; opt "caller_authrole" "user"])
       (Some [VStr "hi"]) None no_bin)) 1).
Proof. vm_compute. reflexivity. Qed.

(** ** C45 *)
(** Any session can answer an invocation: here session 3, while the INVOCATION
    went to session 1 only. *)
Theorem C45_only_callee_answers_refuted : exists h d0 outs o sid y d r to,
  drun new_dealer h = Ret d0 outs
  /\ (forall op v x, (op, DMsg (MInvocation v) x) ∈ dtrace_of h outs -> x <> sid)
  /\ (forall p pol g, ~ once_registered (dtrace_of h outs) sid p pol g)
  /\ dstep o d0 (DReceive sid (MYield y)) = Ret d (DMsg (MResult r) to) /\ to <> sid.
Proof.
  exists (h_call []), (after (h_call [])), (results (h_call [])), e0, 3, (ayield 2 []),
    (next_after (h_call []) e0 (dyield 3 2 [])), (Result 20 (Some []) (Some [VStr "yo"]) None no_bin), 2.
  assert (E : dtrace_of (h_call []) (results (h_call [])) =
    [(dcall 2 20 "p" [], DMsg (MInvocation (Invocation 2 1 (Some []) (Some [VStr "hi"]) None no_bin)) 1);
     (dreg 1 10 "p" [], DMsg (MRegistered (Registered 10 1)) 1);
     (DAdd (peer 3), DOk); (DAdd (peer 2), DOk); (DAdd (peer 1), DOk)]) by (vm_compute; reflexivity).
  split; [apply ran; by vm_compute|]. split; [|split].
  - rewrite E. intros op v x Hin. repeat (apply elem_of_cons in Hin as [Hin|Hin]; [by inversion Hin|]).
    destruct (not_elem_of_nil _ Hin).
  - clear E. intros p pol g Ho. revert Ho. apply (for_registered _ (fun _ _ => False)). each.
  - split; [|done]. apply (stepped (h_call []) e0 (dyield 3 2 [])). by vm_compute.
Qed.

(** Indeed the sender never matters: with other senders of YIELD and ERROR
    everything goes the same way. *)
Theorem C45_sender_irrelevant : forall h h',
  Forall2 (fun x x' : oracle * dop => x = x'
    \/ exists o o' a b m, x = (o, DReceive a m) /\ x' = (o', DReceive b m)
         /\ match m with MYield _ | MError _ => True | _ => False end) h h' ->
  drun new_dealer h = drun new_dealer h'.
Proof. intros h h' H. exact (sender_irrelevant h h' H new_dealer). Qed.
Example C45_ex : length (results (h_call [] ++ hist [dyield 1 2 []])) = 6%nat
  /\ results (h_call [] ++ hist [dyield 77 2 []]) = results (h_call [] ++ hist [dyield 1 2 []])
  /\ next_result (h_call []) e0 (dyield 77 2 []) = Some (DMsg (MResult (Result 20 (Some []) (Some [VStr "yo"]) None no_bin)) 2).
Proof. split; [by vm_compute|]. split; by vm_compute. Qed.

(** ** C46 *)
Theorem C46_invoked_holds_partial : forall h o sid c d0 outs d v callee,
  polite_history h -> N.of_nat (length h) < two53 ->
  drun new_dealer h = Ret d0 outs -> (disclosing_caller (dtrace_of h outs) = true -> present (dtrace_of h outs) sid) ->
  dstep o d0 (DReceive sid (MCall c)) = Ret d (DMsg (MInvocation v) callee) ->
  exists p, owns (dtrace_of h outs) callee p (in_registration v)
    /\ reaches (dtrace_of h outs) (in_registration v) p (ca_procedure c).
Proof. exact polite_invoked. Qed.
Example C46_ex : polite_history h_shared
  /\ next_result h_shared e0 (dcall 5 30 "a.b" []) =
       Some (DMsg (MInvocation (Invocation 5 1 (Some []) (Some [VStr "hi"]) None no_bin)) 4)
  /\ owns (trace h_shared) 4 "a" 1.
Proof. split; [exact h_shared_polite|]. split; [by vm_compute|own]. Qed.
(** In considerate histories: whoever is invoked has the registration on its
    books, and somebody holds it. *)
Theorem C46_invoked_listed_partial : forall h o sid c d0 outs d v callee,
  considerate_history h -> N.of_nat (length h) < two53 ->
  drun new_dealer h = Ret d0 outs ->
  let tr := dtrace_of h outs in
  (disclosing_caller tr = true -> present tr sid) ->
  dstep o d0 (DReceive sid (MCall c)) = Ret d (DMsg (MInvocation v) callee) ->
  exists p x, listed tr callee p (in_registration v) /\ present tr callee
    /\ owns tr x p (in_registration v) /\ reaches tr (in_registration v) p (ca_procedure c).
Proof. exact considerate_invoked. Qed.
(** So a session that unregistered what nobody else held is not invoked under
    that id unless it registered it again. *)
Theorem C46_sole_holder_partial : forall h1 o1 x u h2 d1 outs1 d2 a to d3 outs2 o sid c d v callee,
  considerate_history (h1 ++ (o1, DReceive x (MUnregister u)) :: h2) ->
  N.of_nat (length (h1 ++ (o1, DReceive x (MUnregister u)) :: h2)) < two53 ->
  drun new_dealer h1 = Ret d1 outs1 -> (forall y q, owns (dtrace_of h1 outs1) y q (ur_registration u) -> y = x) ->
  dstep o1 d1 (DReceive x (MUnregister u)) = Ret d2 (DMsg (MUnregistered a) to) ->
  drun d2 h2 = Ret d3 outs2 ->
  let tr := dtrace_of (h1 ++ (o1, DReceive x (MUnregister u)) :: h2) (outs1 ++ DMsg (MUnregistered a) to :: outs2) in
  (disclosing_caller tr = true -> present tr sid) ->
  dstep o d3 (DReceive sid (MCall c)) = Ret d (DMsg (MInvocation v) callee) ->
  in_registration v = ur_registration u -> callee = x ->
  exists e p pol, e ∈ dtrace_of h2 outs2 /\ is_registered e x p pol (ur_registration u).
Proof. exact gone_for_good. Qed.
(** Session 3 gives "p" up as the last one; 2 takes it and is called. *)
Example C46_ex_kind : considerate_history h_kind /\ (forall y q, owns (trace (take 9 h_kind)) y q 1 -> y = 3)
  /\ next_result (take 9 h_kind) e0 (dunreg 3 16 1) = Some (DMsg (MUnregistered (Unregistered 16)) 3)
  /\ next_result (take 12 h_kind) e0 (dcall 1 18 "p" []) = Some (DMsg (MInvocation (Invocation 4 3 (Some []) (Some [VStr "hi"]) None no_bin)) 2).
Proof. split; [exact h_kind_considerate|]. split; [crush|]. split; by vm_compute. Qed.
(** In every history: whoever is invoked for a registration of a procedure that
    was not registered to be shared holds it, and nobody else does. *)
Theorem C46_unshared_partial : forall h o sid c d0 outs d v callee m, N.of_nat (length h) < two53 ->
  drun new_dealer h = Ret d0 outs -> dstep o d0 (DReceive sid (MCall c)) = Ret d (DMsg (MInvocation v) callee) ->
  let tr := dtrace_of h outs in
  registered_under tr (in_registration v) m -> never_shared tr (rg_procedure m) ->
  owns tr callee (rg_procedure m) (in_registration v) /\ forall x q, owns tr x q (in_registration v) -> x = callee.
Proof. exact sole_invoked. Qed.
Example C46_ex_unshared :
  next_result h_alone e0 (dcall 2 30 "s" []) = Some (DMsg (MInvocation (Invocation 4 3 (Some []) (Some [VStr "hi"]) None no_bin)) 4)
  /\ registered_under (trace h_alone) 3 (Register 17 (Some []) "s") /\ never_shared (trace h_alone) "s"
  /\ next_result (h_alone ++ hist [dunreg 4 21 3]) e0 (dcall 2 30 "s" [])
       = Some (DMsg (refusal 48 30 "wamp.error.no_such_procedure") 2).
Proof.
  split; [by vm_compute|]. split; [|split; [apply never_sharedb_sound; by vm_compute|by vm_compute]].
  exists 4, (Registered 17 3), 4. split; [|done].
  match goal with |- _ ∈ ?t => let t' := eval vm_compute in t in change t with t' end.
  do 2 (apply elem_of_cons; right). by apply elem_of_cons; left.
Qed.
(** Session 1 shares "p" with 2 and unregisters; it is still invoked. *)
Definition h_leaver : dhist := hist
  [DAdd (peer 1); DAdd (peer 2); dreg 1 11 "p" fst_policy; dreg 2 12 "p" fst_policy; dunreg 1 13 1].
Theorem C46_after_unregister_refuted : exists h d0 outs o sid c d v callee,
  drun new_dealer h = Ret d0 outs
  /\ (exists h' outs' o' u, h = h' ++ [(o', DReceive callee (MUnregister u))]
        /\ outs = outs' ++ [DMsg (MUnregistered (Unregistered (ur_request u))) callee]
        /\ ur_registration u = in_registration v)
  /\ dstep o d0 (DReceive sid (MCall c)) = Ret d (DMsg (MInvocation v) callee).
Proof.
  exists h_leaver, (after h_leaver), (results h_leaver), e0, 2, (acall 20 "p" []),
    (next_after h_leaver e0 (dcall 2 20 "p" [])), (Invocation 2 1 (Some []) (Some [VStr "hi"]) None no_bin), 1.
  split; [apply ran; by vm_compute|]. split; [|apply (stepped h_leaver e0 (dcall 2 20 "p" [])); by vm_compute].
  exists (hist [DAdd (peer 1); DAdd (peer 2); dreg 1 11 "p" fst_policy; dreg 2 12 "p" fst_policy]),
    [DOk; DOk; DMsg (MRegistered (Registered 11 1)) 1; DMsg (MRegistered (Registered 12 1)) 2], e0, (Unregister 13 1).
  split; [done|]. split; [by vm_compute|done].
Qed.

(** ** C47 *)
Theorem C47_holder_served_partial : forall h o sid c d0 outs b g,
  polite_history h -> N.of_nat (length h) < two53 ->
  drun new_dealer h = Ret d0 outs -> (disclosing_caller (dtrace_of h outs) = true -> present (dtrace_of h outs) sid) ->
  owns (dtrace_of h outs) b (ca_procedure c) g ->
  exists d v callee, dstep o d0 (DReceive sid (MCall c)) = Ret d (DMsg (MInvocation v) callee)
    /\ in_registration v = g /\ owns (dtrace_of h outs) callee (ca_procedure c) g.
Proof. exact polite_owned. Qed.
Example C47_ex : let h := h_shared ++ hist [DRemove 1; DRemove 3] in
  polite_history h /\ owns (trace h) 2 "p" 2
  /\ next_result h e0 (dcall 5 30 "p" []) = Some (DMsg (MInvocation (Invocation 5 2 (Some []) (Some [VStr "hi"]) None no_bin)) 2).
Proof.
  cbv zeta. split; [|split; [own|by vm_compute]].
  apply polites_history. crush. left. exists "q"%string. split; [own|crush].
Qed.
(** In considerate histories a held procedure is still served, by somebody who
    is attached and has it on its books (but may have given it up). *)
Theorem C47_somebody_serves_partial : forall h o sid c d0 outs b g,
  considerate_history h -> N.of_nat (length h) < two53 ->
  drun new_dealer h = Ret d0 outs ->
  let tr := dtrace_of h outs in
  (disclosing_caller tr = true -> present tr sid) ->
  owns tr b (ca_procedure c) g ->
  exists d v callee, dstep o d0 (DReceive sid (MCall c)) = Ret d (DMsg (MInvocation v) callee)
    /\ in_registration v = g /\ present tr callee /\ listed tr callee (ca_procedure c) g.
Proof. exact considerate_served. Qed.
(** Session 1 gave up "p", which 2 and 3 still hold, and is called first. *)
Example C47_ex_kind : let h := take 7 h_kind in
  considerate_history h /\ owns (trace h) 3 "p" 1 /\ ~ owns (trace h) 1 "p" 1
  /\ next_result h e0 (dcall 3 30 "p" []) = Some (DMsg (MInvocation (Invocation 2 1 (Some []) (Some [VStr "hi"]) None no_bin)) 1).
Proof.
  cbv zeta. split; [eapply follows_prefix; rewrite (take_drop 7 h_kind); exact h_kind_considerate|].
  split; [own|]. split; [crush|by vm_compute].
Qed.
(** In every history a procedure that was not registered to be shared is served
    by its holder. *)
Theorem C47_unshared_partial : forall h o sid c d0 outs b g,
  never_shared (dtrace_of h outs) (ca_procedure c) -> N.of_nat (length h) < two53 ->
  drun new_dealer h = Ret d0 outs ->
  let tr := dtrace_of h outs in
  (disclosing_caller tr = true -> present tr sid) -> owns tr b (ca_procedure c) g ->
  exists d v, dstep o d0 (DReceive sid (MCall c)) = Ret d (DMsg (MInvocation v) b) /\ in_registration v = g.
Proof. exact sole_served. Qed.
(** "p" is past saving in this history, "s" is served. *)
Example C47_ex_unshared : never_shared (trace h_alone) "s" /\ owns (trace h_alone) 4 "s" 3
  /\ next_result h_alone e0 (dcall 2 30 "s" []) = Some (DMsg (MInvocation (Invocation 4 3 (Some []) (Some [VStr "hi"]) None no_bin)) 4)
  /\ owns (trace h_alone) 3 "p" 2
  /\ next_result h_alone e0 (dcall 2 30 "p" []) = Some (DMsg (refusal 48 30 "wamp.error.no_such_procedure") 2).
Proof.
  split; [apply never_sharedb_sound; by vm_compute|]. split; [own|]. split; [by vm_compute|]. split; [own|by vm_compute].
Qed.
(** Session 1 repeats an UNREGISTER; the procedure of session 3 is gone. *)
Theorem C47_others_unaffected_refuted : exists h d0 outs o sid c b g,
  drun new_dealer h = Ret d0 outs /\ owns (dtrace_of h outs) b (ca_procedure c) g
  /\ present (dtrace_of h outs) b
  /\ dstep o d0 (DReceive sid (MCall c))
     = Ret d0 (DMsg (refusal 48 (ca_request c) "wamp.error.no_such_procedure") sid).
Proof.
  exists h_stale, (after h_stale), (results h_stale), e0, 4, (acall 30 "p" []), 3, 2.
  assert (R : drun new_dealer h_stale = Ret (after h_stale) (results h_stale)) by (apply ran; by vm_compute).
  split; [exact R|]. split; [own|]. split; [vm_compute; tauto|].
  assert (S : dstep e0 (after h_stale) (dcall 4 30 "p" []) = Ret (next_after h_stale e0 (dcall 4 30 "p" []))
     (DMsg (refusal 48 30 "wamp.error.no_such_procedure") 4)) by (apply stepped; by vm_compute).
  destruct (C41_refused_unchanged _ _ _ _ _ _ _ _ _ R S) as (E & _). rewrite E in S. exact S.
Qed.

(** ** C48 *)
(** In polite histories nothing panics, and the dealer behaves like the
    procedure table of DealerSpec.v. *)
Theorem C48_polite_refines_table_partial : forall h, polite_history h -> N.of_nat (length h) <= two53 ->
  exists d outs s, drun new_dealer h = Ret d outs /\ rruns empty_ptable (map snd h) outs s.
Proof. intros h Hp Hb. destruct (run_drep h Hp Hb) as (d & outs & s & H1 & H2 & _). eauto. Qed.
(** In considerate histories nothing panics.  They include the polite ones, and
    with any one of the three rules dropped there is a panic. *)
Theorem C48_considerate_partial : forall h, considerate_history h -> N.of_nat (length h) <= two53 ->
  exists d outs, drun new_dealer h = Ret d outs.
Proof. exact considerate_never_panics. Qed.
Theorem C48_polite_is_considerate : forall h, polite_history h -> considerate_history h.
Proof. exact polite_considerate. Qed.
Theorem C48_rules_needed : forall x : crule, exists h,
  considerate_but x h /\ N.of_nat (length h) < 10 /\ exists w, drun new_dealer h = Crash w.
Proof.
  intros x. exists (h_rude x). destruct (rude_panics x) as [H1 H2]. split; [exact H1|]. split; [by destruct x; vm_compute|exact H2].
Qed.
Example C48_ex_kind : considerate_history h_kind /\ ~ polite_history h_kind /\ length (results h_kind) = 13%nat.
Proof. split; [exact h_kind_considerate|]. split; [exact h_kind_impolite|by vm_compute]. Qed.
(** In every history only CALL, UNREGISTER and RemoveSession can panic. *)
Theorem C48_others_never_panic_partial : forall h o op d0 outs, drun new_dealer h = Ret d0 outs ->
  match op with
  | DRemove _ | DReceive _ (MCall _) | DReceive _ (MUnregister _) => False
  | _ => True
  end -> exists d out, dstep o d0 op = Ret d out.
Proof. exact others_never_panic. Qed.
Example C48_ex : polite_history h_shared /\ length (results h_shared) = 12%nat.
Proof. split; [exact h_shared_polite|by vm_compute]. Qed.
(** UNREGISTER of an id that the session does not have. *)
Theorem C48_unregister_panics_refuted : exists h w, drun new_dealer h = Crash w.
Proof.
  exists (hist [DAdd (peer 1); dreg 1 10 "p" []; dunreg 1 11 99]). apply panicked. by vm_compute.
Qed.
(** A session registers a shared procedure twice and leaves: the next CALL. *)
Theorem C48_call_panics_refuted : exists h w, (forall o x u, (o, DReceive x (MUnregister u)) ∉ h)
  /\ drun new_dealer h = Crash w.
Proof.
  destruct (panicked (hist [DAdd (peer 1); DAdd (peer 2); DAdd (peer 3); dreg 1 10 "p" rr; dreg 2 11 "p" rr; dreg 1 12 "p" rr; DRemove 1; dcall 3 20 "p" []])) as [w Hw].
  { by vm_compute. }
  eexists _, w. split; [|exact Hw]. intros o x u Hin.
  repeat (apply elem_of_cons in Hin as [Hin|Hin]; [discriminate Hin|]). destruct (not_elem_of_nil _ Hin).
Qed.
(** A CALL attributed to a session that is not attached, with disclosure on. *)
Theorem C48_disclosed_call_panics_refuted : exists h w, drun new_dealer h = Crash w
  /\ forall o sid m, (o, DReceive sid m) ∈ h -> match m with MRegister _ | MCall _ => True | _ => False end.
Proof.
  destruct (panicked (hist [DAdd (peer 1); dreg 1 10 "p" []; DDisclose true; dcall 9 20 "p" []])) as [w Hw].
  { by vm_compute. }
  eexists _, w. split; [exact Hw|]. intros o sid m Hin.
  repeat (apply elem_of_cons in Hin as [Hin|Hin]; [by inversion Hin|]). destruct (not_elem_of_nil _ Hin).
Qed.

(** ** C49 *)
(** In polite histories a held prefix that is at least as long as every prefix
    ever registered that covers the procedure is found. *)
Theorem C49_prefix_found_partial : forall h o sid c d0 outs x y p g,
  polite_history h -> N.of_nat (length h) < two53 ->
  drun new_dealer h = Ret d0 outs -> (disclosing_caller (dtrace_of h outs) = true -> present (dtrace_of h outs) sid) ->
  let tr := dtrace_of h outs in
  owns tr x p g -> once_registered tr y p PPrefix g ->
  (forall z pol, once_registered tr z p pol g -> pol = PPrefix) ->
  is_prefix p (ca_procedure c) ->
  (forall z g', ~ owns tr z (ca_procedure c) g') ->
  (forall z q g', once_registered tr z q PPrefix g' -> is_prefix q (ca_procedure c) ->
     (String.length q <= String.length p)%nat) ->
  exists d v callee, dstep o d0 (DReceive sid (MCall c)) = Ret d (DMsg (MInvocation v) callee)
    /\ in_registration v = g /\ owns tr callee p g.
Proof. exact polite_prefix_found. Qed.
Definition h_prefixes : dhist := hist
  [DAdd (peer 1); DAdd (peer 2); dreg 1 10 "a" prefixed; dreg 2 11 "a.b" prefixed].
Example C49_ex : polite_history h_prefixes
  /\ next_result h_prefixes e0 (dcall 1 20 "a.b.c" []) = Some (DMsg (MInvocation (Invocation 3 2 (Some []) (Some [VStr "hi"]) None no_bin)) 2)
  /\ next_result h_prefixes e0 (dcall 1 20 "a.c" []) = Some (DMsg (MInvocation (Invocation 3 1 (Some []) (Some [VStr "hi"]) None no_bin)) 1).
Proof. split; [apply polites_history; crush|by vm_compute]. Qed.
(** A longer prefix that was given up hides the held shorter one, even though
    everybody is polite. *)
Theorem C49_live_prefix_refuted : exists h d0 outs o sid c x p g,
  polite_history h /\ drun new_dealer h = Ret d0 outs
  /\ owns (dtrace_of h outs) x p g /\ once_registered (dtrace_of h outs) x p PPrefix g
  /\ is_prefix p (ca_procedure c)
  /\ dstep o d0 (DReceive sid (MCall c))
     = Ret d0 (DMsg (refusal 48 (ca_request c) "wamp.error.no_such_procedure") sid).
Proof.
  set (h := h_prefixes ++ hist [dunreg 2 12 2]).
  exists h, (after h), (results h), e0, 1, (acall 20 "a.b.c" []), 1, "a"%string, 1.
  assert (R : drun new_dealer h = Ret (after h) (results h)) by (apply ran; by vm_compute).
  assert (S : dstep e0 (after h) (dcall 1 20 "a.b.c" []) = Ret (next_after h e0 (dcall 1 20 "a.b.c" []))
     (DMsg (refusal 48 20 "wamp.error.no_such_procedure") 1)) by (apply stepped; by vm_compute).
  destruct (C41_refused_unchanged _ _ _ _ _ _ _ _ _ R S) as (E & _). rewrite E in S.
  split; [|split; [exact R|]].
  { apply polites_history. crush. left. exists "a.b"%string. split; [own|crush]. }
  split; [own|]. split; [|split; [by exists ".b.c"%string|exact S]].
  exists (dreg 1 10 "a" prefixed, DMsg (MRegistered (Registered 10 1)) 1). clear R S E. split; [|by vm_compute].
  assert (Et : dtrace_of h (results h) = [(dunreg 2 12 2, DMsg (MUnregistered (Unregistered 12)) 2);
     (dreg 2 11 "a.b" prefixed, DMsg (MRegistered (Registered 11 2)) 2);
     (dreg 1 10 "a" prefixed, DMsg (MRegistered (Registered 10 1)) 1); (DAdd (peer 2), DOk); (DAdd (peer 1), DOk)])
    by (vm_compute; reflexivity).
  rewrite Et. right; right; left.
Qed.

(** ** C50 *)
(** Messages go to the session whose message is being processed, or to an
    attached one; the exception is an ERROR that answers an ERROR. *)
Theorem C50_recipients_partial : forall h o op d0 d outs m to,
  drun new_dealer h = Ret d0 outs -> dstep o d0 op = Ret d (DMsg m to) ->
  (exists m0, op = DReceive to m0)
  \/ (exists sid m0, op = DReceive sid m0 /\
      (present (dtrace_of h outs) to \/ exists x y, m0 = MError x /\ m = MError y)).
Proof. exact recipients. Qed.
Example C50_ex : next_result (h_call []) e0 (derr 1 2) = Some (DMsg (MError (Error 48 20 (Some []) "app.error" None None)) 2)
  /\ next_result (h_call [] ++ hist [DRemove 2]) e0 (dyield 1 2 []) = Some (DErr "caller gone").
Proof. vm_compute. done. Qed.
Theorem C50_detached_refuted : exists h d0 outs o sid x d y to,
  drun new_dealer h = Ret d0 outs /\ ~ present (dtrace_of h outs) to /\ to <> sid
  /\ dstep o d0 (DReceive sid (MError x)) = Ret d (DMsg (MError y) to).
Proof.
  set (h := h_call [] ++ hist [DRemove 2]).
  exists h, (after h), (results h), e0, 1, (anerror 2), (next_after h e0 (derr 1 2)),
    (Error 48 20 (Some []) "app.error" None None), 2.
  split; [apply ran; by vm_compute|]. split; [vm_compute; intuition congruence|]. split; [done|].
  apply (stepped h e0 (derr 1 2)). by vm_compute.
Qed.

(** ** C51 *)
(** A progressive chunk gets the id given to the last CALL of the same session
    with the same request id. *)
Theorem C51_same_invocation_partial : forall h o sid c d0 d outs v callee op2 v1 c1 to1 tr1 tr2,
  N.of_nat (length h) < two53 ->
  drun new_dealer h = Ret d0 outs -> dstep o d0 (DReceive sid (MCall c)) = Ret d (DMsg (MInvocation v) callee) ->
  says (ca_options c) "progress" = true ->
  op2 = DReceive sid (MCall c1) -> ca_request c1 = ca_request c ->
  dtrace_of h outs = tr2 ++ (op2, DMsg (MInvocation v1) to1) :: tr1 ->
  (forall c2 out, (DReceive sid (MCall c2), out) ∈ tr2 -> ca_request c2 <> ca_request c) ->
  in_request v = in_request v1.
Proof. exact same_invocation. Qed.
Example C51_ex : next_result (h_call [flag "progress"]) e0 (dcall 2 20 "p" [flag "progress"])
  = Some (DMsg (MInvocation (Invocation 2 1 (Some [flag "progress"]) (Some [VStr "hi"]) None no_bin)) 1).
Proof. vm_compute. reflexivity. Qed.
(** And it goes to the same callee, as long as that still holds the procedure and
    nobody else has it on its books. *)
Theorem C51_sole_callee_partial : forall h o sid c d0 d outs v callee c1 v1 to1 tr1 tr2,
  considerate_history h -> N.of_nat (length h) < two53 ->
  drun new_dealer h = Ret d0 outs ->
  let tr := dtrace_of h outs in
  (disclosing_caller tr = true -> present tr sid) ->
  dstep o d0 (DReceive sid (MCall c)) = Ret d (DMsg (MInvocation v) callee) ->
  says (ca_options c) "progress" = true -> ca_request c1 = ca_request c ->
  tr = tr2 ++ (DReceive sid (MCall c1), DMsg (MInvocation v1) to1) :: tr1 ->
  (forall c2 out, (DReceive sid (MCall c2), out) ∈ tr2 -> ca_request c2 <> ca_request c) ->
  owns tr to1 (ca_procedure c) (in_registration v1) ->
  (forall x, listed tr x (ca_procedure c) (in_registration v1) -> x = to1) ->
  in_request v = in_request v1 /\ in_registration v = in_registration v1 /\ callee = to1.
Proof. exact sole_callee. Qed.
Example C51_ex_sole : let h := h_call [flag "progress"] in
  considerate_history h /\ owns (trace h) 1 "p" 1 /\ forall x, listed (trace h) x "p" 1 -> x = 1.
Proof. cbv zeta. split; [kind|]. split; [own|crush]. Qed.
(** The chunks go to different callees under roundrobin ... *)
Theorem C51_same_callee_refuted : exists h d outs sid c v v' x y h0 outs0 o,
  h = h0 ++ [(o, DReceive sid (MCall c)); (o, DReceive sid (MCall c))]
  /\ says (ca_options c) "progress" = true
  /\ drun new_dealer h = Ret d outs
  /\ outs = outs0 ++ [DMsg (MInvocation v) x; DMsg (MInvocation v') y]
  /\ in_request v = in_request v' /\ x <> y.
Proof.
  set (h0 := hist [DAdd (peer 1); DAdd (peer 2); dreg 1 10 "p" rr; dreg 2 11 "p" rr]).
  set (h := h0 ++ hist [dcall 1 20 "p" [flag "progress"]; dcall 1 20 "p" [flag "progress"]]).
  exists h, (after h), (results h), 1, (acall 20 "p" [flag "progress"]),
    (Invocation 2 1 (Some [flag "progress"]) (Some [VStr "hi"]) None no_bin),
    (Invocation 2 1 (Some [flag "progress"]) (Some [VStr "hi"]) None no_bin), 1, 2, h0, (results h0), e0.
  split; [done|]. split; [done|]. split; [apply ran; by vm_compute|]. split; [by vm_compute|]. done.
Qed.
(** ... and the last chunk, the one not marked progress, gets a new id. *)
Theorem C51_last_chunk_refuted : exists h d outs sid c c' v v' x y h0 outs0 o,
  h = h0 ++ [(o, DReceive sid (MCall c)); (o, DReceive sid (MCall c'))]
  /\ says (ca_options c) "progress" = true /\ ca_request c' = ca_request c
  /\ drun new_dealer h = Ret d outs
  /\ outs = outs0 ++ [DMsg (MInvocation v) x; DMsg (MInvocation v') y]
  /\ in_request v <> in_request v'.
Proof.
  set (h0 := hist [DAdd (peer 1); dreg 1 10 "p" []]).
  set (h := h0 ++ hist [dcall 1 20 "p" [flag "progress"]; dcall 1 20 "p" []]).
  exists h, (after h), (results h), 1, (acall 20 "p" [flag "progress"]), (acall 20 "p" []),
    (Invocation 2 1 (Some [flag "progress"]) (Some [VStr "hi"]) None no_bin),
    (Invocation 3 1 (Some []) (Some [VStr "hi"]) None no_bin), 1, 1, h0, (results h0), e0.
  split; [done|]. split; [done|]. split; [done|]. split; [apply ran; by vm_compute|]. split; [by vm_compute|]. done.
Qed.

(** ** C52 *)
(** The callee leaves; nothing is sent to the caller; another session can
    still answer the call. *)
Theorem C52_departed_callee_refuted : exists h d0 outs o callee d outs2 o2 sid x d2 y caller,
  drun new_dealer h = Ret d0 outs
  /\ dstep o d0 (DRemove callee) = Ret d DOk /\ outs2 = outs ++ [DOk]
  /\ (exists op v, (op, DMsg (MInvocation v) callee) ∈ dtrace_of h outs /\ in_request v = er_request x)
  /\ sid <> callee
  /\ dstep o2 d (DReceive sid (MError x)) = Ret d2 (DMsg (MError y) caller).
Proof.
  set (h := h_call []). set (h2 := h ++ hist [DRemove 1]).
  exists h, (after h), (results h), e0, 1, (after h2), (results h ++ [DOk]), e0, 3, (anerror 2),
    (next_after h2 e0 (derr 3 2)), (Error 48 20 (Some []) "app.error" None None), 2.
  split; [apply ran; by vm_compute|].
  assert (E : after h2 = next_after h e0 (DRemove 1)) by (vm_compute; reflexivity).
  split; [rewrite E; apply stepped; by vm_compute|]. split; [done|]. split.
  - exists (dcall 2 20 "p" []), (Invocation 2 1 (Some []) (Some [VStr "hi"]) None no_bin). split; [|done].
    assert (Et : dtrace_of h (results h) =
      [(dcall 2 20 "p" [], DMsg (MInvocation (Invocation 2 1 (Some []) (Some [VStr "hi"]) None no_bin)) 1);
       (dreg 1 10 "p" [], DMsg (MRegistered (Registered 10 1)) 1);
       (DAdd (peer 3), DOk); (DAdd (peer 2), DOk); (DAdd (peer 1), DOk)]) by (vm_compute; reflexivity).
    rewrite Et. left.
  - split; [done|]. apply (stepped h2 e0 (derr 3 2)). by vm_compute.
Qed.

(** What the dealer does instead: an invocation stays open, whoever leaves, until
    a YIELD or ERROR with its id comes; while its caller is attached, the
    first to come is handed on. *)
Theorem C52_answerable_partial : forall h1 h2 d1 outs1 d2 outs2 i c r rp s,
  N.of_nat (length (h1 ++ h2)) <= two53 ->
  drun new_dealer h1 = Ret d1 outs1 -> drun d1 h2 = Ret d2 outs2 ->
  open_inv (dtrace_of h1 outs1) i c r rp ->
  (forall o sid m, (o, DReceive sid m) ∈ h2 -> ~ answer_to m i) ->
  present_as (dtrace_of (h1 ++ h2) (outs1 ++ outs2)) c s ->
  (forall o sid y, yi_request y = i -> exists d, dstep o d2 (DReceive sid (MYield y))
      = Ret d (DMsg (MResult (result_for y r (rp && says (yi_options y) "progress") s)) c))
  /\ (forall o sid x, er_request x = i -> er_type x = 68 -> exists d, dstep o d2 (DReceive sid (MError x))
      = Ret d (DMsg (MError (Error 48 r (or_empty (er_details x)) (er_uri x) (er_args x) (er_kwargs x))) c)).
Proof. exact answerable. Qed.
(** Both the callee and the registration are gone. *)
Example C52_ex : let h := h_call [] in let h2 := hist [DRemove 1; DAdd (peer 1)] in
  drun new_dealer h = Ret (after h) (results h)
  /\ open_inv (dtrace_of h (results h)) 2 2 20 false
  /\ present_as (trace (h ++ h2)) 2 (peer 2)
  /\ next_result (h ++ h2) e0 (dyield 3 2 []) = Some (DMsg (MResult (Result 20 (Some []) (Some [VStr "yo"]) None no_bin)) 2).
Proof.
  cbv zeta. split; [apply ran; by vm_compute|]. split; [vm_compute; by left|]. split; [|by vm_compute].
  vm_compute. right. split; [done|]. split; [done|]. right. split; [done|]. by left.
Qed.

(** ** C53 *)
Theorem C53_simple_service : forall h, simple_history h -> N.of_nat (length h) < two53 ->
  exists d outs, drun new_dealer h = Ret d outs /\
  let tr := dtrace_of h outs in
  (forall x p g x' g', owns tr x p g -> owns tr x' p g' -> x' = x /\ g' = g)
  /\ (forall x p g, owns tr x p g -> present tr x)
  /\ (forall o p, exists b, dstep o d (DHasProc p) = Ret d (DHas b) /\ (b = true <-> exists x g, owns tr x p g))
  /\ (forall o sid c, (disclosing_caller tr = true -> present tr sid) ->
        (forall x g, owns tr x (ca_procedure c) g ->
           exists d' v, dstep o d (DReceive sid (MCall c)) = Ret d' (DMsg (MInvocation v) x) /\ in_registration v = g)
        /\ ((forall x g, ~ owns tr x (ca_procedure c) g) ->
           dstep o d (DReceive sid (MCall c))
             = Ret d (DMsg (refusal 48 (ca_request c) "wamp.error.no_such_procedure") sid)))
  /\ (forall o sid m, present tr sid ->
        requested_policy (rg_options m) = PExact -> (invoke_policy m = "" \/ invoke_policy m = "single") ->
        (forall x g, owns tr x (rg_procedure m) g ->
           dstep o d (DReceive sid (MRegister m))
             = Ret d (DMsg (refusal 64 (rg_request m) "wamp.error.procedure_already_exists") sid))
        /\ ((forall x g, ~ owns tr x (rg_procedure m) g) ->
           exists d', dstep o d (DReceive sid (MRegister m))
             = Ret d' (DMsg (MRegistered (Registered (rg_request m) (used tr + 1))) sid))).
Proof. exact simple_service. Qed.
Definition h_simple : dhist := hist
  [DAdd (peer 1); DAdd (peer 2); dreg 1 10 "p" []; dreg 2 11 "p" []; dreg 2 12 "q" []; dunreg 1 13 1; dreg 2 14 "p" []; DRemove 1].
Example C53_ex : simple_history h_simple /\ owns (trace h_simple) 2 "p" 3
  /\ next_result h_simple e0 (dcall 2 20 "p" []) = Some (DMsg (MInvocation (Invocation 4 3 (Some []) (Some [VStr "hi"]) None no_bin)) 2).
Proof.
  split; [|split; [own|by vm_compute]].
  apply simples_history. crush. left. exists "p"%string. own.
Qed.

(** * Assumptions *)
Print Assumptions C35_add_session.
Print Assumptions C35_remove_session.
Print Assumptions C36_shared_policy.
Print Assumptions C36_register_iff_partial.
Print Assumptions C36_unshared_partial.
Print Assumptions C36_register_iff_refuted.
Print Assumptions C37_result_origin.
Print Assumptions C37_error_origin.
Print Assumptions C37_yield_answer.
Print Assumptions C37_error_answer.
Print Assumptions C37_one_call_per_invocation.
Print Assumptions C38_one_last_word.
Print Assumptions C39_progressive_results.
Print Assumptions C40_callee_registered_partial.
Print Assumptions C40_own_policy_refuted.
Print Assumptions C41_refused_unchanged.
Print Assumptions C41_never_registered.
Print Assumptions C41_nobody_holds_partial.
Print Assumptions C41_nobody_holds_refuted.
Print Assumptions C42_invocation_policies.
Print Assumptions C43_fresh_invocations.
Print Assumptions C44_invocation.
Print Assumptions C45_only_callee_answers_refuted.
Print Assumptions C45_sender_irrelevant.
Print Assumptions C46_invoked_holds_partial.
Print Assumptions C46_invoked_listed_partial.
Print Assumptions C46_sole_holder_partial.
Print Assumptions C46_unshared_partial.
Print Assumptions C46_after_unregister_refuted.
Print Assumptions C47_holder_served_partial.
Print Assumptions C47_somebody_serves_partial.
Print Assumptions C47_unshared_partial.
Print Assumptions C47_others_unaffected_refuted.
Print Assumptions C48_polite_refines_table_partial.
Print Assumptions C48_considerate_partial.
Print Assumptions C48_polite_is_considerate.
Print Assumptions C48_rules_needed.
Print Assumptions C48_others_never_panic_partial.
Print Assumptions C48_unregister_panics_refuted.
Print Assumptions C48_call_panics_refuted.
Print Assumptions C48_disclosed_call_panics_refuted.
Print Assumptions C49_prefix_found_partial.
Print Assumptions C49_live_prefix_refuted.
Print Assumptions C50_recipients_partial.
Print Assumptions C50_detached_refuted.
Print Assumptions C51_same_invocation_partial.
Print Assumptions C51_sole_callee_partial.
Print Assumptions C51_same_callee_refuted.
Print Assumptions C51_last_chunk_refuted.
Print Assumptions C52_departed_callee_refuted.
Print Assumptions C52_answerable_partial.
Print Assumptions C53_simple_service.
