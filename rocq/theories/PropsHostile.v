(** C104-C106: well-behaved clients among hostile ones. *)
From Verif Require Import Prelude Value Msg IdGen Types PathMatch Broker Dealer Session Network.
From Verif Require Import BrokerSpec DealerSpec DealerKind NetworkSpec Hostile HostileFinal HostileSole.
From Verif Require Import DealerEx DealerKindEx NetworkEx HostileEx.

Local Open Scope string_scope.
Local Open Scope N_scope.

(** ** C104: hostile clients cannot bring a well-behaved one out of step

    [n_crashed] is empty: no call on the router panicked (C101: a hostile
    client can make one panic). *)
Theorem C104_accepted : forall honest es c a, N.of_nat (length es) <= two53 -> decently honest empty_net es ->
  let n := hrun empty_net es in
  n_crashed n = [] -> honest c -> (c, a) ∉ n_rejected n.
Proof. exact h_accepted. Qed.
Theorem C104_agreement : forall honest es c cl, N.of_nat (length es) <= two53 -> decently honest empty_net es ->
  let n := hrun empty_net es in
  n_crashed n = [] -> honest c -> n_clients n !! c = Some cl -> cl_down cl = [] ->
  (forall g, g ∈ cs_subscriptions (cl_session cl) <-> exists t, holds (btr n) c t g)
  /\ (forall g, g ∈ cs_registrations (cl_session cl) <-> exists p, owns (dtr n) c p g)
  /\ (forall r, r ∈ cs_calls (cl_session cl) <->
        r ∈ call_ids (cl_up cl) \/ exists i rp, open_inv (dtr n) i c r rp).
Proof. exact h_agreement. Qed.
Theorem C104_accounted : forall honest es c cl r, N.of_nat (length es) <= two53 -> decently honest empty_net es ->
  let n := hrun empty_net es in
  n_crashed n = [] -> honest c -> n_clients n !! c = Some cl -> r ∈ hcalled c empty_net es ->
  exactly_one [ r ∈ call_ids (cl_up cl);
                exists i rp, open_inv (dtr n) i c r rp;
                r ∈ answer_ids (cl_down cl);
                r ∈ answer_ids (hread c empty_net es) ].
Proof. exact h_accounted. Qed.
Theorem C104_one_invocation : forall honest es c cl r i i' rp rp', N.of_nat (length es) <= two53 -> decently honest empty_net es ->
  let n := hrun empty_net es in
  n_crashed n = [] -> honest c -> n_clients n !! c = Some cl ->
  open_inv (dtr n) i c r rp -> open_inv (dtr n) i' c r rp' -> i' = i.
Proof. exact h_one_invocation. Qed.
Theorem C104_answered_once : forall honest es c, N.of_nat (length es) <= two53 -> decently honest empty_net es ->
  n_crashed (hrun empty_net es) = [] -> honest c ->
  NoDup (hcalled c empty_net es) /\ NoDup (answer_ids (hread c empty_net es))
  /\ forall r, r ∈ answer_ids (hread c empty_net es) -> r ∈ hcalled c empty_net es.
Proof. exact h_answered_once. Qed.
(** The hostile session 3 is out of step and has answered a call of 2; 2 has made
    three calls: one is answered, one is with 1, one not read by the router. *)
Example C104_ex : let n := hrun empty_net run_hostile in
  decently (fun c => c ∈ [1; 2]) empty_net run_hostile /\ n_crashed n = [] /\ map fst (n_rejected n) = [3]
  /\ hcalled 2 empty_net run_hostile = [2; 3; 4] /\ answer_ids (hread 2 empty_net run_hostile) = [2]
  /\ (exists cl, n_clients n !! 2 = Some cl /\ bool_decide (call_ids (cl_up cl) = [4] /\ cl_down cl = []
        /\ 1 ∈ cs_subscriptions (cl_session cl)) = true)
  /\ open_inv (dtr n) 5 2 3 false.
Proof.
  split; [apply decentlyb_sound; by vm_compute|]. split; [by vm_compute|]. split; [by vm_compute|].
  split; [by vm_compute|]. split; [by vm_compute|]. split; [apply client_is; by vm_compute|].
  match goal with |- open_inv ?t _ _ _ _ => let t' := eval vm_compute in t in change (open_inv t' 5 2 3 false) end.
  cbn. by left.
Qed.

(** ** C105: nobody takes over the procedures of others

    False: [1] holds "p" and its session lists the registration, and the call
    goes to [4], which is hostile. *)
Theorem C105_taken_over_refuted : exists honest es o x call rest c g y down v,
  let n := hrun empty_net es in
  decently honest empty_net es /\ n_crashed n = [] /\ honest x /\ honest c /\ ~ honest y
  /\ cl_up <$> n_clients n !! x = Some (MCall call :: rest)
  /\ (exists cl, n_clients n !! c = Some cl /\ g ∈ cs_registrations (cl_session cl))
  /\ owns (dtr n) c (ca_procedure call) g
  /\ cl_down <$> n_clients n !! y = Some down
  /\ cl_down <$> n_clients (hstep n (HNet (NRoute o x))) !! y = Some (down ++ [MInvocation v])%list.
Proof.
  exists (fun c => c ∈ [1; 2]), run_takeover, e0, 2, (acall 1 "p" []), [], 1, 2, 4,
    [MRegistered (Registered 1 1); MUnregistered (Unregistered 2); MRegistered (Registered 3 3)],
    (Invocation 4 3 (Some []) (Some [VStr "hi"]) None no_bin).
  split; [apply decentlyb_sound; by vm_compute|]. split; [by vm_compute|].
  split; [by apply (bool_decide_eq_true_1 _)|]. split; [by apply (bool_decide_eq_true_1 _)|].
  split; [by apply (bool_decide_eq_false_1 _)|]. split; [by vm_compute|]. split.
  { destruct (client_is (hrun empty_net run_takeover) 1 (fun cl => bool_decide (2 ∈ cs_registrations (cl_session cl))))
      as (c1 & H1 & P1); [by vm_compute|]. exists c1. split; [exact H1|]. by apply bool_decide_eq_true_1 in P1. }
  split; [|split; by vm_compute].
  match goal with |- owns ?t _ _ _ => let t' := eval vm_compute in t in change (owns t' 1 "p" 2) end.
  own.
Qed.
(** True of procedures that were not registered to be shared: a call goes to the
    holder, and nobody else gets a message. *)
Theorem C105_call_reaches_partial : forall honest es o x clx call rest c g,
  N.of_nat (length es) < two53 -> decently honest empty_net es ->
  let n := hrun empty_net es in
  n_crashed n = [] -> never_shared (dtr n) (ca_procedure call) ->
  n_clients n !! x = Some clx -> cl_up clx = MCall call :: rest -> owns (dtr n) c (ca_procedure call) g ->
  exists v, in_registration v = g /\
  forall y cly, n_clients n !! y = Some cly ->
  exists cl', n_clients (hstep n (HNet (NRoute o x))) !! y = Some cl'
    /\ cl_down cl' = (cl_down cly ++ (if y =? c then [MInvocation v] else []))%list.
Proof. exact h_call_reaches. Qed.
(** Whoever gets an INVOCATION for such a procedure holds it. *)
Theorem C105_invoked_holds_partial : forall honest es o x clx call rest c g v cl' clc m,
  N.of_nat (length es) < two53 -> decently honest empty_net es ->
  let n := hrun empty_net es in
  n_crashed n = [] -> n_clients n !! x = Some clx -> cl_up clx = MCall call :: rest ->
  n_clients n !! c = Some clc -> n_clients (hstep n (HNet (NRoute o x))) !! c = Some cl' ->
  cl_down cl' = (cl_down clc ++ [MInvocation v])%list -> in_registration v = g ->
  registered_under (dtr n) g m -> never_shared (dtr n) (rg_procedure m) ->
  owns (dtr n) c (rg_procedure m) g.
Proof. exact h_invoked. Qed.
(** 3 has tried to share and to give up "p", and to answer for its holder. *)
Example C105_ex : let n := hrun empty_net run_hostile in
  decently (fun c => c ∈ [1; 2]) empty_net run_hostile /\ n_crashed n = [] /\ never_shared (dtr n) "p"
  /\ cl_up <$> n_clients n !! 2 = Some [MCall (acall 4 "p" [])] /\ owns (dtr n) 1 "p" 1
  /\ registered_under (dtr n) 1 (Register 1 (Some []) "p")
  /\ cl_down <$> n_clients n !! 1 = Some []
  /\ cl_down <$> n_clients (hstep n (HNet (NRoute e0 2))) !! 1
     = Some [MInvocation (Invocation 6 1 (Some []) (Some [VStr "hi"]) None no_bin)].
Proof.
  split; [apply decentlyb_sound; by vm_compute|]. split; [by vm_compute|].
  split; [apply never_sharedb_sound; by vm_compute|]. split; [by vm_compute|]. split.
  { match goal with |- owns ?t _ _ _ => let t' := eval vm_compute in t in change (owns t' 1 "p" 1) end. own. }
  split; [|split; by vm_compute].
  exists 1, (Registered 1 1), 1. split; [|done]. apply elem_of_list_In.
  match goal with |- In _ ?t => let t' := eval vm_compute in t in change t with t' end. cbn. tauto.
Qed.

(** ** C106: hostile clients cannot keep events from subscribers *)
Theorem C106_event_reaches : forall honest es o c cl p rest y g, N.of_nat (length es) < two53 -> decently honest empty_net es ->
  let n := hrun empty_net es in
  n_crashed n = [] -> n_clients n !! c = Some cl -> cl_up cl = MPublish p :: rest -> holds (btr n) y (pu_topic p) g ->
  exists e pid, ev_subscription e = g /\ ev_args e = pu_args p /\ ev_kwargs e = pu_kwargs p /\
  forall x clx, n_clients n !! x = Some clx ->
  exists cl', n_clients (hstep n (HNet (NRoute o c))) !! x = Some cl' /\
    let ack := if (x =? c) && says (pu_options p) "acknowledge"
               then [MPublished (Published (pu_request p) pid)] else [] in
    (holds (btr n) x (pu_topic p) g -> cl_down cl' = (cl_down clx ++ MEvent e :: ack)%list)
    /\ (~ holds (btr n) x (pu_topic p) g -> cl_down cl' = (cl_down clx ++ ack)%list).
Proof. exact h_event_reaches. Qed.
(** 3 subscribes and unsubscribes the topic of 2 behind its session's back, and
    gives up 2's subscription. *)
Example C106_ex : let n := hrun empty_net run_spoil in
  decently (fun c => c ∈ [1; 2]) empty_net run_spoil /\ n_crashed n = []
  /\ (exists p, cl_up <$> n_clients n !! 1 = Some [MPublish p] /\ pu_topic p = "t")
  /\ holds (btr n) 2 "t" 1 /\ ~ holds (btr n) 3 "t" 1
  /\ (exists e, cl_down <$> n_clients (hstep n (HNet (NRoute e0 1))) !! 2 = Some [MEvent e]
        /\ ev_subscription e = 1 /\ ev_args e = Some [VStr "news"]).
Proof.
  split; [apply decentlyb_sound; by vm_compute|]. split; [by vm_compute|].
  split; [eexists; split; [vm_compute; reflexivity|done]|].
  split; [|split; [|eexists; split; [vm_compute; reflexivity|done]]].
  all: match goal with |- context [btr ?n] => let t := eval vm_compute in (btr n) in change (btr n) with t end.
  - cbn. right. split; [|tauto]. right. split; [|tauto]. right. split; [|intros [? _]; discriminate].
    right. split; [|tauto]. left. done.
  - cbn. intros H. repeat match type of H with _ \/ _ => destruct H as [H|[H ?]] end; try done; naive_solver.
Qed.

(** * Assumptions *)
Print Assumptions C104_accepted.
Print Assumptions C104_agreement.
Print Assumptions C104_accounted.
Print Assumptions C104_one_invocation.
Print Assumptions C104_answered_once.
Print Assumptions C105_taken_over_refuted.
Print Assumptions C105_call_reaches_partial.
Print Assumptions C105_invoked_holds_partial.
Print Assumptions C106_event_reaches.
