(** Proofs of the dealer properties in the form used in PropsDealer.v. *)
From Verif Require Import Prelude Value Msg IdGen Types PathMatch Dealer DealerSpec.
From Verif Require Import BaseSpec BaseFacts TypesFacts DealerFacts DealerCalls DealerCases DealerRegs.
From Verif Require Import DealerSim DealerStep DealerProofs DealerPolite DealerShare.

(** ** C37 *)
Lemma result_origin h o sid y d0 d outs m to : N.of_nat (length h) <= two53 ->
  drun new_dealer h = Ret d0 outs -> dstep o d0 (DReceive sid (MYield y)) = Ret d (DMsg m to) ->
  exists c out s, (DReceive to (MCall c), out) ∈ dtrace_of h outs
    /\ match out with DMsg (MInvocation v) _ => in_request v = yi_request y | DErr _ => True | _ => False end
    /\ present_as (dtrace_of h outs) to s
    /\ m = MResult (result_for y (ca_request c)
                     (says (ca_options c) "receive_progress" && says (yi_options y) "progress") s).
Proof.
  intros Hb H Hs.
  destruct (yield_answer h o sid y d0 d outs _ Hb H Hs) as
    [(_ & (e & ?) & _)|(c & r & rp & Ho & [(_ & e & ?)|(s & Hp & E)])]; try done.
  injection E as -> ->. destruct (open_called _ _ _ _ _ Ho) as (m & out & Hin & <- & <- & Hout).
  exists m, out, s. done.
Qed.
Lemma error_origin h o sid x d0 d outs m to : N.of_nat (length h) <= two53 ->
  drun new_dealer h = Ret d0 outs -> dstep o d0 (DReceive sid (MError x)) = Ret d (DMsg m to) ->
  exists c out, (DReceive to (MCall c), out) ∈ dtrace_of h outs
    /\ match out with DMsg (MInvocation v) _ => in_request v = er_request x | DErr _ => True | _ => False end
    /\ er_type x = 68
    /\ m = MError (Error 48 (ca_request c) (or_empty (er_details x)) (er_uri x) (er_args x) (er_kwargs x)).
Proof.
  intros Hb H Hs.
  destruct (error_answer h o sid x d0 d outs _ Hb H Hs) as [(_ & (e & ?) & _)|(c & r & rp & T & Ho & E)]; [done|].
  injection E as -> ->. destruct (open_called _ _ _ _ _ Ho) as (m & out & Hin & <- & _ & Hout).
  by exists m, out.
Qed.

(** ** C38 *)
Lemma one_last_word h1 o sid m m' to h2 o2 sid2 m2 out2 i d1 outs1 d2 d3 outs2 d4 :
  N.of_nat (length (h1 ++ (o, DReceive sid m) :: h2)) <= two53 ->
  drun new_dealer h1 = Ret d1 outs1 -> dstep o d1 (DReceive sid m) = Ret d2 (DMsg m' to) ->
  answer_to m i -> last_word m' ->
  drun d2 h2 = Ret d3 outs2 -> answer_to m2 i -> dstep o2 d3 (DReceive sid2 m2) = Ret d4 out2 ->
  (exists e, out2 = DErr e) /\ d4 = d3.
Proof.
  intros Hb H1 Hs Ha Hw H2 Ha2 Hs2. rewrite app_length in Hb. cbn [length] in Hb.
  pose proof (answered_over h1 o sid m i d1 d2 outs1 m' to ltac:(lia) H1 Hs Ha Hw) as Hov.
  assert (H12 : drun new_dealer (h1 ++ [(o, DReceive sid m)]) = Ret d2 (outs1 ++ [DMsg m' to])) by (by eapply drun_snoc).
  rewrite <- dtrace_snoc with (o := o) in Hov by (by eapply drun_length).
  assert (Hb2 : N.of_nat (length ((h1 ++ [(o, DReceive sid m)]) ++ h2)) <= two53).
  { rewrite !app_length. cbn [length]. lia. }
  pose proof (over_run h2 _ d2 _ d3 outs2 i Hb2 H12 H2 Hov) as Hov'.
  assert (H3 : drun new_dealer ((h1 ++ [(o, DReceive sid m)]) ++ h2) = Ret d3 ((outs1 ++ [DMsg m' to]) ++ outs2)).
  { by rewrite drun_app, H12, H2. }
  by eapply over_refused.
Qed.

(** ** C39 *)
Lemma result_progress y r b s : says (re_details (result_for y r b s)) "progress" = b.
Proof. unfold result_for, says, mget. cbv zeta. by destruct (_ && se_static s), b. Qed.
Lemma progressive_result h o sid y d0 d outs r to : N.of_nat (length h) < two53 ->
  drun new_dealer h = Ret d0 outs -> dstep o d0 (DReceive sid (MYield y)) = Ret d (DMsg (MResult r) to) ->
  (says (re_details r) "progress" = true ->
     says (yi_options y) "progress" = true
     /\ exists c out, (DReceive to (MCall c), out) ∈ dtrace_of h outs /\ ca_request c = re_request r
          /\ says (ca_options c) "receive_progress" = true
          /\ match out with DMsg (MInvocation v) _ => in_request v = yi_request y | DErr _ => True | _ => False end)
  /\ (says (re_details r) "progress" = true -> forall o2 sid2 y2, yi_request y2 = yi_request y ->
        exists d2 r2, dstep o2 d (DReceive sid2 (MYield y2)) = Ret d2 (DMsg (MResult r2) to)
          /\ re_request r2 = re_request r)
  /\ (says (re_details r) "progress" = false -> forall o2 sid2 y2, yi_request y2 = yi_request y ->
        exists e, dstep o2 d (DReceive sid2 (MYield y2)) = Ret d (DErr e)).
Proof.
  intros Hb H Hs.
  destruct (yield_answer h o sid y d0 d outs _ ltac:(lia) H Hs) as
    [(_ & (e & ?) & _)|(c & rq & rp & Ho & [(_ & e & ?)|(s & Hp & E)])]; try done.
  injection E as -> ->.
  assert (Hd : says (re_details (result_for y rq (rp && says (yi_options y) "progress") s)) "progress"
                = rp && says (yi_options y) "progress").
  { unfold result_for, says, mget. by destruct (_ && se_static s), (rp && _). }
  assert (Hr : forall y b s, re_request (result_for y rq b s) = rq).
  { intros y' b s'. unfold result_for. cbv zeta. destruct (bp_binary (yi_bin y') && se_static s'); reflexivity. }
  rewrite Hd, Hr. split; [|split].
  - intros [-> Hy]%andb_true_iff. split; [done|].
    destruct (open_called _ _ _ _ _ Ho) as (m & out & Hin & Hm & Hrp & Hout). exists m, out. done.
  - intros [-> Hy]%andb_true_iff o2 sid2 y2 Ey.
    cbn [dstep d_receive_message] in Hs |- *.
    destruct (yield_cases _ _ _ _ Hs) as [(_ & _ & ?)|(p & P & Hd2 & Hc)]; [done|].
    destruct Hc as [[_ ?]|(s' & S1 & E)]; [done|]. injection E as E ->.
    assert (pe_request p = rq) as <-.
    { apply (f_equal re_request) in E. rewrite Hr in E. rewrite E.
      unfold result_for. by destruct (bp_binary (yi_bin y) && se_static s'). }
    assert (Hrp : pe_receive p = true).
    { apply (f_equal (fun z => says (re_details z) "progress")) in E. cbv beta in E. cbn [andb] in Hd, E. rewrite Hd, Hy in E.
      unfold result_for, says, mget in E. by destruct (bp_binary (yi_bin y) && se_static s'), (pe_receive p). }
    rewrite Hrp, Hy in Hd2. cbn in Hd2. subst d.
    unfold d_yield. rewrite Ey, P.
    destruct (pe_receive p && bool_opt (yi_options y2) o_progress);
      (cbn [d_sessions dset_pending]; rewrite S1);
      destruct (_ && se_static s'); eexists _, _; (split; [done|done]).
  - intros Hf o2 sid2 y2 Ey. cbn [dstep d_receive_message] in Hs |- *.
    destruct (yield_cases _ _ _ _ Hs) as [(_ & _ & ?)|(p & P & Hd2 & Hc)]; [done|].
    destruct Hc as [[_ ?]|(s' & S1 & E)]; [done|]. injection E as E ->.
    apply (f_equal (fun z => says (re_details z) "progress")) in E. cbv beta in E. rewrite Hd, Hf in E.
    assert (Hpf : pe_receive p && says (yi_options y) "progress" = false).
    { by rewrite result_progress in E. }
    rewrite Hpf in Hd2. subst d. unfold d_yield. cbn [d_pending dset_pending]. rewrite Ey, lookup_delete. eauto.
Qed.

(** ** C43, C44, C51 *)
Lemma invocation_form h o sid c d0 d outs v callee : N.of_nat (length h) < two53 ->
  drun new_dealer h = Ret d0 outs -> dstep o d0 (DReceive sid (MCall c)) = Ret d (DMsg (MInvocation v) callee) ->
  let tr := dtrace_of h outs in
  exists s who, present_as tr callee s
    /\ (if disclosing_caller tr then exists w, who = Some w /\ present_as tr sid w else who = None)
    /\ v = invocation_for c (in_request v) (in_registration v) (invocation_details c sid who) s.
Proof.
  intros Hb H Hs tr.
  destruct (call_answer h o sid c d0 d outs _ Hb H Hs) as [[E _]|[[e E]|(i & g & cl & s & who & E & Hp & Hw & Hi)]]; try done.
  injection E as -> ->. exists s, who. split; [done|]. split; [done|].
  unfold invocation_for. by destruct (_ && _).
Qed.
Lemma invocation_id h o sid c d0 d outs v callee : N.of_nat (length h) < two53 ->
  drun new_dealer h = Ret d0 outs -> dstep o d0 (DReceive sid (MCall c)) = Ret d (DMsg (MInvocation v) callee) ->
  let tr := dtrace_of h outs in
  if continues tr sid c then invocation_of tr sid (ca_request c) = Some (in_request v)
  else in_request v = used tr + 1.
Proof.
  intros Hb H Hs tr.
  destruct (call_answer h o sid c d0 d outs _ Hb H Hs) as [[E _]|[[e E]|(i & g & cl & s & who & E & Hp & Hw & Hi)]]; try done.
  injection E as -> ->.
  assert (Hj : in_request (invocation_for c i g (invocation_details c sid who) s) = i).
  { unfold invocation_for. by destruct (_ && _). }
  rewrite Hj. fold tr in Hi. done.
Qed.
Lemma fresh_invocation h o sid c d0 d outs v callee : N.of_nat (length h) < two53 ->
  drun new_dealer h = Ret d0 outs -> dstep o d0 (DReceive sid (MCall c)) = Ret d (DMsg (MInvocation v) callee) ->
  says (ca_options c) "progress" = false ->
  (forall op v' to, (op, DMsg (MInvocation v') to) ∈ dtrace_of h outs -> in_request v' < in_request v)
  /\ (forall op a to, (op, DMsg (MRegistered a) to) ∈ dtrace_of h outs -> rd_registration a < in_request v).
Proof.
  intros Hb H Hs Hp. pose proof (invocation_id h o sid c d0 d outs v callee Hb H Hs) as Hi. cbv zeta in Hi.
  unfold continues in Hi. rewrite Hp in Hi. cbn [andb] in Hi. rewrite Hi.
  split; intros op x to Hin; apply used_bound in Hin; lia.
Qed.
(** The same id goes to all chunks of a progressive call. *)
Lemma same_invocation h o sid c d0 d outs v callee op2 v1 c1 to1 tr1 tr2 : N.of_nat (length h) < two53 ->
  drun new_dealer h = Ret d0 outs -> dstep o d0 (DReceive sid (MCall c)) = Ret d (DMsg (MInvocation v) callee) ->
  says (ca_options c) "progress" = true ->
  op2 = DReceive sid (MCall c1) -> ca_request c1 = ca_request c ->
  dtrace_of h outs = tr2 ++ (op2, DMsg (MInvocation v1) to1) :: tr1 ->
  (forall c2 out, (DReceive sid (MCall c2), out) ∈ tr2 -> ca_request c2 <> ca_request c) ->
  in_request v = in_request v1.
Proof.
  intros Hb H Hs Hp -> Hc E Hno. pose proof (invocation_id h o sid c d0 d outs v callee Hb H Hs) as Hi. cbv zeta in Hi.
  assert (Hcalled : forall tr2, called (tr2 ++ (DReceive sid (MCall c1), DMsg (MInvocation v1) to1) :: tr1) sid (ca_request c) = true).
  { induction tr0 as [|[op out] tr0 IH].
    - cbn. by rewrite Hc, !N.eqb_refl.
    - cbn [app called]. destruct op as [| | | |s m]; try done. destruct m; try done.
      destruct out as [| | |m' ?]; try done; [by rewrite IH, orb_true_r|].
      destruct m'; try done. by rewrite IH, orb_true_r. }
  unfold continues in Hi. rewrite Hp, E, Hcalled in Hi. cbn [andb] in Hi.
  assert (Hinv : invocation_of (tr2 ++ (DReceive sid (MCall c1), DMsg (MInvocation v1) to1) :: tr1) sid (ca_request c)
            = Some (in_request v1)).
  { clear -Hno Hc. induction tr2 as [|[op out] tr2 IH].
    - cbn. by rewrite Hc, !N.eqb_refl.
    - assert (IH' := IH (fun c2 out0 Hin => Hno c2 out0 (elem_of_list_further _ _ _ Hin))). clear IH.
      cbn [app invocation_of]. destruct op as [| | | |s m]; try done.
      destruct m as [m|m|m|m|m|m|m|m|m|m|m|m|m|m|m|m|m|m|m|m|m|m|m|m]; try done.
      assert (Hf : (s =? sid) && (ca_request m =? ca_request c) = false).
      { destruct (N.eqb_spec s sid) as [->|]; [|done]. cbn. apply N.eqb_neq. eapply Hno. by left. }
      destruct out as [| | |m' ?]; try done; [by rewrite Hf|]. destruct m'; try done. by rewrite Hf. }
  congruence.
Qed.

(** ** C48 *)
Lemma others_never_panic h o op d0 outs : drun new_dealer h = Ret d0 outs ->
  match op with
  | DRemove _ | DReceive _ (MCall _) | DReceive _ (MUnregister _) => False
  | _ => True
  end -> exists d out, dstep o d0 op = Ret d out.
Proof.
  intros H Hop. pose proof (run_ginv _ _ _ H) as G.
  destruct op as [s|id|p|x|sid m]; cbn [dstep]; try done.
  - unfold d_add_session. destruct (d_sessions d0 !! se_id s); eauto.
  - unfold d_has_procedure. destruct (d_by_proc d0 !! p) as [l|] eqn:E; [|eauto].
    destruct (gi_proc _ _ G _ _ E) as (g & -> & _). eauto.
  - unfold d_auto_disclose. eauto.
  - destruct m; try done; cbn [d_receive_message]; eauto.
    + unfold d_error. destruct (negb _); [eauto|]. destruct (d_pending d0 !! _); eauto.
    + unfold d_register. destruct (d_by_session d0 !! sid); [|eauto].
      destruct (d_by_proc d0 !! rg_procedure m) as [l|] eqn:E; [|eauto].
      destruct (gi_proc _ _ G _ _ E) as (g' & -> & _). destruct (_ || _); eauto.
    + unfold d_yield. destruct (d_pending d0 !! _) as [p|]; [|eauto].
      destruct (d_sessions _ !! _); eauto.
Qed.
