(** Proofs of the dealer properties that hold in every history. *)
From Verif Require Import Prelude Value Msg IdGen Types PathMatch Dealer DealerSpec.
From Verif Require Import BaseSpec BaseFacts TypesFacts DealerFacts DealerCalls DealerCases DealerRegs.

Lemma last_step h o op d outs out : drun new_dealer (h ++ [(o, op)]) = Ret d (outs ++ [out]) ->
  exists d0, drun new_dealer h = Ret d0 outs /\ dstep o d0 op = Ret d out.
Proof.
  intros H. destruct (drun_snoc_inv _ _ _ _ _ _ H) as (d1 & o1 & out1 & H1 & H2 & E).
  apply app_inj_tail in E as [-> ->]. eauto.
Qed.
Lemma trace_elem e (tr : dtrace) : e ∈ tr -> exists a b, tr = a ++ e :: b.
Proof. apply elem_of_list_split. Qed.

(** ** Sessions, without a bound on the history *)

Record sinv (tr : dtrace) (d : dealer) : Prop := SInv {
  si_sess : forall sid s, d_sessions d !! sid = Some s <-> present_as tr sid s;
  si_dom : forall sid, is_Some (d_by_session d !! sid) <-> is_Some (d_sessions d !! sid);
  si_details : d_details d = disclosing_caller tr }.

Lemma sinv_keep tr d d' e : sinv tr d -> d_sessions d' = d_sessions d ->
  (forall sid, is_Some (d_by_session d' !! sid) <-> is_Some (d_by_session d !! sid)) ->
  d_details d' = d_details d ->
  (forall sid s, present_as (e :: tr) sid s <-> present_as tr sid s) ->
  disclosing_caller (e :: tr) = disclosing_caller tr -> sinv (e :: tr) d'.
Proof.
  intros S E1 E2 E3 E4 E5. constructor.
  - intros sid s. rewrite E1, E4. apply S.
  - intros sid. rewrite E1, E2. apply S.
  - rewrite E3, E5. apply S.
Qed.

Lemma sinv_step tr d o op d' out : sinv tr d -> dstep o d op = Ret d' out -> sinv ((op, out) :: tr) d'.
Proof.
  intros S. destruct op as [s|id|p|x|sid m]; cbn [dstep].
  - unfold d_add_session. destruct (d_sessions d !! se_id s) as [y|] eqn:E; intros H; injection H as <- <-.
    { by eapply sinv_keep. }
    constructor; cbn [d_sessions d_by_session d_details dset_sessions dset_by_session present_as disclosing_caller].
    + intros sid z. destruct (decide (se_id s = sid)) as [<-|n].
      * rewrite lookup_insert. split; [intros H; injection H as ->; by left|].
        intros [[_ ->]|[? _]]; done.
      * rewrite lookup_insert_ne by done. rewrite (si_sess _ _ S). split; [by right|].
        intros [[? _]|[_ ?]]; done.
    + intros sid. destruct (decide (se_id s = sid)) as [<-|n].
      * rewrite !lookup_insert. split; by eexists.
      * rewrite !lookup_insert_ne by done. apply S.
    + apply S.
  - unfold d_remove_session. destruct (d_sessions d !! id) as [y|] eqn:E.
    2:{ intros H; injection H as <- <-. by eapply sinv_keep. }
    destruct (d_remove_loop id d _) as [d1 u|w] eqn:L; [|discriminate].
    intros H; injection H as <- <-.
    assert (K : d_sessions d1 = d_sessions d /\ d_by_session d1 = d_by_session d /\ d_details d1 = d_details d).
    { clear -L. revert L. generalize (map snd (shuf (o_first o) (map_to_list (default ∅ (d_by_session d !! id))))).
      intros ls. revert d. induction ls as [|l ls IH]; intros d; cbn [d_remove_loop].
      { intros H; injection H as <- _. done. }
      destruct (d_remove_body id d l) as [d2 u2|w] eqn:B; [|discriminate].
      intros H. destruct (IH _ H) as (-> & -> & ->). clear -B.
      destruct (d_heap d !! l) as [reg|] eqn:Hl; [|unfold d_remove_body in B; by rewrite Hl in B].
      rewrite (remove_body_eq _ _ _ _ Hl) in B.
      destruct (d_by_proc d !! g_proc reg) as [l'|]; [|by injection B as <- _].
      destruct (d_heap d !! l') as [g|]; [|discriminate].
      destruct (drop_callee id (g_callees g)); [|discriminate]. by injection B as <- _. }
    destruct K as (K1 & K2 & K3).
    constructor; cbn [d_sessions d_by_session d_details dset_sessions dset_by_session present_as disclosing_caller].
    + intros sid z. rewrite K1. destruct (decide (id = sid)) as [<-|n].
      * rewrite lookup_delete. split; [done|by intros [? _]].
      * rewrite lookup_delete_ne by done. rewrite (si_sess _ _ S). tauto.
    + intros sid. rewrite K1, K2. destruct (decide (id = sid)) as [<-|n].
      * rewrite !lookup_delete. split; intros [? ?]; discriminate.
      * rewrite !lookup_delete_ne by done. apply S.
    + rewrite K3. apply S.
  - unfold d_has_procedure. destruct (d_by_proc d !! p) as [l|].
    + destruct (d_heap d !! l); [|discriminate]. intros H; injection H as <- <-. by eapply sinv_keep.
    + intros H; injection H as <- <-. by eapply sinv_keep.
  - unfold d_auto_disclose. intros H; injection H as <- <-. constructor; try apply S. done.
  - destruct m; cbn [d_receive_message];
      try (intros H; injection H as <- <-; by eapply sinv_keep).
    + intros H. destruct (error_cases _ _ _ _ H) as
        [(_ & -> & _)|[(_ & _ & -> & _)|(p & _ & _ & -> & _)]]; by eapply sinv_keep.
    + intros H. destruct (call_cases _ _ _ _ _ _ H) as
        [(-> & _)|(l & g & callee & nx & i & who & F & L & E & P & A & _)]; [by eapply sinv_keep|].
      destruct (allocate_cases _ _ _ _ _ _ A) as [(-> & _)|(-> & _)]; by eapply sinv_keep.
    + intros H. destruct (register_cases _ _ _ _ _ H) as
        [(_ & -> & _)|(mine & M & [(l & g & P & L & _ & -> & _)|[(l & g & P & L & I1 & I2 & I3 & -> & ->)|(P & -> & ->)]])];
        try (by eapply sinv_keep).
      * eapply sinv_keep; try done. intros x. cbn [join_d d_by_session].
        destruct (decide (sid = x)) as [<-|n]; [rewrite lookup_insert, M; split; by eexists|by rewrite lookup_insert_ne].
      * eapply sinv_keep; try done. intros x. cbn [create_d d_by_session].
        destruct (decide (sid = x)) as [<-|n]; [rewrite lookup_insert, M; split; by eexists|by rewrite lookup_insert_ne].
    + intros H. destruct (unregister_cases _ _ _ _ _ H) as [(_ & -> & _)|(mine & l & g & M & L1 & L2 & -> & _)];
        [by eapply sinv_keep|].
      unfold unreg_d. destruct (decide (delete sid (g_regs g) = ∅)); [|by eapply sinv_keep].
      eapply sinv_keep; try done. intros x. cbn [d_by_session].
      destruct (decide (sid = x)) as [<-|n]; [rewrite lookup_insert, M; split; by eexists|by rewrite lookup_insert_ne].
    + intros H. destruct (yield_cases _ _ _ _ H) as [(_ & -> & _)|(p & _ & -> & _)]; [by eapply sinv_keep|].
      destruct (_ && _); by eapply sinv_keep.
Qed.

Lemma run_sinv h d outs : drun new_dealer h = Ret d outs -> sinv (dtrace_of h outs) d.
Proof.
  revert d outs. induction h as [|[o op] h IH] using rev_ind; intros d outs H.
  { injection H as <- <-. constructor; [|intros sid|done]; cbn.
    - intros sid s. rewrite lookup_empty. split; done.
    - rewrite !lookup_empty. split; intros [? ?]; discriminate. }
  destruct (drun_snoc_inv _ _ _ _ _ _ H) as (d1 & o1 & out & H1 & H2 & ->).
  rewrite dtrace_snoc by (by eapply drun_length). eapply sinv_step; [by apply IH|done].
Qed.
Lemma sinv_present tr d sid : sinv tr d -> is_Some (d_sessions d !! sid) <-> present tr sid.
Proof.
  intros S. rewrite present_as_present. split.
  - intros [s Hs]. exists s. by apply S.
  - intros [s Hs]. exists s. by apply S.
Qed.

(** ** C35 *)

Lemma add_answer h o s d0 d outs out : drun new_dealer h = Ret d0 outs ->
  dstep o d0 (DAdd s) = Ret d out ->
  (present (dtrace_of h outs) (se_id s) /\ (exists e, out = DErr e) /\ d = d0)
  \/ (~ present (dtrace_of h outs) (se_id s) /\ out = DOk).
Proof.
  intros H. apply run_sinv in H. rewrite <- (sinv_present _ _ _ H). cbn [dstep]. unfold d_add_session.
  destruct (d_sessions d0 !! se_id s) as [y|]; intros HH; injection HH as <- <-.
  - left. split; [by eexists|]. split; [by eexists|done].
  - right. split; [by intros [? ?]|done].
Qed.
Lemma remove_answer h o id d0 d outs out : drun new_dealer h = Ret d0 outs ->
  dstep o d0 (DRemove id) = Ret d out ->
  (~ present (dtrace_of h outs) id /\ (exists e, out = DErr e) /\ d = d0)
  \/ (present (dtrace_of h outs) id /\ out = DOk).
Proof.
  intros H. apply run_sinv in H. rewrite <- (sinv_present _ _ _ H). cbn [dstep]. unfold d_remove_session.
  destruct (d_sessions d0 !! id) as [y|].
  - destruct (d_remove_loop _ _ _) as [d1 u|w]; intros HH; [|discriminate].
    injection HH as <- <-. right. split; [by eexists|done].
  - intros HH; injection HH as <- <-. left. split; [by intros [? ?]|]. split; [by eexists|done].
Qed.

(** ** Case analyses on histories *)

Lemma open_trace h d outs : N.of_nat (length h) <= two53 -> drun new_dealer h = Ret d outs ->
  cinv (dtrace_of h outs) d.
Proof. intros Hb H. by apply (run_cinv h d outs Hb H). Qed.

(** An open invocation was opened by a CALL. *)
Lemma open_opened tr i c r rp : open_inv tr i c r rp ->
  exists e a b, tr = a ++ e :: b /\ opens e b i c r rp.
Proof.
  induction tr as [|e tr IH]; [done|]. cbn [open_inv]. intros [H|[H _]].
  - exists e, [], tr. done.
  - destruct (IH H) as (e' & a & b & -> & H'). exists e', (e :: a), b. done.
Qed.
Lemma open_called tr i c r rp : open_inv tr i c r rp ->
  exists m out, (DReceive c (MCall m), out) ∈ tr /\ ca_request m = r
    /\ says (ca_options m) "receive_progress" = rp
    /\ match out with DMsg (MInvocation v) _ => in_request v = i | DErr _ => True | _ => False end.
Proof.
  intros H. destruct (open_opened _ _ _ _ _ H) as ([op out] & a & b & -> & Ho).
  destruct op as [s|x|p|x|sid m]; try done. destruct m as [m|m|m|m|m|m|m|m|m|m|m|m|m|m|m|m|m|m|m|m|m|m|m|m]; try done.
  exists m, out. destruct out as [e| |y|m' to]; try done.
  - cbn in Ho. destruct Ho as (-> & ? & ? & _). split; [|done]. apply elem_of_app. right. by left.
  - destruct m' as [m'|m'|m'|m'|m'|m'|m'|m'|m'|m'|m'|m'|m'|m'|m'|m'|m'|m'|m'|m'|m'|m'|m'|m']; try done.
    cbn in Ho. destruct Ho as (-> & ? & ? & _ & ?). split; [|done]. apply elem_of_app. right. by left.
Qed.
Lemma open_unique h d outs i c r rp c' r' rp' : N.of_nat (length h) <= two53 ->
  drun new_dealer h = Ret d outs ->
  open_inv (dtrace_of h outs) i c r rp -> open_inv (dtrace_of h outs) i c' r' rp' -> c = c' /\ r = r' /\ rp = rp'.
Proof.
  intros Hb H H1 H2. pose proof (open_trace _ _ _ Hb H) as C.
  apply (ci_open _ _ C) in H1 as (p & P & <- & <- & <-).
  apply (ci_open _ _ C) in H2 as (p' & P' & <- & <- & <-).
  assert (p' = p) as -> by congruence. done.
Qed.

(** What a YIELD is answered with. *)
Lemma yield_answer h o sid y d0 d outs out : N.of_nat (length h) <= two53 ->
  drun new_dealer h = Ret d0 outs -> dstep o d0 (DReceive sid (MYield y)) = Ret d out ->
  let tr := dtrace_of h outs in
  ((forall c r rp, ~ open_inv tr (yi_request y) c r rp) /\ (exists e, out = DErr e) /\ d = d0)
  \/ exists c r rp, open_inv tr (yi_request y) c r rp /\
       ((~ present tr c /\ exists e, out = DErr e)
        \/ exists s, present_as tr c s
             /\ out = DMsg (MResult (result_for y r (rp && says (yi_options y) "progress") s)) c).
Proof.
  intros Hb H Hs tr. pose proof (open_trace _ _ _ Hb H) as C. fold tr in C.
  pose proof (run_sinv _ _ _ H) as S. fold tr in S.
  destruct (yield_cases _ _ _ _ Hs) as [(P & -> & ->)|(p & P & -> & Hc)].
  - left. split; [|split; [by eexists|done]]. intros c r rp Ho. apply (ci_open _ _ C) in Ho as (p & P' & _). congruence.
  - right. exists (pe_caller p), (pe_request p), (pe_receive p). split; [apply (ci_open _ _ C); by exists p|].
    destruct Hc as [[E ->]|(s & E & ->)].
    + left. split; [|by eexists]. rewrite <- (sinv_present _ _ _ S), E. by intros [? ?].
    + right. exists s. split; [by apply S|done].
Qed.

(** What an ERROR is answered with. *)
Lemma error_answer h o sid x d0 d outs out : N.of_nat (length h) <= two53 ->
  drun new_dealer h = Ret d0 outs -> dstep o d0 (DReceive sid (MError x)) = Ret d out ->
  let tr := dtrace_of h outs in
  ((er_type x <> 68 \/ forall c r rp, ~ open_inv tr (er_request x) c r rp)
    /\ (exists e, out = DErr e) /\ d = d0)
  \/ exists c r rp, er_type x = 68 /\ open_inv tr (er_request x) c r rp
       /\ out = DMsg (MError (Error 48 r (or_empty (er_details x)) (er_uri x) (er_args x) (er_kwargs x))) c.
Proof.
  intros Hb H Hs tr. pose proof (open_trace _ _ _ Hb H) as C. fold tr in C.
  destruct (error_cases _ _ _ _ Hs) as [(T & -> & He)|[(T & P & -> & He)|(p & T & P & -> & ->)]].
  - left. split; [by left|]. done.
  - left. split; [right|done]. intros c r rp Ho. apply (ci_open _ _ C) in Ho as (p & P' & _). congruence.
  - right. exists (pe_caller p), (pe_request p), (pe_receive p). split; [done|].
    split; [apply (ci_open _ _ C); by exists p|done].
Qed.

(** What a CALL is answered with. *)
Lemma call_answer h o sid c d0 d outs out : N.of_nat (length h) < two53 ->
  drun new_dealer h = Ret d0 outs -> dstep o d0 (DReceive sid (MCall c)) = Ret d out ->
  let tr := dtrace_of h outs in
  (out = DMsg (refusal 48 (ca_request c) "wamp.error.no_such_procedure") sid /\ d = d0)
  \/ (exists e, out = DErr e)
  \/ exists i g callee s who,
       out = DMsg (MInvocation (invocation_for c i g (invocation_details c sid who) s)) callee
       /\ present_as tr callee s
       /\ (if disclosing_caller tr then exists w, who = Some w /\ present_as tr sid w else who = None)
       /\ (if continues tr sid c then invocation_of tr sid (ca_request c) = Some i else i = used tr + 1).
Proof.
  intros Hb H Hs tr. pose proof (open_trace h d0 outs ltac:(lia) H) as C. fold tr in C.
  destruct (call_cases _ _ _ _ _ _ Hs) as
    [(-> & -> & _)|(l & g & callee & nx & i & who & F & L & E & P & A & W & [(S1 & ->)|(s & S1 & ->)])].
  - by left.
  - right; left. by eexists.
  - right; right. exists i, (g_id g), callee, s, who. split; [done|].
    split; [by apply (ci_sess _ _ C)|]. split.
    + rewrite <- (ci_details _ _ C). destruct (d_details d0); [|done].
      destruct W as [-> [w Hw]]. rewrite Hw. exists w. split; [done|]. by apply (ci_sess _ _ C).
    + assert (Hn : next_id (d_idgen d0) = used tr + 1).
      { rewrite <- (ci_ids _ _ C). apply next_id_small. rewrite (ci_ids _ _ C).
        pose proof (ci_len _ _ C) as Hlen. unfold tr in Hlen |- *.
        destruct (run_cinv h d0 outs ltac:(lia) H) as [_ Hl]. rewrite Hl in Hlen. lia. }
      unfold continues.
      assert (Hcall : called tr sid (ca_request c) = true <-> is_Some (d_inv d0 !! (sid, ca_request c))).
      { rewrite called_invocation, (ci_inv _ _ C). done. }
      destruct (allocate_cases _ _ _ _ _ _ A) as [(_ & Hi & Hp)|(_ & -> & Hor)].
      * cbn [with_next d_inv dset_heap] in Hi. rewrite Hp. rewrite (proj2 Hcall) by (rewrite Hi; by eexists).
        cbn. by rewrite <- (ci_inv _ _ C).
      * cbn [with_next d_inv dset_heap d_idgen] in Hor |- *. rewrite Hn.
        destruct (says (ca_options c) "progress" && called tr sid (ca_request c)) eqn:Ec; [|done].
        apply andb_prop in Ec as [Ec1 Ec2]. apply Hcall in Ec2. destruct Hor as [HH|HH]; [|congruence].
        rewrite HH in Ec2. by destruct Ec2.
Qed.

(** ** C38 *)

Lemma used_mono tr d op out : cinv ((op, out) :: tr) d -> used tr <= used ((op, out) :: tr).
Proof.
  intros _. destruct op as [s|id|p|x|sid m], out as [e| |b|m' to]; cbn [used]; try lia;
    try (destruct m; cbn [used]; try lia; destruct (continues _ _ _); lia);
    try (destruct m'; cbn [used]; lia).
  all: destruct m, m'; cbn [used]; lia.
Qed.

(** Invocation [i] was handed out and is not open: it stays so. *)
Definition over (tr : dtrace) (i : N) : Prop :=
  i <= used tr /\ forall c r rp, ~ open_inv tr i c r rp.

Lemma over_step h o op d0 d outs out i : N.of_nat (length h) < two53 ->
  drun new_dealer h = Ret d0 outs -> dstep o d0 op = Ret d out ->
  over (dtrace_of h outs) i -> over ((op, out) :: dtrace_of h outs) i.
Proof.
  intros Hb H Hs [H1 H2]. pose proof (open_trace h d0 outs ltac:(lia) H) as C.
  pose proof (run_cinv h d0 outs ltac:(lia) H) as [_ Hl].
  assert (C' : cinv ((op, out) :: dtrace_of h outs) d).
  { eapply cinv_step; [done|rewrite Hl; lia|done]. }
  pose proof (used_mono _ _ _ _ C') as Hu. split; [lia|].
  intros c r rp. cbn [open_inv]. intros [Ho|[Ho _]]; [|by eapply H2].
  destruct op as [s|id|p|x|sid m]; try done. destruct m as [m|m|m|m|m|m|m|m|m|m|m|m|m|m|m|m|m|m|m|m|m|m|m|m]; try done.
  destruct (call_answer _ _ _ _ _ _ _ _ Hb H Hs) as [[-> _]|[[e ->]|(j & g & callee & s & who & -> & _ & _ & Hi)]].
  - done.
  - cbn in Ho. destruct Ho as (_ & _ & _ & _ & Ho). lia.
  - cbn in Ho. destruct Ho as (-> & _ & _ & Hc & Ho). rewrite Hc in Hi.
    assert (Hj : in_request (invocation_for m j g (invocation_details m c who) s) = j).
    { unfold invocation_for. by destruct (_ && _). }
    lia.
Qed.

Lemma over_run : forall h2 h1 d1 outs1 d outs2 i,
  N.of_nat (length (h1 ++ h2)) <= two53 ->
  drun new_dealer h1 = Ret d1 outs1 -> drun d1 h2 = Ret d outs2 ->
  over (dtrace_of h1 outs1) i -> over (dtrace_of (h1 ++ h2) (outs1 ++ outs2)) i.
Proof.
  induction h2 as [|[o op] h2 IH]; intros h1 d1 outs1 d outs2 i Hb H1 H2 Hov; cbn [drun] in H2.
  { injection H2 as <- <-. by rewrite !app_nil_r. }
  destruct (dstep o d1 op) as [d' r|w] eqn:Hs; [|discriminate].
  destruct (drun d' h2) as [d2 rs|w] eqn:H3; [|discriminate]. injection H2 as <- <-.
  rewrite app_length in Hb. cbn [length] in Hb.
  pose proof (drun_length _ _ _ _ H1) as Hl.
  replace (h1 ++ (o, op) :: h2) with ((h1 ++ [(o, op)]) ++ h2) by (by rewrite <- app_assoc).
  replace (outs1 ++ r :: rs) with ((outs1 ++ [r]) ++ rs) by (by rewrite <- app_assoc).
  apply (IH (h1 ++ [(o, op)]) d' (outs1 ++ [r]) d2).
  - rewrite !app_length. cbn [length]. lia.
  - by eapply drun_snoc.
  - done.
  - rewrite dtrace_snoc by done. by apply (over_step h1 o op d1 d' outs1 r i ltac:(lia)).
Qed.

(** Once the last word on an invocation was given. *)
Lemma answered_over h o sid m i d0 d outs m' to : N.of_nat (length h) < two53 ->
  drun new_dealer h = Ret d0 outs -> dstep o d0 (DReceive sid m) = Ret d (DMsg m' to) ->
  answer_to m i -> last_word m' ->
  over ((DReceive sid m, DMsg m' to) :: dtrace_of h outs) i.
Proof.
  intros Hb H Hs Ha Hw. pose proof (open_trace h d0 outs ltac:(lia) H) as C.
  pose proof (run_cinv h d0 outs ltac:(lia) H) as [_ Hl].
  assert (C' : cinv ((DReceive sid m, DMsg m' to) :: dtrace_of h outs) d).
  { eapply cinv_step; [done|rewrite Hl; lia|done]. }
  pose proof (used_mono _ _ _ _ C') as Hu.
  destruct m as [m|m|m|m|m|m|m|m|m|m|m|m|m|m|m|m|m|m|m|m|m|m|m|m]; try done; cbn in Ha.
  - destruct Ha as [Ha Ht].
    destruct (error_answer h o sid m d0 d outs _ ltac:(lia) H Hs) as [(_ & (e & ?) & _)|(c & r & rp & T & Ho & E)]; [done|].
    assert (Hi : i <= used (dtrace_of h outs)).
    { apply (ci_open _ _ C) in Ho as (p & P & _). apply (ci_bound _ _ C) in P.
      rewrite (ci_ids _ _ C) in P. by rewrite Ha in P. }
    split; [lia|]. intros c' r' rp'. cbn [open_inv]. intros [[]|[_ Hc]]. apply Hc. cbn. done.
  - subst i.
    destruct (yield_answer h o sid m d0 d outs _ ltac:(lia) H Hs) as
      [(_ & (e & ?) & _)|(c & r & rp & Ho & [(_ & e & ?)|(s & _ & E)])]; try done.
    assert (Hi : yi_request m <= used (dtrace_of h outs)).
    { apply (ci_open _ _ C) in Ho as (p & P & _). apply (ci_bound _ _ C) in P.
      by rewrite (ci_ids _ _ C) in P. }
    split; [lia|]. intros c' r' rp'. cbn [open_inv]. intros [[]|[Ho' Hc]]. apply Hc. cbn.
    split; [done|].
    destruct (open_unique h d0 outs _ _ _ _ _ _ _ ltac:(lia) H Ho Ho') as (<- & <- & <-).
    injection E as -> ->. cbn in Hw. unfold result_for in Hw.
    destruct (rp && says (yi_options m) "progress"); [|done].
    destruct (bp_binary (yi_bin m) && se_static s); cbn in Hw; discriminate Hw.
Qed.

Lemma over_refused h o sid m i d0 d outs out : N.of_nat (length h) <= two53 ->
  drun new_dealer h = Ret d0 outs -> dstep o d0 (DReceive sid m) = Ret d out ->
  answer_to m i -> over (dtrace_of h outs) i -> (exists e, out = DErr e) /\ d = d0.
Proof.
  intros Hb H Hs Ha [_ Hov].
  destruct m as [m|m|m|m|m|m|m|m|m|m|m|m|m|m|m|m|m|m|m|m|m|m|m|m]; try done; cbn in Ha.
  - destruct Ha as [Ha Ht].
    destruct (error_answer _ _ _ _ _ _ _ _ Hb H Hs) as [(_ & ? & ?)|(c & r & rp & T & Ho & E)]; [done|].
    exfalso. rewrite Ha in Ho. by eapply Hov.
  - subst i. destruct (yield_answer _ _ _ _ _ _ _ _ Hb H Hs) as [(_ & ? & ?)|(c & r & rp & Ho & _)]; [done|].
    exfalso. by eapply Hov.
Qed.

Lemma split_run h1 o op h2 d outs1 out outs2 : length outs1 = length h1 ->
  drun new_dealer (h1 ++ (o, op) :: h2) = Ret d (outs1 ++ out :: outs2) ->
  exists d1 d2, drun new_dealer h1 = Ret d1 outs1 /\ dstep o d1 op = Ret d2 out /\ drun d2 h2 = Ret d outs2.
Proof.
  intros Hl H. rewrite drun_app in H. destruct (drun new_dealer h1) as [d1 o1|w] eqn:H1; [|discriminate].
  cbn [drun] in H. destruct (dstep o d1 op) as [d2 r|w] eqn:H2; [|discriminate].
  destruct (drun d2 h2) as [d3 rs|w] eqn:H3; [|discriminate]. injection H as -> E.
  apply drun_length in H1 as Hl1. apply app_inj_1 in E as [-> E]; [|congruence]. injection E as -> ->. eauto.
Qed.

(** ** C43 *)
Lemma used_bound tr op m to : (op, DMsg m to) ∈ tr ->
  match m with MRegistered a => rd_registration a | MInvocation v => in_request v | _ => 0 end <= used tr.
Proof.
  induction tr as [|[op' out'] tr IH]; [by intros ?%elem_of_nil|].
  assert (Hm : used tr <= used ((op', out') :: tr)).
  { destruct op' as [s|id|p|x|sid m'], out' as [e| |b|m'' to']; cbn [used]; try lia;
    try (destruct m'; cbn [used]; try lia; destruct (continues _ _ _); lia);
    try (destruct m''; cbn [used]; lia).
    all: destruct m', m''; cbn [used]; lia. }
  intros [E|H]%elem_of_cons.
  - injection E as <- <-. destruct m; try lia; destruct op as [s|id|p|x|sid m']; cbn [used]; try lia;
      destruct m'; cbn [used]; lia.
  - specialize (IH H). lia.
Qed.

(** ** C40, C41 *)

Lemma call_found h o sid c d0 d outs v callee :
  drun new_dealer h = Ret d0 outs -> dstep o d0 (DReceive sid (MCall c)) = Ret d (DMsg (MInvocation v) callee) ->
  let tr := dtrace_of h outs in
  present tr callee /\ exists p pol, once_registered tr callee p pol (in_registration v)
    /\ reaches tr (in_registration v) p (ca_procedure c).
Proof.
  intros H Hs tr. pose proof (run_sinv _ _ _ H) as S. pose proof (run_ginv _ _ _ H) as G.
  fold tr in S, G.
  destruct (call_cases _ _ _ _ _ _ Hs) as
    [(_ & E & _)|(l & g & cl & nx & i & who & F & L & E & P & A & W & [(S1 & E1)|(s & S1 & E1)])]; try done.
  injection E1 as -> ->. split; [apply (sinv_present _ _ _ S); rewrite S1; by eexists|].
  assert (Hg : in_registration (invocation_for c i (g_id g) (invocation_details c sid who) s) = g_id g).
  { unfold invocation_for. by destruct (_ && _). }
  rewrite Hg. destruct (gi_heap _ _ G _ _ L) as [B1 _ (c' & pol' & B3 & B4)].
  destruct (B1 cl) as [pol Hp]; [by eapply pick_in|].
  exists (g_proc g), pol. split; [done|].
  destruct (find_covers _ _ _ _ _ _ G F L) as [Hf|[[Hf1 Hf2]|[Hf1 Hf2]]].
  - by left.
  - right. exists c', pol'. split; [done|]. rewrite B3 in Hf1. apply pol_name_inj in Hf1 as ->. done.
  - right. exists c', pol'. split; [done|]. rewrite B3 in Hf1. apply pol_name_inj in Hf1 as ->. done.
Qed.

Lemma refused_unchanged h o sid c d0 d outs x to :
  drun new_dealer h = Ret d0 outs -> dstep o d0 (DReceive sid (MCall c)) = Ret d (DMsg (MError x) to) ->
  d = d0 /\ to = sid /\ MError x = refusal 48 (ca_request c) "wamp.error.no_such_procedure".
Proof.
  intros H Hs. destruct (call_cases _ _ _ _ _ _ Hs) as
    [(-> & E & _)|(l & g & cl & nx & i & who & F & L & E & P & A & W & [(S1 & E1)|(s & S1 & E1)])]; try done.
  injection E as -> ->. done.
Qed.

Lemma nothing_covers h o sid c d0 outs : drun new_dealer h = Ret d0 outs ->
  (forall x p pol g, once_registered (dtrace_of h outs) x p pol g ->
     p <> ca_procedure c /\ ~ covers p pol (ca_procedure c)) ->
  dstep o d0 (DReceive sid (MCall c))
    = Ret d0 (DMsg (refusal 48 (ca_request c) "wamp.error.no_such_procedure") sid).
Proof.
  intros H Hno. pose proof (run_ginv _ _ _ H) as G. cbn [dstep d_receive_message]. unfold d_call.
  destruct (d_find o d0 (ca_procedure c)) as [l|] eqn:F; [|done]. exfalso.
  assert (Hg : exists g, d_heap d0 !! l = Some g).
  { unfold d_find in F. rewrite size_test in F.
    assert (Hex : forall x, d_by_proc d0 !! ca_procedure c = Some x -> exists g, d_heap d0 !! x = Some g).
    { intros x Hx. destruct (gi_proc _ _ G _ _ Hx) as (g & ? & _). eauto. }
    destruct (longest_prefix (d_prefix d0) (ca_procedure c)) as [l1|] eqn:LP.
    - apply longest_prefix_spec in LP as (k & Hk & Hl & _).
      destruct (gi_prefix _ _ G _ _ Hl) as (g' & Hg' & _).
      destruct (d_by_proc d0 !! ca_procedure c) as [l2|] eqn:E2.
      + destruct (d_heap d0 !! l2) eqn:E3; [destruct (negb _)|]; injection F as <-; eauto.
      + injection F as <-; eauto.
    - destruct (d_by_proc d0 !! ca_procedure c) as [l2|] eqn:E2.
      + assert (l2 = l) as ->; [|by apply Hex].
        destruct (d_heap d0 !! l2); [destruct (negb _)|]; by injection F as <-.
      + destruct (List.find _ _) as [[k l1]|] eqn:Ef; [|discriminate]. cbn in F. injection F as ->.
        apply List.find_some in Ef as [Hin _].
        apply elem_of_list_In, elem_of_shuf, elem_of_map_to_list in Hin.
        destruct (gi_wild _ _ G _ _ Hin) as (g' & Hg' & _). eauto. }
  destruct Hg as [g L].
  destruct (gi_heap _ _ G _ _ L) as [_ _ (c' & pol' & B3 & B4)].
  destruct (Hno _ _ _ _ B4) as [N1 N2].
  destruct (find_covers _ _ _ _ _ _ G F L) as [Hf|[[Hf1 Hf2]|[Hf1 Hf2]]]; [done|..];
    rewrite B3 in Hf1; apply pol_name_inj in Hf1 as ->; by apply N2.
Qed.

(** ** C50 *)
Lemma recipients h o op d0 d outs m to : drun new_dealer h = Ret d0 outs -> dstep o d0 op = Ret d (DMsg m to) ->
  (exists m0, op = DReceive to m0)
  \/ (exists sid m0, op = DReceive sid m0 /\
      (present (dtrace_of h outs) to \/ exists x y, m0 = MError x /\ m = MError y)).
Proof.
  intros H Hs. pose proof (run_sinv _ _ _ H) as S.
  destruct op as [s|id|p|x|sid m0]; cbn [dstep] in Hs.
  - unfold d_add_session in Hs. destruct (d_sessions d0 !! se_id s); discriminate.
  - unfold d_remove_session in Hs. destruct (d_sessions d0 !! id); [|discriminate].
    destruct (d_remove_loop _ _ _); discriminate.
  - unfold d_has_procedure in Hs. destruct (d_by_proc d0 !! p) as [l|]; [|discriminate].
    destruct (d_heap d0 !! l); discriminate.
  - discriminate.
  - destruct m0; cbn [d_receive_message] in Hs; try discriminate.
    + destruct (error_cases _ _ _ _ Hs) as [(_ & _ & e & ?)|[(_ & _ & _ & e & ?)|(p & _ & _ & _ & E)]]; try done.
      right. eexists _, _. split; [done|]. right. injection E as -> _. eauto.
    + destruct (call_cases _ _ _ _ _ _ Hs) as
        [(_ & E & _)|(l & g & cl & nx & i & who & F & L & E & P & A & W & [(S1 & E1)|(s & S1 & E1)])]; try done.
      * injection E as -> ->. left. eauto.
      * injection E1 as -> ->. right. eexists _, _. split; [done|]. left.
        apply (sinv_present _ _ _ S). rewrite S1. by eexists.
    + destruct (register_cases _ _ _ _ _ Hs) as
        [(_ & _ & e & ?)|(mine & M & [(l & g & P & L & _ & _ & E)|[(l & g & P & L & I1 & I2 & I3 & _ & E)|(P & _ & E)]])];
        try done; injection E as -> ->; left; eauto.
    + destruct (unregister_cases _ _ _ _ _ Hs) as [(_ & _ & e & ?)|(mine & l & g & M & L1 & L2 & _ & E)]; [done|].
      injection E as -> ->. left; eauto.
    + destruct (yield_cases _ _ _ _ Hs) as [(_ & _ & ?)|(p & _ & _ & [(_ & ?)|(s & S1 & E)])]; try done.
      injection E as -> ->. right. eexists _, _. split; [done|]. left.
      apply (sinv_present _ _ _ S). rewrite S1. by eexists.
Qed.
