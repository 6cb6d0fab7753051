(** More about the dealer: who is invoked in considerate histories, who can
    answer an invocation, and how long it stays open. *)
From Verif Require Import Prelude Value Msg IdGen Types PathMatch Dealer DealerSpec DealerFacts.
From Verif Require Import DealerCalls DealerRegs DealerCases DealerProofs DealerStep DealerPolite DealerFinal DealerKind DealerKindProofs.

(** ** Who is invoked *)
Lemma considerate_invoked h o sid c d0 outs d v callee : considerate_history h -> N.of_nat (length h) < two53 ->
  drun new_dealer h = Ret d0 outs ->
  let tr := dtrace_of h outs in
  (disclosing_caller tr = true -> present tr sid) ->
  dstep o d0 (DReceive sid (MCall c)) = Ret d (DMsg (MInvocation v) callee) ->
  exists p x, listed tr callee p (in_registration v) /\ present tr callee
    /\ owns tr x p (in_registration v) /\ reaches tr (in_registration v) p (ca_procedure c).
Proof.
  intros Hc Hb R tr Hd Hs. pose proof (considerate_inv h d0 outs Hc ltac:(lia) R) as K. fold tr in K.
  pose proof (run_ginv _ _ _ R) as G. pose proof (run_sinv _ _ _ R) as S. fold tr in G, S.
  destruct (kind_call tr d0 o sid c K G S Hd) as (d' & out & E & H).
  cbn [dstep d_receive_message] in Hs. rewrite Hs in E. injection E as <- <-.
  destruct H as [(_ & H & _)|(l & g & v' & cl & E & Hi & F & L & Hne & Hli & Hpr)]; [done|].
  injection E as <- <-. rewrite Hi. apply map_choose in Hne as (x & y & Hx).
  exists (g_proc g), x. split; [done|]. split; [done|]. split.
  { apply (ki_regs _ _ K _ _ _ L). by eexists. }
  destruct (gi_heap _ _ G _ _ L) as [_ _ (z & pol & B1 & B2)].
  destruct (find_covers _ _ _ _ _ _ G F L) as [E1|[[E1 E2]|[E1 E2]]]; [by left|right; exists z, pol; split; [done|]..].
  - rewrite E1 in B1. by apply pol_name_inj in B1 as <-.
  - rewrite E1 in B1. by apply pol_name_inj in B1 as <-.
Qed.

(** ** Who can answer *)
Lemma sender_irrelevant h h' : Forall2 (fun x x' : oracle * dop => x = x'
    \/ exists o o' a b m, x = (o, DReceive a m) /\ x' = (o', DReceive b m)
         /\ match m with MYield _ | MError _ => True | _ => False end) h h' ->
  forall d, drun d h = drun d h'.
Proof.
  induction 1 as [|[o op] [o' op'] h h' Hx _ IH]; intros d; [done|]. cbn [drun].
  assert (E : dstep o d op = dstep o' d op').
  { destruct Hx as [[= -> ->]|(o1 & o2 & a & b & m & [= -> ->] & [= -> ->] & Hm)]; [done|]. by destruct m. }
  rewrite E. destruct (dstep o' d op') as [d' out|w]; [|done]. by rewrite IH.
Qed.

(** ** How long an invocation stays open *)
Lemma dtrace_app h1 h2 outs1 outs2 : length outs1 = length h1 ->
  dtrace_of (h1 ++ h2) (outs1 ++ outs2) = dtrace_of h2 outs2 ++ dtrace_of h1 outs1.
Proof.
  intros Hl. unfold dtrace_of. rewrite map_app, zip_with_app by (by rewrite map_length). by rewrite rev_app_distr.
Qed.
Lemma stays_open tr2 tr1 i c r rp : open_inv tr1 i c r rp ->
  (forall sid m out, (DReceive sid m, out) ∈ tr2 -> ~ answer_to m i) -> open_inv (tr2 ++ tr1) i c r rp.
Proof.
  intros Ho Hno. induction tr2 as [|[op out] tr2 IH]; [done|]. cbn [app open_inv]. right. split.
  { apply IH. intros sid m out' Hin. eapply Hno. by right. }
  intros Hc. destruct op as [| | | |sid m]; try done. destruct m; try done; eapply Hno; try (left; reflexivity); cbn in *; tauto.
Qed.
Lemma present_as_fun tr c s s' : present_as tr c s -> present_as tr c s' -> s = s'.
Proof.
  induction tr as [|[op out] tr IH]; [done|]. destruct op as [x|x|p|x|sid m]; try exact IH;
    destruct out; try exact IH; cbn [present_as]; [|by intros [_ H] [_ H']; apply IH].
  intros [[H1 <-]|[H1 H2]] [[H3 <-]|[H3 H4]]; [done|congruence..|by apply IH].
Qed.
Lemma drun_app d h1 h2 d1 outs1 d2 outs2 : drun d h1 = Ret d1 outs1 -> drun d1 h2 = Ret d2 outs2 ->
  drun d (h1 ++ h2) = Ret d2 (outs1 ++ outs2).
Proof.
  revert d outs1. induction h1 as [|[o op] h1 IH]; intros d outs1 H1 H2; cbn [app drun] in *; [by injection H1 as -> <-|].
  destruct (dstep o d op) as [d' out|]; [|done]. destruct (drun d' h1) as [d3 outs3|] eqn:E; [|done].
  injection H1 as -> <-. by rewrite (IH _ _ E H2).
Qed.
Lemma unanswered h1 h2 d1 outs1 d2 outs2 i c r rp : N.of_nat (length (h1 ++ h2)) <= two53 ->
  drun new_dealer h1 = Ret d1 outs1 -> drun d1 h2 = Ret d2 outs2 ->
  open_inv (dtrace_of h1 outs1) i c r rp ->
  (forall o sid m, (o, DReceive sid m) ∈ h2 -> ~ answer_to m i) ->
  drun new_dealer (h1 ++ h2) = Ret d2 (outs1 ++ outs2)
  /\ open_inv (dtrace_of (h1 ++ h2) (outs1 ++ outs2)) i c r rp.
Proof.
  intros Hb R1 R2 Ho Hno. split; [by eapply drun_app|].
  rewrite dtrace_app by (by eapply drun_length). apply stays_open; [done|].
  intros sid m out Hin. unfold dtrace_of in Hin.
  assert (Hin' : DReceive sid m ∈ map snd h2).
  { apply elem_of_list_In, in_rev, elem_of_list_In in Hin. by apply elem_of_zip_l in Hin. }
  apply elem_of_list_fmap in Hin' as ([o op] & Hop & Hin'). cbn in Hop. subst op. by eapply Hno.
Qed.
Lemma answerable h1 h2 d1 outs1 d2 outs2 i c r rp s : N.of_nat (length (h1 ++ h2)) <= two53 ->
  drun new_dealer h1 = Ret d1 outs1 -> drun d1 h2 = Ret d2 outs2 ->
  open_inv (dtrace_of h1 outs1) i c r rp ->
  (forall o sid m, (o, DReceive sid m) ∈ h2 -> ~ answer_to m i) ->
  present_as (dtrace_of (h1 ++ h2) (outs1 ++ outs2)) c s ->
  (forall o sid y, yi_request y = i -> exists d, dstep o d2 (DReceive sid (MYield y))
      = Ret d (DMsg (MResult (result_for y r (rp && says (yi_options y) "progress") s)) c))
  /\ (forall o sid x, er_request x = i -> er_type x = 68 -> exists d, dstep o d2 (DReceive sid (MError x))
      = Ret d (DMsg (MError (Error 48 r (or_empty (er_details x)) (er_uri x) (er_args x) (er_kwargs x))) c)).
Proof.
  intros Hb R1 R2 Ho Hno Hp. destruct (unanswered _ _ _ _ _ _ _ _ _ _ Hb R1 R2 Ho Hno) as [R O].
  split.
  - intros o sid y <-. destruct (others_never_panic _ o (DReceive sid (MYield y)) _ _ R I) as (d & out & E).
    exists d. rewrite E. f_equal.
    destruct (yield_answer _ _ _ _ _ _ _ _ Hb R E) as [(H & _)|(c' & r' & rp' & O' & H)]; [by apply H in O|].
    destruct (open_unique _ _ _ _ _ _ _ _ _ _ Hb R O O') as (-> & -> & ->).
    destruct H as [[H _]|(s' & Hs' & ->)].
    + exfalso. apply H. eapply present_as_present. eauto.
    + by rewrite (present_as_fun _ _ _ _ Hp Hs').
  - intros o sid x <- Ht. destruct (others_never_panic _ o (DReceive sid (MError x)) _ _ R I) as (d & out & E).
    exists d. rewrite E. f_equal.
    destruct (error_answer _ _ _ _ _ _ _ _ Hb R E) as [([?|H] & _)|(c' & r' & rp' & _ & O' & ->)]; [done|by apply H in O|].
    by destruct (open_unique _ _ _ _ _ _ _ _ _ _ Hb R O O') as (-> & -> & ->).
Qed.

(** ** A callee that is alone on the books *)
Lemma sole_callee h o sid c d0 d outs v callee c1 v1 to1 tr1 tr2 :
  considerate_history h -> N.of_nat (length h) < two53 ->
  drun new_dealer h = Ret d0 outs ->
  let tr := dtrace_of h outs in
  (disclosing_caller tr = true -> present tr sid) ->
  dstep o d0 (DReceive sid (MCall c)) = Ret d (DMsg (MInvocation v) callee) ->
  says (ca_options c) "progress" = true -> ca_request c1 = ca_request c ->
  tr = tr2 ++ (DReceive sid (MCall c1), DMsg (MInvocation v1) to1) :: tr1 ->
  (forall c2 out, (DReceive sid (MCall c2), out) ∈ tr2 -> ca_request c2 <> ca_request c) ->
  owns tr to1 (ca_procedure c) (in_registration v1) ->
  (forall x, listed tr x (ca_procedure c) (in_registration v1) -> x = to1) ->
  in_request v = in_request v1 /\ in_registration v = in_registration v1 /\ callee = to1.
Proof.
  intros Hc Hb R tr Hd Hs Hp Hr E Hno Ho Hsole. split; [by eapply same_invocation|].
  destruct (considerate_served _ o sid c _ _ _ _ Hc Hb R Hd Ho) as (d' & v' & cl & E' & H1 & _ & H2).
  rewrite Hs in E'. injection E' as _ <- <-. split; [done|]. by apply Hsole.
Qed.

Lemma listed_again tr2 e tr1 x p g : strikes e tr1 x g -> listed (tr2 ++ e :: tr1) x p g ->
  (exists pol, is_registered e x p pol g) \/ exists e' pol, e' ∈ tr2 /\ is_registered e' x p pol g.
Proof.
  intros Hs. induction tr2 as [|e' tr2 IH]; cbn [app listed].
  - intros [H|[_ H]]; [by left|done].
  - intros [[pol H]|[H _]]; [right; exists e', pol; split; [by left|done]|].
    destruct (IH H) as [?|(e2 & pol & Hin & H2)]; [by left|right; exists e2, pol; split; [by right|done]].
Qed.
Lemma gone_for_good h1 o1 x u h2 d1 outs1 d2 a to d3 outs2 o sid c d v callee :
  considerate_history (h1 ++ (o1, DReceive x (MUnregister u)) :: h2) ->
  N.of_nat (length (h1 ++ (o1, DReceive x (MUnregister u)) :: h2)) < two53 ->
  drun new_dealer h1 = Ret d1 outs1 -> (forall y q, owns (dtrace_of h1 outs1) y q (ur_registration u) -> y = x) ->
  dstep o1 d1 (DReceive x (MUnregister u)) = Ret d2 (DMsg (MUnregistered a) to) ->
  drun d2 h2 = Ret d3 outs2 ->
  let tr := dtrace_of (h1 ++ (o1, DReceive x (MUnregister u)) :: h2) (outs1 ++ DMsg (MUnregistered a) to :: outs2) in
  (disclosing_caller tr = true -> present tr sid) ->
  dstep o d3 (DReceive sid (MCall c)) = Ret d (DMsg (MInvocation v) callee) ->
  in_registration v = ur_registration u -> callee = x ->
  exists e p pol, e ∈ dtrace_of h2 outs2 /\ is_registered e x p pol (ur_registration u).
Proof.
  intros Hc Hb R1 Hsole S1 R2 tr Hd Hs Hg ->.
  assert (R : drun new_dealer (h1 ++ (o1, DReceive x (MUnregister u)) :: h2)
    = Ret d3 (outs1 ++ DMsg (MUnregistered a) to :: outs2)).
  { eapply drun_app; [exact R1|]. cbn [drun]. by rewrite S1, R2. }
  destruct (considerate_invoked _ o sid c _ _ _ _ _ Hc Hb R Hd Hs) as (p & y & Hl & _). fold tr in Hl.
  unfold tr in Hl. rewrite dtrace_app in Hl by (by eapply drun_length).
  change (dtrace_of (?z :: h2) (?w :: outs2)) with (rev (zip (map snd (z :: h2)) (w :: outs2))) in Hl.
  cbn [map snd zip zip_with rev] in Hl. rewrite <- app_assoc in Hl. cbn [app] in Hl. rewrite Hg in Hl.
  apply listed_again in Hl as [[pol H]|(e & pol & Hin & H)]; [done|by exists e, p, pol|done].
Qed.
