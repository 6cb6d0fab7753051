(** Shared registrations: who is invoked, in which order (C42); and the
    simplest use of a dealer (C53). *)
From Verif Require Import Prelude Value Msg IdGen Types PathMatch Dealer DealerSpec.
From Verif Require Import BaseSpec BaseFacts TypesFacts DealerFacts DealerCalls DealerCases DealerRegs.
From Verif Require Import DealerSim DealerStep DealerProofs DealerPolite.

Definition row_of (s : ptable) (p : string) (g : N) (inv : string) (l : list N) (t : nat) : Prop :=
  exists m ix, pt_rows s !! p = Some (PRow g m inv l t ix).

Lemma distinct_step s op out s' : rstep s op out s' -> distinct_ids (pt_rows s) -> distinct_ids (pt_rows s').
Proof.
  intros St D. unfold distinct_ids in *.
  assert (Ins : forall p r r', pt_rows s !! p = Some r -> p_id r' = p_id r ->
     forall q q' x x', <[p := r']> (pt_rows s) !! q = Some x -> <[p := r']> (pt_rows s) !! q' = Some x' ->
        p_id x = p_id x' -> q = q').
  { intros p r r' Hr Ei q q' x x' Hq Hq' E.
    destruct (decide (p = q)) as [<-|n], (decide (p = q')) as [<-|n']; try done;
      rewrite ?lookup_insert, ?lookup_insert_ne in * by done; simplify_eq.
    - eapply D; [exact Hr|done|congruence].
    - eapply D; [done|exact Hr|congruence].
    - by eapply D. }
  destruct St; cbn [pt_rows with_rows]; try done.
  - intros p p' r r' Hr Hr' E. rewrite lookup_omap in Hr, Hr'.
    destruct (pt_rows s !! p) as [x|] eqn:Ex; [|done]. destruct (pt_rows s !! p') as [x'|] eqn:Ex'; [|done].
    eapply D; [done..|]. cbn in Hr, Hr'. unfold row_leave in *.
    repeat (destruct (decide _); simplify_eq; try done).
  - intros q q' x x' Hq Hq' E.
    destruct (decide (rg_procedure m = q)) as [<-|n], (decide (rg_procedure m = q')) as [<-|n']; try done;
      rewrite ?lookup_insert, ?lookup_insert_ne in * by done; simplify_eq.
    + cbn in E. match goal with H : forall p r, _ -> p_id r < g |- _ => apply H in Hq' end. lia.
    + cbn in E. match goal with H : forall p r, _ -> p_id r < g |- _ => apply H in Hq end. lia.
    + by eapply D.
  - by eapply Ins.
  - intros q q' x x' Hq Hq'. apply lookup_delete_Some in Hq as [_ Hq]. apply lookup_delete_Some in Hq' as [_ Hq'].
    by eapply D.
  - eapply Ins; [by eapply routes_row|done].
Qed.

Lemma alone_step s op out s' p g inv l t : rstep s op out s' -> distinct_ids (pt_rows s) ->
  (2 <= length l)%nat -> leaves_alone p l op -> row_of s p g inv l t ->
  exists t', row_of s' p g inv l t' /\
    ((invoked g [out] = [] /\ t' = t /\ forall sid c, op = DReceive sid (MCall c) -> ca_procedure c <> p)
     \/ exists c v m ix, out = DMsg (MInvocation v) c /\ in_registration v = g /\ picks (PRow g m inv l t ix) c t').
Proof.
  intros St D Hl Ha (mm & ix & Hr). unfold row_of.
  destruct St; cbn [pt_rows with_rows leaves_alone] in *;
    try (exists t; split; [by eauto|left; split; [done|]; split; [done|by intros ? ? [=]]]).
  - exists t. split; [|left; split; [done|]; split; [done|by intros ? ? [=]]].
    exists mm, ix. rewrite lookup_omap, Hr. cbn. unfold row_leave. cbn [p_callees].
    by rewrite decide_False.
  - exists t. split; [|left; split; [done|]; split; [done|by intros ? ? [=]]].
    exists mm, ix. by rewrite lookup_insert_ne.
  - exists t. split; [|left; split; [done|]; split; [done|by intros ? ? [=]]].
    exists mm, ix. by rewrite lookup_insert_ne.
  - exists t. split; [|left; split; [done|]; split; [done|by intros ? ? [=]]].
    exists mm, ix. rewrite lookup_delete_ne; [done|]. intros ->. simplify_eq. cbn in *. subst l. cbn in Hl. lia.
  - exists t. split; [by eauto|]. left. split; [done|]. split; [done|]. intros ? ? E Ep. simplify_eq.
    match goal with H : forall p r, ~ routes _ _ _ _ |- _ => eapply H end. by apply routes_exact.
  - match goal with H : routes _ _ ?q ?x |- _ => pose proof (routes_row _ _ _ _ H) as Hq; rename H into HR end.
    destruct (decide (p0 = p)) as [->|n].
    + assert (r = PRow g mm inv l t ix) as -> by congruence. exists turn. split.
      * exists mm, ix. by rewrite lookup_insert.
      * right. by exists callee, v, mm, ix.
    + exists t. split; [exists mm, ix; by rewrite lookup_insert_ne|]. left. split.
      * cbn. destruct (in_registration v =? g) eqn:E; [|done]. apply N.eqb_eq in E. exfalso. apply n.
        eapply D; [exact Hq|exact Hr|]. cbn. congruence.
      * split; [done|]. intros ? ? E Ep. simplify_eq. destruct HR; congruence.
  - exists t. split; [by eauto|]. left. destruct out as [| | |mo to]; try (split; [done|]; split; [done|]; intros ? ? E; by simplify_eq).
    split; [by destruct mo|]. split; [done|]. intros ? ? E; by simplify_eq.
Qed.

Lemma invoked_cons g out outs : invoked g (out :: outs) = invoked g [out] ++ invoked g outs.
Proof. destruct out as [| | |m to]; try done. destruct m; try done. cbn. by destruct (_ =? _). Qed.

Definition in_turn (inv : string) (l : list N) (t j : nat) (x : N) : Prop :=
  x ∈ l /\ (inv = "first" -> head l = Some x) /\ (inv = "last" -> last l = Some x)
  /\ (inv = "roundrobin" -> l !! ((t + j) mod length l)%nat = Some x).

Lemma picks_in_turn g m inv l t ix c t' : (2 <= length l)%nat -> (t <= length l)%nat ->
  picks (PRow g m inv l t ix) c t' -> in_turn inv l t 0 c /\ (t' <= length l)%nat
  /\ (inv = "roundrobin" -> t' = S (t mod length l)) /\ (inv <> "roundrobin" -> t' = t).
Proof.
  intros Hl Ht P. pose proof (picks_callee _ _ _ P) as Hin. cbn in Hin. unfold in_turn.
  inversion P; subst; cbn [p_callees p_invoke p_turn] in *; subst; cbn in Hl; try lia.
  - repeat split; done.
  - repeat split; try done. intros _. by rewrite last_snoc.
  - assert (E : (if decide (t < length l)%nat then t else 0%nat) = (t mod length l)%nat).
    { destruct (decide (t < length l)%nat); [by rewrite Nat.mod_small|].
      assert (t = length l) as -> by lia. by rewrite Nat.mod_same by lia. }
    rewrite E in *. rewrite Nat.add_0_r. split; [|split].
    + repeat split; done.
    + apply Nat.mod_upper_bound. lia.
    + done.
  - repeat split; done.
  - repeat split; try done; intros ->; exfalso; set_solver.
Qed.

Lemma alone_run s ops outs s' p g inv l t : rruns s ops outs s' -> distinct_ids (pt_rows s) ->
  (2 <= length l)%nat -> Forall (leaves_alone p l) ops -> row_of s p g inv l t -> (t <= length l)%nat ->
  (forall j x, invoked g outs !! j = Some x -> in_turn inv l t j x)
  /\ forall j sid c, ops !! j = Some (DReceive sid (MCall c)) -> ca_procedure c = p ->
       exists v to, outs !! j = Some (DMsg (MInvocation v) to) /\ in_registration v = g.
Proof.
  intros R. revert t. induction R as [s|s op out s' ops outs s'' St R IH]; intros t D Hl Ha Hr Ht.
  { split; intros ? ?; done. }
  apply Forall_cons in Ha as [Ha Has].
  destruct (alone_step _ _ _ _ _ _ _ _ _ St D Hl Ha Hr) as (t' & Hr' & Hcase).
  pose proof (distinct_step _ _ _ _ St D) as D'.
  assert (K : (t' <= length l)%nat /\
     ((invoked g [out] = [] /\ t' = t /\ forall sid c, op = DReceive sid (MCall c) -> ca_procedure c <> p)
      \/ exists c v, out = DMsg (MInvocation v) c /\ in_registration v = g /\ in_turn inv l t 0 c /\
          (inv = "roundrobin" -> t' = S (t mod length l)) )).
  { destruct Hcase as [(E & -> & Hn)|(c & v & m & ix & E1 & E2 & P)].
    - split; [done|]. by left.
    - destruct (picks_in_turn _ _ _ _ _ _ _ _ Hl Ht P) as (P1 & P2 & P3 & _). split; [done|]. right. by exists c, v. }
  clear Hcase. destruct K as [Ht' K]. destruct (IH t' D' Hl Has Hr' Ht') as [IH1 IH2]. split.
  - intros j x. rewrite invoked_cons. destruct K as [(E & -> & _)|(c & v & -> & Ev & T0 & T1)].
    { rewrite E. cbn. apply IH1. }
    cbn [invoked]. rewrite Ev, N.eqb_refl. cbn [app]. destruct j as [|j].
    { cbn. intros H; injection H as <-. done. }
    cbn. intros Hj. destruct (IH1 _ _ Hj) as (A1 & A2 & A3 & A4). split; [done|]. split; [done|]. split; [done|].
    intros Hi. rewrite (T1 Hi) in A4. rewrite <- (A4 Hi). f_equal.
    replace (t + S j)%nat with (t + (1 + j))%nat by lia. rewrite <- Nat.add_mod_idemp_l by lia. f_equal. lia.
  - intros [|j] sid c.
    + cbn. intros H Hc; injection H as ->. destruct K as [(_ & _ & Hn)|(c' & v & -> & Ev & _)].
      * by destruct (Hn _ _ eq_refl).
      * eauto.
    + cbn. apply IH2.
Qed.

(** Everyone registers. *)
Lemma join_run p inv g : inv <> "" -> inv <> "single" -> forall l2 s h l1 outs s',
  rruns s (map snd h) outs s' -> register_all p inv l2 h -> row_of s p g inv l1 0 ->
  (forall x, x ∈ l2 -> is_Some (pt_sessions s !! x)) ->
  row_of s' p g inv (l1 ++ l2) 0 /\
  Forall2 (fun x out => exists a, out = DMsg (MRegistered a) x /\ rd_registration a = g) l2 outs
  /\ (forall x, is_Some (pt_sessions s' !! x) <-> is_Some (pt_sessions s !! x))
  /\ (distinct_ids (pt_rows s) -> distinct_ids (pt_rows s')).
Proof.
  intros I1 I2. induction l2 as [|sid l2 IH]; intros s h l1 outs s' R Hall Hr Hp.
  { inversion Hall; subst. inversion R; subst. rewrite app_nil_r. split; [done|]. split; [constructor|]. done. }
  inversion Hall as [|? x ? h' (m & Ex & Em & Ei) Hall']; subst. cbn [map] in R.
  inversion R as [|? ? out s1 ? outs' ? St R']; subst. pose proof (distinct_step _ _ _ _ St) as Ds. rewrite Ex in St.
  destruct Hr as (mm & ix & Hr).
  assert (K : s1 = with_rows (<[rg_procedure m := PRow g mm (invoke_policy m) (l1 ++ [sid]) 0 ix]> (pt_rows s)) s
     /\ out = DMsg (MRegistered (Registered (rg_request m) g)) sid).
  { inversion St; subst; simplify_eq; cbn in *.
    - done.
    - naive_solver.
    - destruct (Hp sid) as [? ?]; [by left|congruence]. }
  destruct K as [-> ->].
  destruct (IH _ _ (l1 ++ [sid]) _ _ R' Hall') as (A & B & C & E).
  - exists mm, ix. cbn. by rewrite lookup_insert.
  - intros x' Hx. apply Hp. by right.
  - rewrite <- app_assoc in A. split; [exact A|]. split; [constructor; [by eexists|done]|]. split; [exact C|].
    intros Dd. by apply E, Ds.
Qed.

Lemma shared_run h hr h2 l p inv d0 outs0 d1 outsr d2 outs2 :
  polite_history (h ++ hr ++ h2) -> N.of_nat (length (h ++ hr ++ h2)) <= two53 ->
  drun new_dealer h = Ret d0 outs0 -> drun d0 hr = Ret d1 outsr -> drun d1 h2 = Ret d2 outs2 ->
  (forall x g, ~ owns (dtrace_of h outs0) x p g) ->
  (forall x, x ∈ l -> present (dtrace_of h outs0) x) ->
  (2 <= length l)%nat -> inv <> "" -> inv <> "single" ->
  register_all p inv l hr -> Forall (fun x => leaves_alone p l (snd x)) h2 ->
  exists g,
    Forall2 (fun x out => exists a, out = DMsg (MRegistered a) x /\ rd_registration a = g) l outsr
    /\ (forall j x, invoked g outs2 !! j = Some x -> in_turn inv l 0 j x)
    /\ forall j o sid c, h2 !! j = Some (o, DReceive sid (MCall c)) -> ca_procedure c = p ->
         exists v to, outs2 !! j = Some (DMsg (MInvocation v) to) /\ in_registration v = g.
Proof.
  intros Hp Hb H0 H1 H2 Hno Hpr Hl I1 I2 Hall Hal. rewrite !app_length in Hb.
  destruct (run_drep h) as (d0' & outs0' & s0 & E0 & _ & R0).
  { by eapply polite_prefix. } { lia. }
  rewrite H0 in E0. injection E0 as <- <-.
  destruct (run_drep_from h d0 outs0 s0 hr H0 R0) as (d1' & outsr' & s1 & E1 & RR1 & R1).
  { rewrite app_assoc in Hp. by eapply polite_prefix. } { rewrite app_length. lia. }
  rewrite H1 in E1. injection E1 as <- <-.
  assert (H01 : drun new_dealer (h ++ hr) = Ret d1 (outs0 ++ outsr)) by (by rewrite drun_app, H0, H1).
  destruct (run_drep_from (h ++ hr) d1 (outs0 ++ outsr) s1 h2 H01 R1) as (d2' & outs2' & s2 & E2 & RR2 & R2).
  { by rewrite <- app_assoc. } { rewrite !app_length. lia. }
  rewrite H2 in E2. injection E2 as <- <-.
  pose proof (drep_view h d0 outs0 s0 ltac:(lia) H0 R0) as V0.
  assert (Hrow : pt_rows s0 !! p = None).
  { destruct (pt_rows s0 !! p) as [r|] eqn:Er; [|done]. exfalso.
    destruct (vw_wf _ _ V0 _ _ Er) as [_ Hne]. destruct (p_callees r) as [|c cs] eqn:Ec; [done|].
    apply (Hno c (p_id r)), (vw_owns _ _ V0). exists r. rewrite Ec. split; [done|]. split; [done|by left]. }
  destruct l as [|sid l]; [cbn in Hl; lia|].
  inversion Hall as [|? x ? hr' (m & Ex & Em & Ei) Hall']; subst hr. subst. cbn [map] in RR1.
  inversion RR1 as [|? ? out sa ? outsr'' ? St RRa]; subst. pose proof (distinct_step _ _ _ _ St) as Ds.
  rewrite Ex in St.
  assert (K : exists g, row_of sa (rg_procedure m) g (invoke_policy m) [sid] 0
     /\ out = DMsg (MRegistered (Registered (rg_request m) g)) sid /\ pt_sessions sa = pt_sessions s0).
  { inversion St; subst; simplify_eq; cbn in *.
    - eexists. split; [|done]. eexists _, _. cbn. by rewrite lookup_insert.
    - exfalso. destruct (proj2 (vw_sess _ _ V0 sid)) as [? ?]; [apply Hpr; by left|congruence]. }
  destruct K as (g & Hr & -> & Es).
  destruct (join_run _ _ _ I1 I2 l sa hr' [sid] _ _ RRa Hall' Hr) as (A & B & C & D).
  { intros y Hy. rewrite Es. apply (vw_sess _ _ V0), Hpr. by right. }
  exists g. cbn [app] in A.
  assert (D1 : distinct_ids (pt_rows s1)) by (apply D, Ds, (vw_ids _ _ V0)).
  assert (Hal' : Forall (leaves_alone (rg_procedure m) (sid :: l)) (map snd h2)) by (by apply Forall_map).
  destruct (alone_run _ _ _ _ _ _ _ _ _ RR2 D1 Hl Hal' A ltac:(lia)) as [F1 F2].
  split; [constructor; [by eexists|done]|]. split; [done|].
  intros j o s c Hj. apply (F2 j s c). by rewrite list_lookup_fmap, Hj.
Qed.

(** ** C53 *)

Definition simple_rows (s : ptable) : Prop :=
  pt_dead s = ∅ /\ forall p r, pt_rows s !! p = Some r ->
    p_match r = PExact /\ (p_invoke r = "" \/ p_invoke r = "single") /\ exists c, p_callees r = [c].
Definition simple_op (op : dop) : Prop :=
  match op with
  | DReceive sid (MRegister m) =>
      requested_policy (rg_options m) = PExact /\ (invoke_policy m = "" \/ invoke_policy m = "single")
  | _ => True
  end.

Lemma simple_step s op out s' : rstep s op out s' -> simple_op op -> simple_rows s -> simple_rows s'.
Proof.
  intros St So [Hd Hr].
  destruct St; unfold simple_rows; cbn [pt_rows pt_dead with_rows simple_op] in *; try (by split).
  - split.
    + apply set_eq. intros p. match goal with H : forall p, p ∈ dead <-> _ |- _ => rewrite H end.
      rewrite Hd. split; [|set_solver]. intros [?|(r & Hp & Hm & _)]; [done|].
      apply Hr in Hp as [Hp _]. congruence.
    + intros p r Hp. rewrite lookup_omap in Hp. destruct (pt_rows s !! p) as [x|] eqn:Ex; [|done].
      destruct (Hr _ _ Ex) as (A & B & c & C). cbn in Hp. unfold row_leave in Hp. rewrite C in Hp.
      destruct (decide (sid ∈ [c])) as [Hin|Hin].
      * apply elem_of_list_singleton in Hin as ->. rewrite decide_True in Hp; [done|].
        rewrite filter_cons_False by (intros E; by apply E). done.
      * injection Hp as <-. eauto.
  - destruct So as [So1 So2]. subst dead. rewrite decide_False by congruence. split; [done|].
    intros p r. destruct (decide (rg_procedure m = p)) as [<-|n].
    + rewrite lookup_insert. intros H'; injection H' as <-. cbn. eauto.
    + rewrite lookup_insert_ne by done. apply Hr.
  - exfalso. match goal with H : pt_rows s !! _ = Some r |- _ => apply Hr in H as (_ & [?|?] & _) end; done.
  - match goal with H : pt_rows s !! _ = Some r |- _ => pose proof (Hr _ _ H) as (A & _) end.
    subst dead. rewrite decide_False by congruence. split; [done|].
    intros q x Hq. apply lookup_delete_Some in Hq as [_ Hq]. by eapply Hr.
  - match goal with H : routes _ _ _ _ |- _ => pose proof (Hr _ _ (routes_row _ _ _ _ H)) as A end.
    split; [done|]. intros q x. destruct (decide (p = q)) as [<-|n].
    + rewrite lookup_insert. intros H'; injection H' as <-. exact A.
    + rewrite lookup_insert_ne by done. apply Hr.
Qed.

Lemma polite_snoc h o op : polite_history h ->
  (forall d outs, drun new_dealer h = Ret d outs -> polite (dtrace_of h outs) op) -> polite_history (h ++ [(o, op)]).
Proof.
  intros Hp Hl h1 o' op' h2 d outs E Hr. destruct h2 as [|y h2] using rev_ind.
  - apply app_inj_tail in E as [<- E]. injection E as -> ->. by eapply Hl.
  - rewrite app_comm_cons, app_assoc in E. apply app_inj_tail in E as [-> _]. by eapply Hp.
Qed.
Lemma simple_prefix h1 h2 : simple_history (h1 ++ h2) -> simple_history h1.
Proof.
  intros H a o op b d outs E. apply (H a o op (b ++ h2)). by rewrite E, <- app_assoc.
Qed.

Lemma simple_run h : simple_history h -> N.of_nat (length h) <= two53 ->
  polite_history h /\
  exists d outs s, drun new_dealer h = Ret d outs /\ drep (dtrace_of h outs) d s /\ simple_rows s.
Proof.
  induction h as [|[o op] h IH] using rev_ind; intros Hs Hb.
  { split.
    - intros h1 o op h2 d outs E. by destruct h1.
    - eexists _, _, _. split; [done|]. split; [apply drep_init|]. split; [done|].
      intros p r. cbn. by rewrite lookup_empty. }
  rewrite app_length in Hb. cbn [length] in Hb.
  destruct IH as (Hp & d & outs & s & H & R & Si); [by eapply simple_prefix|lia|].
  pose proof (drep_view h d outs s ltac:(lia) H R) as V.
  pose proof (Hs h o op [] d outs eq_refl H) as So.
  assert (Po : polite (dtrace_of h outs) op).
  { destruct op as [a|x|p|x|sid m]; try done. destruct m; cbn [simple polite] in *; try done.
    - intros _. apply So.
    - destruct So as [(p & Ho)|So]; [|by right]. left. exists p. split; [done|].
      intros x q Hx. apply (vw_owns _ _ V) in Ho as (r & Hr & E & Hin). apply (vw_owns _ _ V) in Hx as (r' & Hr' & E' & Hin').
      assert (q = p) as -> by (eapply (vw_ids _ _ V); [done..|congruence]).
      assert (r' = r) as -> by congruence. destruct (proj2 Si _ _ Hr) as (_ & _ & c & Ec).
      rewrite Ec in Hin, Hin'. set_solver. }
  assert (Hp' : polite_history (h ++ [(o, op)])).
  { apply polite_snoc; [done|]. intros d' outs' H'. rewrite H in H'. by injection H' as <- <-. }
  split; [done|].
  destruct (run_drep_from h d outs s [(o, op)] H R Hp') as (d' & outs' & s' & K1 & K2 & K3).
  { rewrite app_length. cbn. lia. }
  exists d', (outs ++ outs'), s'. split; [by rewrite drun_app, H, K1|]. split; [done|].
  cbn [map snd] in K2. inversion K2 as [|? ? out s1 ? outs1 ? St K2']; subst. inversion K2'; subst.
  eapply simple_step; [done| |done]. destruct op as [| | | |sid m]; try done. by destruct m.
Qed.

(** What a simple history guarantees. *)
Lemma simple_service h : simple_history h -> N.of_nat (length h) < two53 ->
  exists d outs, drun new_dealer h = Ret d outs /\
  let tr := dtrace_of h outs in
  (forall x p g x' g', owns tr x p g -> owns tr x' p g' -> x' = x /\ g' = g)
  /\ (forall x p g, owns tr x p g -> present tr x)
  /\ (forall o p, exists b, dstep o d (DHasProc p) = Ret d (DHas b) /\ (b = true <-> exists x g, owns tr x p g))
  /\ (forall o sid c, (disclosing_caller tr = true -> present tr sid) ->
        (forall x g, owns tr x (ca_procedure c) g ->
           exists d' v, dstep o d (DReceive sid (MCall c)) = Ret d' (DMsg (MInvocation v) x) /\ in_registration v = g)
        /\ ((forall x g, ~ owns tr x (ca_procedure c) g) ->
           dstep o d (DReceive sid (MCall c))
             = Ret d (DMsg (refusal 48 (ca_request c) "wamp.error.no_such_procedure") sid)))
  /\ (forall o sid m, present tr sid ->
        requested_policy (rg_options m) = PExact -> (invoke_policy m = "" \/ invoke_policy m = "single") ->
        (forall x g, owns tr x (rg_procedure m) g ->
           dstep o d (DReceive sid (MRegister m))
             = Ret d (DMsg (refusal 64 (rg_request m) "wamp.error.procedure_already_exists") sid))
        /\ ((forall x g, ~ owns tr x (rg_procedure m) g) ->
           exists d', dstep o d (DReceive sid (MRegister m))
             = Ret d' (DMsg (MRegistered (Registered (rg_request m) (used tr + 1))) sid))).
Proof.
  intros Hs Hb. destruct (simple_run h Hs ltac:(lia)) as (Hp & d & outs & s & H & R & Sd & Sr).
  exists d, outs. split; [done|]. intros tr.
  pose proof (drep_view h d outs s ltac:(lia) H R) as V. fold tr in V, R.
  destruct (run_cinv h d outs ltac:(lia) H) as [C Hl]. fold tr in C, Hl.
  assert (Own : forall x p g, owns tr x p g <-> exists r, pt_rows s !! p = Some r /\ p_id r = g /\ p_callees r = [x]).
  { intros x p g. rewrite (vw_owns _ _ V). split; intros (r & Hr & E & Hin); exists r; (split; [done|]); (split; [done|]).
    - destruct (Sr _ _ Hr) as (_ & _ & c & Ec). rewrite Ec in *. by apply elem_of_list_singleton in Hin as ->.
    - rewrite Hin. by left. }
  assert (Row : forall p, (exists x g, owns tr x p g) <-> is_Some (pt_rows s !! p)).
  { intros p. split.
    - intros (x & g & (r & Hr & _)%Own). rewrite Hr. by eexists.
    - intros [r Hr]. destruct (Sr _ _ Hr) as (_ & _ & c & Ec). exists c, (p_id r). apply Own. by exists r. }
  split; [|split; [|split; [|split]]].
  - intros x p g x' g' (r & Hr & <- & E)%Own (r' & Hr' & <- & E')%Own. assert (r' = r) as -> by congruence.
    split; congruence.
  - intros x p g (r & Hr & <- & E)%Own. eapply (vw_att _ _ V); [done|]. rewrite E. by left.
  - intros o p. destruct (step_drep _ _ _ o (DHasProc p) R C I) as (d' & out & s' & K1 & K2 & _).
    { rewrite Hl. lia. }
    inversion K2; subst. exists b. split; [|by rewrite Row].
    cbn [dstep] in *. unfold d_has_procedure in *. destruct (d_by_proc d !! p) as [l|]; [destruct (d_heap d !! l)|]; congruence.
  - intros o sid c Hd. destruct (rep_call h o sid c d outs s Hb H R Hd) as (d' & out & K & _ & Hor). split.
    + intros x g (r & Hr & <- & E)%Own.
      destruct Hor as [(p & r' & cl & turn & v & Hr' & Hpk & -> & Ei)|(Hno & _)].
      2:{ exfalso. eapply Hno. by apply routes_exact. }
      assert (p = ca_procedure c /\ r' = r) as [-> ->].
      { destruct Hr' as [r' Hr'|? ? Hn ? ? ?|? ? Hn ? ? ? ? ?]; [|congruence..]. split; congruence. }
      apply picks_callee in Hpk. rewrite E in Hpk. apply elem_of_list_singleton in Hpk as ->. eauto.
    + intros Hno. destruct Hor as [(p & r' & cl & turn & v & Hr' & Hpk & -> & Ei)|(_ & -> & ->)]; [|done].
      exfalso. destruct Hr' as [r' Hr'|p r' Hn (Hk & _) Hd' Hr'|p r' Hn _ Hr' Hm _ _].
      * destruct (proj2 (Row (ca_procedure c))) as (x & g & Ho); [by eexists|]. by eapply Hno.
      * destruct Hk as [Hk|(r2 & Hr2 & Hm)]; [done|]. destruct (Sr _ _ Hr2) as [? _]. congruence.
      * destruct (Sr _ _ Hr') as [? _]. congruence.
  - intros o sid m Hpr He Hi.
    destruct (step_drep _ _ _ o (DReceive sid (MRegister m)) R C) as (d' & out & s' & K1 & _).
    { by intros _. } { rewrite Hl. lia. }
    destruct (polite_register h o sid m d d' outs out Hp Hb H K1 Hpr) as [P1 P2]. split.
    + intros x g Ho. pose proof Ho as (r & Hr & <- & E)%Own. destruct (vw_made _ _ V _ _ Hr) as [y Hy].
      destruct (once_under _ _ _ _ _ Hy) as (m' & Hm' & _).
      destruct (vw_under _ _ V _ _ _ Hr Hm') as [Hi' _]. destruct (Sr _ _ Hr) as (_ & Hs' & _).
      destruct (P1 _ _ _ Ho Hm') as [(A1 & A2 & _)|(_ & -> & ->)]; [|done].
      rewrite Hi' in A1, A2. by destruct Hs'.
    + intros Hno. rewrite (P2 Hno) in K1. eauto.
Qed.
