(** Proofs of the dealer properties that hold in polite histories. *)
From Verif Require Import Prelude Value Msg IdGen Types PathMatch Dealer DealerSpec.
From Verif Require Import BaseSpec BaseFacts TypesFacts DealerFacts DealerCalls DealerCases DealerRegs.
From Verif Require Import DealerSim DealerStep DealerProofs.

(** ** Which REGISTERs a registration id stands for *)

Definition names (g : registration) : N * string * string := (g_id g, g_proc g, g_invoke g).

Lemma remove_loop_names id ls : forall d d' u, d_remove_loop id d ls = Ret d' u ->
  d_idgen d' = d_idgen d /\
  forall l g', d_heap d' !! l = Some g' -> exists g, d_heap d !! l = Some g /\ names g' = names g.
Proof.
  induction ls as [|l ls IH]; intros d d' u; cbn [d_remove_loop].
  { intros H; injection H as <- _. split; [done|]. eauto. }
  destruct (d_remove_body id d l) as [d1 u1|w] eqn:B; [|discriminate].
  intros H. destruct (IH _ _ _ H) as [E IHh]. clear IH H.
  assert (K : d_idgen d1 = d_idgen d /\
    forall l0 g', d_heap d1 !! l0 = Some g' -> exists g, d_heap d !! l0 = Some g /\ names g' = names g).
  { destruct (d_heap d !! l) as [reg|] eqn:Hl; [|unfold d_remove_body in B; by rewrite Hl in B].
    rewrite (remove_body_eq _ _ _ _ Hl) in B.
    destruct (d_by_proc d !! g_proc reg) as [l'|]; [|injection B as <- _; split; [done|eauto]].
    destruct (d_heap d !! l') as [g|] eqn:Hl'; [|discriminate].
    destruct (drop_callee id (g_callees g)) as [cs|]; [|discriminate]. injection B as <- _. split; [done|].
    intros l0 g'. cbn [removed_d d_heap]. destruct (decide (l' = l0)) as [<-|n].
    - rewrite lookup_insert. intros HH; injection HH as <-. eauto.
    - rewrite lookup_insert_ne by done. eauto. }
  destruct K as [E' K]. split; [congruence|].
  intros l0 g' Hg. destruct (IHh _ _ Hg) as (g1 & Hg1 & ->). by apply K.
Qed.

(** Only a REGISTER adds an object, and no object changes its names. *)
Lemma step_names o d op d' out : dstep o d op = Ret d' out -> d_idgen d < two53 ->
  d_idgen d <= d_idgen d' /\
  forall l g', d_heap d' !! l = Some g' ->
    (exists g, d_heap d !! l = Some g /\ names g' = names g)
    \/ exists sid m, op = DReceive sid (MRegister m) /\ l = d_fresh d
         /\ out = DMsg (MRegistered (Registered (rg_request m) (d_idgen d + 1))) sid
         /\ names g' = (d_idgen d + 1, rg_procedure m, invoke_policy m).
Proof.
  intros Hs Hb.
  assert (Same : forall dd, d_heap dd = d_heap d -> d_idgen dd = d_idgen d -> d' = dd ->
    d_idgen d <= d_idgen d' /\
    forall l g', d_heap d' !! l = Some g' ->
      (exists g, d_heap d !! l = Some g /\ names g' = names g)
      \/ exists sid m, op = DReceive sid (MRegister m) /\ l = d_fresh d
         /\ out = DMsg (MRegistered (Registered (rg_request m) (d_idgen d + 1))) sid
         /\ names g' = (d_idgen d + 1, rg_procedure m, invoke_policy m)).
  { intros dd E1 E2 ->. rewrite E1, E2. split; [lia|]. eauto. }
  assert (Upd : forall l0 g0 g1, d_heap d !! l0 = Some g0 -> names g1 = names g0 ->
    d_idgen d <= d_idgen d' -> d_heap d' = <[l0 := g1]> (d_heap d) ->
    d_idgen d <= d_idgen d' /\
    forall l g', d_heap d' !! l = Some g' ->
      (exists g, d_heap d !! l = Some g /\ names g' = names g)
      \/ exists sid m, op = DReceive sid (MRegister m) /\ l = d_fresh d
         /\ out = DMsg (MRegistered (Registered (rg_request m) (d_idgen d + 1))) sid
         /\ names g' = (d_idgen d + 1, rg_procedure m, invoke_policy m)).
  { intros l0 g0 g1 E1 E2 E3 E4. split; [done|]. intros l g'. rewrite E4. left.
    destruct (decide (l0 = l)) as [<-|n].
    - rewrite lookup_insert in H. injection H as <-. eauto.
    - rewrite lookup_insert_ne in H by done. eauto. }
  Ltac same Same := subst; eapply Same; [| |reflexivity]; reflexivity.
  destruct op as [s|id|p|x|sid m]; cbn [dstep] in Hs.
  - unfold d_add_session in Hs. destruct (d_sessions d !! se_id s); injection Hs as E <-; same Same.
  - unfold d_remove_session in Hs. destruct (d_sessions d !! id); [|injection Hs as E <-; same Same].
    destruct (d_remove_loop id d _) as [d1 u|w] eqn:L; [|discriminate]. injection Hs as <- <-.
    destruct (remove_loop_names _ _ _ _ _ L) as [E K]. cbn [d_idgen d_heap dset_sessions dset_by_session].
    split; [lia|]. intros l g' Hg. left. by apply K.
  - unfold d_has_procedure in Hs. destruct (d_by_proc d !! p) as [l|].
    + destruct (d_heap d !! l); [|discriminate]. injection Hs as E <-; same Same.
    + injection Hs as E <-; same Same.
  - injection Hs as E <-; same Same.
  - destruct m; cbn [d_receive_message] in Hs; try (injection Hs as E <-; same Same).
    + destruct (error_cases _ _ _ _ Hs) as [(_ & E & _)|[(_ & _ & E & _)|(p & _ & _ & E & _)]]; same Same.
    + destruct (call_cases _ _ _ _ _ _ Hs) as
        [(E & _)|(l & g & cl & nx & i & who & F & L & _ & P & A & _)]; [same Same|].
      destruct (allocate_cases _ _ _ _ _ _ A) as [(-> & _)|(-> & _)].
      * eapply Upd; [done| | |done]; done.
      * eapply Upd; [done| | |done]; [done|]. unfold alloc_new. cbn. rewrite next_id_small by done. lia.
    + destruct (register_cases _ _ _ _ _ Hs) as
        [(_ & E & _)|(mine & M & [(l & g & P & L & _ & E & _)|[(l & g & P & L & I1 & I2 & I3 & -> & ->)|(P & -> & ->)]])];
        try (same Same).
      * eapply Upd; [done| | |done]; done.
      * unfold create_d. cbn [d_idgen d_heap]. rewrite next_id_small by done. split; [lia|].
        intros l g'. destruct (decide (d_fresh d = l)) as [<-|n].
        -- rewrite lookup_insert. intros HH; injection HH as <-. right. eauto 8.
        -- rewrite lookup_insert_ne by done. eauto.
    + destruct (unregister_cases _ _ _ _ _ Hs) as [(_ & E & _)|(mine & l & g & M & L1 & L2 & -> & _)]; [same Same|].
      apply (Upd l g (leave_g sid g) L2 eq_refl); unfold unreg_d; destruct (decide _); cbn; done || lia.
    + destruct (yield_cases _ _ _ _ Hs) as [(_ & E & _)|(p & _ & E & _)]; [same Same|].
      destruct (_ && _); same Same.
Qed.

Record uinv (tr : dtrace) (d : dealer) : Prop := UInv {
  ui_bound : forall x m, registered_under tr x m -> x <= d_idgen d;
  ui_names : forall l g m, d_heap d !! l = Some g -> registered_under tr (g_id g) m ->
      invoke_policy m = g_invoke g /\ rg_procedure m = g_proc g;
  ui_ids : forall l l' g g', d_heap d !! l = Some g -> d_heap d !! l' = Some g' -> g_id g = g_id g' -> l = l' }.

Lemma uinv_step tr d o op d' out : uinv tr d -> cinv tr d -> ginv tr d -> N.of_nat (length tr) < two53 ->
  dstep o d op = Ret d' out -> uinv ((op, out) :: tr) d'.
Proof.
  intros U C G Hb Hs.
  assert (Hid : d_idgen d < two53) by (rewrite (ci_ids _ _ C); pose proof (ci_len _ _ C); lia).
  destruct (step_names _ _ _ _ _ Hs Hid) as [Hle Hn].
  (* the REGISTERED of this step *)
  assert (Reg : forall x m, registered_under ((op, out) :: tr) x m -> registered_under tr x m
     \/ exists sid, op = DReceive sid (MRegister m) /\
          ((exists l g, d_by_proc d !! rg_procedure m = Some l /\ d_heap d !! l = Some g /\ x = g_id g
              /\ invoke_policy m = g_invoke g /\ d_idgen d' = d_idgen d
              /\ d_heap d' !! d_fresh d = None)
           \/ (x = d_idgen d + 1 /\ d_idgen d' = d_idgen d + 1))).
  { intros x m (s & a & to & [E|E]%elem_of_cons & Ha).
    2:{ left. by exists s, a, to. }
    right. injection E as <- <-. exists s. split; [done|]. cbn [dstep d_receive_message] in Hs.
    destruct (register_cases _ _ _ _ _ Hs) as
      [(_ & _ & e & ?)|(mine & M & [(l & g & P & L & _ & _ & E)|[(l & g & P & L & I1 & I2 & I3 & E1 & E)|(P & E1 & E)]])];
      try done.
    - left. exists l, g. injection E as -> _. cbn in Ha. repeat split; try done.
      + by rewrite E1.
      + rewrite E1. cbn [join_d d_heap]. rewrite lookup_insert_ne.
        * destruct (d_heap d !! d_fresh d) eqn:EE; [|done]. apply (gi_fresh _ _ G) in EE. lia.
        * intros ->. apply (gi_fresh _ _ G) in L. lia.
    - right. injection E as -> _. cbn in Ha. rewrite E1. unfold create_d. cbn [d_idgen].
      rewrite next_id_small in * by done. done. }
  assert (Hheap : forall l g, d_heap d !! l = Some g -> g_id g <= d_idgen d) by apply C.
  constructor.
  - intros x m Hx. destruct (Reg _ _ Hx) as [Hx'|(sid & _ & [(l & g & _ & L & -> & _ & E & _)|[-> E]])].
    + apply (ui_bound _ _ U) in Hx'. lia.
    + apply Hheap in L. lia.
    + lia.
  - intros l g' m Hg' Hx. destruct (Hn _ _ Hg') as [(g & Hg & E)|(sid & m' & -> & -> & -> & E)].
    + injection E as E1 E2 E3. rewrite E1 in Hx. rewrite E2, E3.
      destruct (Reg _ _ Hx) as [Hx'|(sid & _ & [(l1 & g1 & P & L & Ei & Ip & _)|[Ei _]])].
      * by eapply ui_names.
      * assert (l = l1) as -> by (by eapply ui_ids). assert (g1 = g) as -> by congruence. split; [done|].
        destruct (gi_proc _ _ G _ _ P) as (g2 & L2 & <-). congruence.
      * apply Hheap in Hg. lia.
    + injection E as E1 E2 E3. rewrite E1 in Hx. rewrite E2, E3.
      destruct (Reg _ _ Hx) as [Hx'|(sid' & Ho & _)].
      * apply (ui_bound _ _ U) in Hx'. lia.
      * injection Ho as -> ->. done.
  - intros l l' g g' Hg Hg' E.
    destruct (Hn _ _ Hg) as [(g0 & Hg0 & E0)|(sid & m' & -> & -> & -> & E0)],
      (Hn _ _ Hg') as [(g0' & Hg0' & E0')|(sid' & m1 & Eo & -> & _ & E0')]; try done;
      injection E0 as E1 _ _; injection E0' as E1' _ _.
    + eapply ui_ids; [done..|congruence].
    + apply Hheap in Hg0. lia.
    + apply Hheap in Hg0'. lia.
Qed.

Lemma run_uinv h d outs : N.of_nat (length h) <= two53 -> drun new_dealer h = Ret d outs ->
  uinv (dtrace_of h outs) d.
Proof.
  revert d outs. induction h as [|[o op] h IH] using rev_ind; intros d outs Hb H.
  { injection H as <- <-. constructor.
    - intros x m (s & a & to & []%elem_of_nil & _).
    - intros l g m. cbn. by rewrite lookup_empty.
    - intros l l' g g'. cbn. by rewrite lookup_empty. }
  rewrite app_length in Hb. cbn [length] in Hb.
  destruct (drun_snoc_inv _ _ _ _ _ _ H) as (d1 & o1 & out & H1 & H2 & ->).
  rewrite dtrace_snoc by (by eapply drun_length).
  destruct (run_cinv h d1 o1 ltac:(lia) H1) as [C Hl].
  eapply uinv_step; [apply IH; [lia|done]|done|by apply run_ginv|rewrite Hl; lia|done].
Qed.

(** ** C36 *)

Lemma once_under tr c p pol g : once_registered tr c p pol g ->
  exists m, registered_under tr g m /\ rg_procedure m = p.
Proof.
  intros ([op out] & Hin & H). destruct op as [s|x|q|x|sid m]; try done.
  destruct m as [m|m|m|m|m|m|m|m|m|m|m|m|m|m|m|m|m|m|m|m|m|m|m|m]; try done.
  destruct out as [e| |y|m' to]; try done.
  destruct m' as [m'|m'|m'|m'|m'|m'|m'|m'|m'|m'|m'|m'|m'|m'|m'|m'|m'|m'|m'|m'|m'|m'|m'|m']; try done.
  cbn in H. destruct H as (-> & <- & _ & <- & ->). exists m. split; [|done]. by exists c, m', c.
Qed.

(** Shared ids come with the same, explicit policy: in every history. *)
Lemma shared_policy h o sid m d0 d outs g to : N.of_nat (length h) < two53 ->
  drun new_dealer h = Ret d0 outs ->
  dstep o d0 (DReceive sid (MRegister m)) = Ret d (DMsg (MRegistered g) to) ->
  let tr := dtrace_of h outs in
  to = sid /\ rd_request g = rg_request m /\ present tr sid /\
  ((rd_registration g = used tr + 1 /\ forall m', ~ registered_under tr (used tr + 1) m')
   \/ (invoke_policy m <> "" /\ invoke_policy m <> "single"
       /\ (exists m', registered_under tr (rd_registration g) m')
       /\ forall m', registered_under tr (rd_registration g) m' ->
            rg_procedure m' = rg_procedure m /\ invoke_policy m' = invoke_policy m)).
Proof.
  intros Hb H Hs tr. destruct (run_cinv h d0 outs ltac:(lia) H) as [C Hl]. fold tr in C, Hl.
  pose proof (run_uinv h d0 outs ltac:(lia) H) as U. pose proof (run_ginv _ _ _ H) as G. fold tr in U, G.
  pose proof (run_sinv _ _ _ H) as S. fold tr in S.
  assert (Hid : d_idgen d0 < two53) by (rewrite (ci_ids _ _ C); pose proof (ci_len _ _ C); lia).
  cbn [dstep d_receive_message] in Hs.
  assert (Pr : forall mine, d_by_session d0 !! sid = Some mine -> present tr sid).
  { intros mine M. apply (sinv_present _ _ _ S), (si_dom _ _ S). rewrite M. by eexists. }
  destruct (register_cases _ _ _ _ _ Hs) as
    [(_ & _ & e & ?)|(mine & M & [(l & g0 & P & L & _ & _ & E)|[(l & g0 & P & L & I1 & I2 & I3 & E1 & E)|(P & E1 & E)]])];
    try done; injection E as -> ->; (split; [done|]); (split; [done|]); (split; [by eapply Pr|]).
  - right. rewrite I3. split; [done|]. split; [done|]. cbn [rd_registration].
    assert (Hall : forall m', registered_under tr (g_id g0) m' ->
              rg_procedure m' = rg_procedure m /\ invoke_policy m' = g_invoke g0).
    { intros m' Hm'. destruct (ui_names _ _ U _ _ _ L Hm') as [? Hp]. split; [|done].
      destruct (gi_proc _ _ G _ _ P) as (g2 & L2 & <-). congruence. }
    split; [|done]. destruct (gi_heap _ _ G _ _ L) as [_ _ (c & pol & _ & B)].
    destruct (once_under _ _ _ _ _ B) as (m' & Hm' & _). by exists m'.
  - left. cbn [rd_registration]. rewrite next_id_small, (ci_ids _ _ C) by done. split; [done|].
    intros m' Hm'. apply (ui_bound _ _ U) in Hm'. rewrite (ci_ids _ _ C) in Hm'. lia.
Qed.

(** The rows of a polite history, seen from the trace. *)
Record view (tr : dtrace) (s : ptable) : Prop := View {
  vw_owns : forall sid p g, owns tr sid p g <-> holds_rows (pt_rows s) sid p g;
  vw_made : forall p r, pt_rows s !! p = Some r ->
      exists c, once_registered tr c p (p_match r) (p_id r);
  vw_under : forall p r m, pt_rows s !! p = Some r -> registered_under tr (p_id r) m ->
      invoke_policy m = p_invoke r /\ rg_procedure m = p;
  vw_dead : forall p, p ∈ pt_dead s -> exists c g, once_registered tr c p PPrefix g;
  vw_live : forall p r, pt_rows s !! p = Some r -> p_match r = PPrefix -> p ∉ pt_dead s;
  vw_ids : distinct_ids (pt_rows s);
  vw_wf : forall p r, pt_rows s !! p = Some r -> NoDup (p_callees r) /\ p_callees r <> [];
  vw_att : forall p r c, pt_rows s !! p = Some r -> c ∈ p_callees r -> present tr c;
  vw_sess : forall sid, is_Some (pt_sessions s !! sid) <-> present tr sid }.

Lemma drep_view h d outs s : N.of_nat (length h) <= two53 -> drun new_dealer h = Ret d outs ->
  drep (dtrace_of h outs) d s -> view (dtrace_of h outs) s.
Proof.
  intros Hb H R. pose proof (run_uinv h d outs Hb H) as U. pose proof (run_ginv _ _ _ H) as G.
  pose proof (run_sinv _ _ _ H) as S. pose proof (dp_core _ _ _ R) as C.
  constructor.
  - apply R.
  - intros p r Hr. destruct (dc_row _ _ _ _ C _ _ Hr) as (l & g & O1 & O2 & Sh).
    destruct (gi_heap _ _ G _ _ O2) as [_ _ (c & pol & B1 & B2)]. exists c.
    rewrite (sh_match _ _ _ Sh) in B1. apply pol_name_inj in B1 as ->.
    by rewrite (sh_proc _ _ _ Sh), (sh_gid _ _ _ Sh) in B2.
  - intros p r m Hr Hm. destruct (dc_row _ _ _ _ C _ _ Hr) as (l & g & O1 & O2 & Sh).
    rewrite <- (sh_gid _ _ _ Sh) in Hm. destruct (ui_names _ _ U _ _ _ O2 Hm) as [? ?].
    by rewrite <- (sh_invoke _ _ _ Sh), <- (sh_proc _ _ _ Sh).
  - intros p Hp. destruct (dc_dead _ _ _ _ C _ Hp) as (l & g & D1 & D2 & _).
    destruct (gi_prefix _ _ G _ _ D1) as (g' & L & <- & M).
    destruct (gi_heap _ _ G _ _ L) as [_ _ (c & pol & B1 & B2)]. rewrite M in B1.
    apply pol_name_inj in B1 as <-. eauto.
  - intros p r Hr Hm. by apply (dc_live _ _ _ _ C _ _ Hr Hm).
  - intros p p' r r'. apply (dc_ids _ _ _ _ C).
  - intros p r Hr. destruct (dc_wf _ _ _ _ C _ _ Hr) as (? & ? & _). done.
  - intros p r c Hr Hc. apply (sinv_present _ _ _ S), (si_dom _ _ S). by eapply (dc_att _ _ _ _ C).
  - intros sid. rewrite <- (dp_sess _ _ _ R). by apply sinv_present.
Qed.

Lemma routes_row s proc p r : routes s proc p r -> pt_rows s !! p = Some r.
Proof. by intros []. Qed.
Lemma routes_reaches tr s proc p r : view tr s -> routes s proc p r -> reaches tr (p_id r) p proc.
Proof.
  intros V Hr. destruct Hr as [r Hr|p r _ [Hk [Hp _]] Hd Hr|p r _ _ Hr Hm _ Hw].
  - by left.
  - right. destruct (vw_made _ _ V _ _ Hr) as [c Hc]. exists c, (p_match r). split; [done|].
    destruct Hk as [?|(r' & Hr' & Hm)]; [done|]. assert (r' = r) as -> by congruence. by rewrite Hm.
  - right. destruct (vw_made _ _ V _ _ Hr) as [c Hc]. exists c, (p_match r). split; [done|]. by rewrite Hm.
Qed.

(** A REGISTER after a polite history. *)
Lemma polite_register h o sid m d0 d outs out : polite_history h -> N.of_nat (length h) < two53 ->
  drun new_dealer h = Ret d0 outs -> dstep o d0 (DReceive sid (MRegister m)) = Ret d out ->
  let tr := dtrace_of h outs in
  present tr sid ->
  (forall x g m', owns tr x (rg_procedure m) g -> registered_under tr g m' ->
     (invoke_policy m' <> "" /\ invoke_policy m' <> "single" /\ invoke_policy m' = invoke_policy m
      /\ out = DMsg (MRegistered (Registered (rg_request m) g)) sid)
     \/ ((invoke_policy m' = "" \/ invoke_policy m' = "single" \/ invoke_policy m' <> invoke_policy m)
         /\ out = DMsg (refusal 64 (rg_request m) "wamp.error.procedure_already_exists") sid /\ d = d0))
  /\ ((forall x g, ~ owns tr x (rg_procedure m) g) ->
      out = DMsg (MRegistered (Registered (rg_request m) (used tr + 1))) sid).
Proof.
  intros Hp Hb H Hs tr Hpr. destruct (run_drep h Hp ltac:(lia)) as (d1 & outs1 & s & H1 & _ & R).
  rewrite H in H1. injection H1 as <- <-.
  pose proof (drep_view h d0 outs s ltac:(lia) H R) as V. fold tr in V, R.
  destruct (run_cinv h d0 outs ltac:(lia) H) as [C Hl]. fold tr in C, Hl.
  pose proof (dp_core _ _ _ R) as K.
  assert (Hid : d_idgen d0 < two53) by (rewrite (ci_ids _ _ C); pose proof (ci_len _ _ C); lia).
  assert (Owned : forall x g, owns tr x (rg_procedure m) g -> exists l gg r,
     d_by_proc d0 !! rg_procedure m = Some l /\ d_heap d0 !! l = Some gg /\ pt_rows s !! rg_procedure m = Some r
     /\ shows (rg_procedure m) gg r /\ p_id r = g).
  { intros x g (r & Hr & E & _)%(vw_owns _ _ V). destruct (dc_row _ _ _ _ K _ _ Hr) as (l & gg & ? & ? & ?).
    by exists l, gg, r. }
  assert (Free : (forall x g, ~ owns tr x (rg_procedure m) g) -> d_by_proc d0 !! rg_procedure m = None).
  { intros Hno. destruct (d_by_proc d0 !! rg_procedure m) as [l|] eqn:P; [|done]. exfalso.
    destruct (dc_proc _ _ _ _ K _ _ P) as [r Hr]. destruct (vw_wf _ _ V _ _ Hr) as [_ Hne].
    destruct (p_callees r) as [|c cs] eqn:E; [done|]. apply (Hno c (p_id r)), (vw_owns _ _ V).
    exists r. rewrite E. split; [done|]. split; [done|by left]. }
  cbn [dstep d_receive_message] in Hs.
  destruct (register_cases _ _ _ _ _ Hs) as
    [(M & _)|(mine & M & [(l & g0 & P & L & HH & -> & ->)|[(l & g0 & P & L & I1 & I2 & I3 & E1 & ->)|(P & E1 & ->)]])].
  - exfalso. apply (vw_sess _ _ V) in Hpr. rewrite <- (dp_sess _ _ _ R) in Hpr.
    apply (ci_dom _ _ C) in Hpr. rewrite M in Hpr. by destruct Hpr.
  - split.
    + intros x g m' Ho Hm'. right. destruct (Owned _ _ Ho) as (l' & gg & r & P' & L' & Hr & Sh & <-).
      assert (l' = l) as -> by congruence. assert (gg = g0) as -> by congruence.
      destruct (vw_under _ _ V _ _ _ Hr Hm') as [E _]. rewrite (sh_invoke _ _ _ Sh), <- E in HH.
      split; [|done]. destruct HH as [?|[?|?]]; [by left|right; by left|right; right; congruence].
    + intros Hno. apply Free in Hno. congruence.
  - split.
    + intros x g m' Ho Hm'. left. destruct (Owned _ _ Ho) as (l' & gg & r & P' & L' & Hr & Sh & <-).
      assert (l' = l) as -> by congruence. assert (gg = g0) as -> by congruence.
      destruct (vw_under _ _ V _ _ _ Hr Hm') as [E _].
      rewrite (sh_invoke _ _ _ Sh), <- E in *. rewrite (sh_gid _ _ _ Sh). done.
    + intros Hno. apply Free in Hno. congruence.
  - split.
    + intros x g m' Ho Hm'. destruct (Owned _ _ Ho) as (l' & gg & r & P' & _). congruence.
    + intros _. by rewrite next_id_small, (ci_ids _ _ C) by done.
Qed.

(** ** A CALL after a polite history *)
Lemma rep_call h o sid c d0 outs s : N.of_nat (length h) < two53 -> drun new_dealer h = Ret d0 outs ->
  let tr := dtrace_of h outs in
  drep tr d0 s -> (disclosing_caller tr = true -> present tr sid) ->
  exists d out, dstep o d0 (DReceive sid (MCall c)) = Ret d out /\ view tr s /\
    ((exists p r callee turn v, routes s (ca_procedure c) p r /\ picks r callee turn
        /\ out = DMsg (MInvocation v) callee /\ in_registration v = p_id r)
     \/ ((forall p r, ~ routes s (ca_procedure c) p r)
         /\ out = DMsg (refusal 48 (ca_request c) "wamp.error.no_such_procedure") sid /\ d = d0)).
Proof.
  intros Hb H tr R Hd. pose proof (drep_view h d0 outs s ltac:(lia) H R) as V. fold tr in V.
  destruct (run_cinv h d0 outs ltac:(lia) H) as [C Hl]. fold tr in C, Hl.
  destruct (step_drep _ _ _ o (DReceive sid (MCall c)) R C Hd) as (d & out & s' & K1 & K2 & _).
  { rewrite Hl. lia. }
  exists d, out. split; [done|]. split; [done|].
  remember (DReceive sid (MCall c)) as op eqn:Eop.
  destruct K2; try discriminate Eop.
  - right. injection Eop as -> ->. split; [done|]. split; [done|].
    eapply refused_unchanged; [exact H|]. unfold refusal in K1. exact K1.
  - left. injection Eop as -> ->. eauto 12.
  - injection Eop as -> ->. done.
Qed.

Lemma polite_call h o sid c : polite_history h -> N.of_nat (length h) < two53 ->
  forall d0 outs, drun new_dealer h = Ret d0 outs ->
  let tr := dtrace_of h outs in
  (disclosing_caller tr = true -> present tr sid) ->
  exists d out s, dstep o d0 (DReceive sid (MCall c)) = Ret d out /\ view tr s /\
    ((exists p r callee turn v, routes s (ca_procedure c) p r /\ picks r callee turn
        /\ out = DMsg (MInvocation v) callee /\ in_registration v = p_id r)
     \/ ((forall p r, ~ routes s (ca_procedure c) p r)
         /\ out = DMsg (refusal 48 (ca_request c) "wamp.error.no_such_procedure") sid /\ d = d0)).
Proof.
  intros Hp Hb d0 outs H tr Hd. destruct (run_drep h Hp ltac:(lia)) as (d1 & outs1 & s & H1 & _ & R).
  rewrite H in H1. injection H1 as <- <-.
  destruct (rep_call h o sid c d0 outs s Hb H R Hd) as (d & out & K). by exists d, out, s.
Qed.

Lemma picks_callee r c t : picks r c t -> c ∈ p_callees r.
Proof.
  intros [x E|x cs E _|x cs E _|x k _ _ _ E|x E _|x cs E _]; try rewrite E.
  - by left.
  - by left.
  - apply elem_of_app. right. by left.
  - by eapply elem_of_list_lookup_2.
  - done.
  - by left.
Qed.

(** Who is invoked holds the registration. *)
Lemma polite_invoked h o sid c d0 outs d v callee : polite_history h -> N.of_nat (length h) < two53 ->
  drun new_dealer h = Ret d0 outs -> (disclosing_caller (dtrace_of h outs) = true -> present (dtrace_of h outs) sid) ->
  dstep o d0 (DReceive sid (MCall c)) = Ret d (DMsg (MInvocation v) callee) ->
  exists p, owns (dtrace_of h outs) callee p (in_registration v)
    /\ reaches (dtrace_of h outs) (in_registration v) p (ca_procedure c).
Proof.
  intros Hp Hb H Hd Hs.
  destruct (polite_call h o sid c Hp Hb _ _ H Hd) as (d' & out & s & Hs' & V & Hor).
  rewrite Hs in Hs'. injection Hs' as <- <-.
  destruct Hor as [(p & r & cl & turn & v' & Hr & Hpk & E & Ei)|(_ & E & _)]; [|done].
  injection E as <- <-. exists p. rewrite Ei. split; [|by eapply routes_reaches].
  apply (vw_owns _ _ V). exists r. split; [by eapply routes_row|]. split; [done|]. by eapply picks_callee.
Qed.

(** A procedure that somebody holds is routed to one of its holders. *)
Lemma polite_owned h o sid c d0 outs b g : polite_history h -> N.of_nat (length h) < two53 ->
  drun new_dealer h = Ret d0 outs -> (disclosing_caller (dtrace_of h outs) = true -> present (dtrace_of h outs) sid) ->
  owns (dtrace_of h outs) b (ca_procedure c) g ->
  exists d v callee, dstep o d0 (DReceive sid (MCall c)) = Ret d (DMsg (MInvocation v) callee)
    /\ in_registration v = g /\ owns (dtrace_of h outs) callee (ca_procedure c) g.
Proof.
  intros Hp Hb H Hd Ho.
  destruct (polite_call h o sid c Hp Hb _ _ H Hd) as (d' & out & s & Hs' & V & Hor).
  apply (vw_owns _ _ V) in Ho as (r0 & Hr0 & <- & Hin0).
  destruct Hor as [(p & r & cl & turn & v' & Hr & Hpk & -> & Ei)|(Hno & _ & _)].
  2:{ exfalso. eapply Hno. by apply routes_exact. }
  assert (p = ca_procedure c /\ r = r0) as [-> ->].
  { destruct Hr as [r Hr|p r Hn _ _ _|p r Hn _ _ _ _ _]; [|congruence..]. split; congruence. }
  exists d', v', cl. split; [done|]. split; [done|]. apply (vw_owns _ _ V). exists r0.
  split; [done|]. split; [done|]. by eapply picks_callee.
Qed.

(** Nothing that somebody holds reaches the procedure: refused. *)
Lemma polite_refused h o sid c d0 outs : polite_history h -> N.of_nat (length h) < two53 ->
  drun new_dealer h = Ret d0 outs -> (disclosing_caller (dtrace_of h outs) = true -> present (dtrace_of h outs) sid) ->
  (forall x p g, owns (dtrace_of h outs) x p g -> ~ reaches (dtrace_of h outs) g p (ca_procedure c)) ->
  dstep o d0 (DReceive sid (MCall c))
    = Ret d0 (DMsg (refusal 48 (ca_request c) "wamp.error.no_such_procedure") sid).
Proof.
  intros Hp Hb H Hd Hno.
  destruct (polite_call h o sid c Hp Hb _ _ H Hd) as (d' & out & s & Hs' & V & Hor).
  destruct Hor as [(p & r & cl & turn & v' & Hr & Hpk & -> & Ei)|(_ & -> & ->)]; [|done].
  exfalso. apply (Hno cl p (p_id r)); [|by eapply routes_reaches].
  apply (vw_owns _ _ V). exists r. split; [by eapply routes_row|]. split; [done|]. by eapply picks_callee.
Qed.

(** ** C49 *)
Lemma polite_prefix_found h o sid c d0 outs x y p g : polite_history h -> N.of_nat (length h) < two53 ->
  drun new_dealer h = Ret d0 outs -> (disclosing_caller (dtrace_of h outs) = true -> present (dtrace_of h outs) sid) ->
  let tr := dtrace_of h outs in
  owns tr x p g -> once_registered tr y p PPrefix g ->
  (forall z pol, once_registered tr z p pol g -> pol = PPrefix) ->
  is_prefix p (ca_procedure c) ->
  (forall z g', ~ owns tr z (ca_procedure c) g') ->
  (forall z q g', once_registered tr z q PPrefix g' -> is_prefix q (ca_procedure c) ->
     (String.length q <= String.length p)%nat) ->
  exists d v callee, dstep o d0 (DReceive sid (MCall c)) = Ret d (DMsg (MInvocation v) callee)
    /\ in_registration v = g /\ owns tr callee p g.
Proof.
  intros Hp Hb H Hd tr Ho Hpre Hall Hpx Hfree Hlong.
  destruct (polite_call h o sid c Hp Hb _ _ H Hd) as (d' & out & s & Hs' & V & Hor). fold tr in V.
  apply (vw_owns _ _ V) in Ho as (r0 & Hr0 & <- & Hin0).
  assert (Hm0 : p_match r0 = PPrefix).
  { destruct (vw_made _ _ V _ _ Hr0) as [z Hz]. by eapply Hall. }
  assert (Hn : pt_rows s !! ca_procedure c = None).
  { destruct (pt_rows s !! ca_procedure c) as [r|] eqn:E; [|done]. exfalso.
    destruct (vw_wf _ _ V _ _ E) as [_ Hne]. destruct (p_callees r) as [|z cs] eqn:Ec; [done|].
    apply (Hfree z (p_id r)), (vw_owns _ _ V). exists r. rewrite Ec. split; [done|]. split; [done|by left]. }
  assert (Known : forall q, prefix_known s q -> exists z g', once_registered tr z q PPrefix g').
  { intros q [Hq|(r & Hr & Hm)].
    - by apply (vw_dead _ _ V).
    - destruct (vw_made _ _ V _ _ Hr) as [z Hz]. rewrite Hm in Hz. eauto. }
  assert (KP : prefix_known s p) by (right; by exists r0).
  assert (LK : longest_known s (ca_procedure c) p).
  { split; [done|]. split; [done|]. intros q Hq Hqp. destruct (Known _ Hq) as (z & g' & Hz). by eapply Hlong. }
  assert (Hnd : p ∉ pt_dead s) by (by eapply (vw_live _ _ V)).
  destruct Hor as [(q & r & cl & turn & v' & Hr & Hpk & -> & Ei)|(Hno & _ & _)].
    2:{ exfalso. eapply Hno. by eapply routes_prefix. }
    assert (q = p /\ r = r0) as [-> ->].
    { destruct Hr as [r Hr|q r _ (Hk & Hq & Hmax) Hd' Hr|q r _ Hno Hr _ _ _].
      - congruence.
      - assert (q = p) as ->; [|split; [done|congruence]].
        apply (sprefix_same _ _ (ca_procedure c)); [done|done|].
        apply Nat.le_antisymm; [by apply LK|by apply Hmax].
      - exfalso. by eapply Hno. }
    exists d', v', cl. split; [done|]. split; [done|]. apply (vw_owns _ _ V). exists r0.
    split; [done|]. split; [done|]. by eapply picks_callee.
Qed.
