(** The simulation step and its consequences for whole histories. *)
From Verif Require Import Prelude Value Msg IdGen Types PathMatch Dealer DealerSpec.
From Verif Require Import BaseSpec BaseFacts TypesFacts DealerFacts DealerCalls DealerCases DealerSim.

Definition holds_rows (rows : gmap string prow) (sid : N) (p : string) (g : N) : Prop :=
  exists r, rows !! p = Some r /\ p_id r = g /\ sid ∈ p_callees r.

Record drep (tr : dtrace) (d : dealer) (s : ptable) : Prop := DRep {
  dp_core : dcore d (d_by_session d) (pt_rows s) (pt_dead s);
  dp_sess : d_sessions d = pt_sessions s;
  dp_owns : forall sid p g, owns tr sid p g <-> holds_rows (pt_rows s) sid p g }.

(** ** The trace and the table *)

Lemma owns_quiet e tr sid p g : (forall pol, ~ is_registered e sid p pol g) -> ~ is_unregistered e sid g ->
  owns (e :: tr) sid p g <-> owns tr sid p g.
Proof.
  intros H1 H2. cbn [owns]. split.
  - intros [[pol H]|[H _]]; [by apply H1 in H|done].
  - intros H. by right.
Qed.

Definition distinct_ids (rows : gmap string prow) : Prop :=
  forall p p' r r', rows !! p = Some r -> rows !! p' = Some r' -> p_id r = p_id r' -> p = p'.

Lemma owns_step s op out s' tr : rstep s op out s' -> distinct_ids (pt_rows s) ->
  (forall p r, pt_rows s !! p = Some r -> NoDup (p_callees r)) ->
  (forall sid p g, owns tr sid p g <-> holds_rows (pt_rows s) sid p g) ->
  forall sid p g, owns ((op, out) :: tr) sid p g <-> holds_rows (pt_rows s') sid p g.
Proof.
  intros R Hids Hnd Ho sid p g.
  assert (Turn : forall q r r', pt_rows s !! q = Some r -> p_id r' = p_id r -> p_callees r' = p_callees r ->
     holds_rows (<[q := r']> (pt_rows s)) sid p g <-> holds_rows (pt_rows s) sid p g).
  { intros q r r' Hr E1 E2. unfold holds_rows. destruct (decide (q = p)) as [<-|n].
    - rewrite lookup_insert, Hr. split.
      + intros (x & HH & H1 & H2). injection HH as <-. exists r. split; [done|]. split; congruence.
      + intros (x & HH & H1 & H2). injection HH as <-. exists r'. split; [done|]. split; congruence.
    - by rewrite lookup_insert_ne. }
  destruct R as [a Ha|a e Ha|x dead Hx Hd|x e Hx|q b Hb|x|x m g' dead Hx Hn Hlt Hd|x m r Hx Hr H1 H2 H3
    |x m r Hx Hr H1|x m e Hx|x m q r dead Hx Hr H1 H2 Hd|x m e Hx|x c Hc|x c q r callee turn v Hc H1 H2|x m out Hm];
    try (rewrite owns_quiet, Ho; [done|cbn; tauto|cbn; tauto]).
  - (* removal *)
    cbn [owns pt_rows]. unfold holds_rows. rewrite lookup_omap. split.
    + intros [[pol []]|[H1%Ho H2]]. cbn in H2. destruct H1 as (r & R1 & R2 & R3). rewrite R1. cbn.
      unfold row_leave. destruct (decide (x ∈ p_callees r)) as [Hin|Hin]; [|by exists r].
      cbn zeta. assert (Hs : sid ∈ filter (fun y => y <> x) (p_callees r)).
      { apply filter_out. split; [congruence|done]. }
      destruct (decide (filter _ _ = [])) as [E|E].
      { rewrite E in Hs. by apply elem_of_nil in Hs. }
      by eexists.
    + intros (r & R1 & R2 & R3). right. destruct (pt_rows s !! p) as [r0|] eqn:E; [|done]. cbn in R1.
      assert (sid ∈ p_callees r0 /\ sid <> x /\ p_id r0 = g) as (K1 & K2 & K3).
      { unfold row_leave in R1. destruct (decide (x ∈ p_callees r0)) as [Hin|Hin].
        - cbn zeta in R1. destruct (decide (filter _ _ = [])); [done|]. injection R1 as <-.
          cbn in R2, R3. apply filter_out in R3 as [? ?]. done.
        - injection R1 as <-. split; [done|]. split; [by intros ->|done]. }
      split; [|cbn; congruence]. apply Ho. by exists r0.
  - (* new registration *)
    cbn [owns pt_rows]. unfold holds_rows. split.
    + intros [[pol HH]|[HH _]].
      * cbn in HH. destruct HH as (-> & <- & _ & <- & _).
        eexists. rewrite lookup_insert. split; [done|]. cbn. split; [done|by left].
      * apply Ho in HH as (r & R1 & R2 & R3). exists r. rewrite lookup_insert_ne; [done|]. congruence.
    + intros (r & R1 & R2 & R3). destruct (decide (rg_procedure m = p)) as [<-|n].
      * rewrite lookup_insert in R1. injection R1 as <-. cbn in R2, R3.
        apply elem_of_list_singleton in R3 as ->. left. eexists. cbn. by rewrite R2.
      * rewrite lookup_insert_ne in R1 by done. right. split; [|cbn; tauto]. apply Ho. by exists r.
  - (* joined *)
    cbn [owns pt_rows with_rows]. unfold holds_rows. split.
    + intros [[pol HH]|[HH _]].
      * cbn in HH. destruct HH as (-> & <- & _ & <- & _).
        eexists. rewrite lookup_insert. split; [done|]. cbn. split; [done|].
        apply elem_of_app. right. by left.
      * apply Ho in HH as (r' & R1 & R2 & R3). destruct (decide (rg_procedure m = p)) as [<-|n].
        -- assert (r' = r) as -> by congruence. eexists. rewrite lookup_insert. split; [done|]. cbn.
           split; [done|]. apply elem_of_app. by left.
        -- exists r'. by rewrite lookup_insert_ne.
    + intros (r' & R1 & R2 & R3). destruct (decide (rg_procedure m = p)) as [<-|n].
      * rewrite lookup_insert in R1. injection R1 as <-. cbn in R2, R3.
        apply elem_of_app in R3 as [R3|R3%elem_of_list_singleton].
        -- right. split; [|cbn; tauto]. apply Ho. by exists r.
        -- subst x. left. eexists. cbn. by rewrite R2.
      * rewrite lookup_insert_ne in R1 by done. right. split; [|cbn; tauto]. apply Ho. by exists r'.
  - (* unregistered *)
    cbn [owns pt_rows]. unfold holds_rows. split.
    + intros [[pol []]|[HH Hu]]. cbn in Hu. apply Ho in HH as (r' & R1 & R2 & R3).
      destruct (decide (q = p)) as [<-|n].
      * assert (r' = r) as -> by congruence. rewrite H2 in R3. apply elem_of_list_singleton in R3 as ->.
        exfalso. apply Hu. split; [done|congruence].
      * exists r'. by rewrite lookup_delete_ne.
    + intros (r' & [n R1]%lookup_delete_Some & R2 & R3). right. split; [apply Ho; by exists r'|].
      cbn. intros [_ Hu]. apply n. eapply Hids; [done..|congruence].
  - (* call *)
    rewrite owns_quiet, Ho; [|cbn; tauto|cbn; tauto]. cbn [pt_rows with_rows]. symmetry.
    apply (Turn q r); [|done|done]. by destruct Hc.
  - (* other *)
    destruct m; try done;
      (rewrite owns_quiet, Ho; [done|cbn; tauto|cbn; tauto]).
Qed.

(** ** One step *)

Lemma drep_init : drep [] new_dealer empty_ptable.
Proof.
  split; [|done|].
  - constructor; cbn; intros *; rewrite ?lookup_empty; try discriminate; try set_solver.
  - intros sid p g. cbn. split; [done|]. intros (r & H & _). by rewrite lookup_empty in H.
Qed.

Lemma row_attached tr d s p r c : drep tr d s -> cinv tr d -> pt_rows s !! p = Some r -> c ∈ p_callees r ->
  is_Some (d_sessions d !! c).
Proof. intros R I Hr Hc. apply (ci_dom _ _ I). by eapply dc_att; [apply R|..]. Qed.

Lemma core_same d d' bs rows dead : dcore d bs rows dead ->
  d_heap d' = d_heap d -> d_fresh d' = d_fresh d -> d_by_proc d' = d_by_proc d ->
  d_prefix d' = d_prefix d -> d_wild d' = d_wild d -> d_idgen d <= d_idgen d' -> dcore d' bs rows dead.
Proof.
  intros C E1 E2 E3 E4 E5 E6. constructor.
  - rewrite E1, E2. apply C.
  - intros p r Hr. destruct (dc_row _ _ _ _ C _ _ Hr) as (l & g & O). exists l, g. unfold obj. by rewrite E3, E1.
  - rewrite E3. apply C.
  - intros p r Hr. destruct (dc_wf _ _ _ _ C _ _ Hr) as (? & ? & ?). split; [done|]. split; [done|lia].
  - apply (dc_att _ _ _ _ C).
  - apply (dc_ids _ _ _ _ C).
  - rewrite E3. apply (dc_mine _ _ _ _ C).
  - rewrite E3, E4. apply C.
  - rewrite E1, E3, E4. apply C.
  - rewrite E4. apply C.
  - rewrite E3, E5. apply C.
Qed.

Lemma core_drop d bs rows dead sid : dcore d (<[sid := ∅]> bs) rows dead -> dcore d (delete sid bs) rows dead.
Proof.
  intros C. destruct C as [C1 C2 C3 C4 C5 C6 C7 C8 C9 C10 C11]. constructor; try done.
  - intros p r c Hr Hc. destruct (decide (sid = c)) as [<-|n].
    + exfalso. destruct (C2 _ _ Hr) as (l & g & P & _).
      assert (HH : (∅ : gmap N N) !! p_id r = Some l).
      { apply (C7 sid ∅); [by rewrite lookup_insert|]. by exists p, r. }
      by rewrite lookup_empty in HH.
    + rewrite lookup_delete_ne by done. specialize (C5 _ _ _ Hr Hc). by rewrite lookup_insert_ne in C5.
  - intros x m id l [n Hm]%lookup_delete_Some. apply C7. by rewrite lookup_insert_ne.
Qed.

Lemma step_sim tr d s o op : drep tr d s -> cinv tr d -> polite tr op -> d_idgen d < two53 ->
  exists d' out s', dstep o d op = Ret d' out /\ rstep s op out s'
    /\ dcore d' (d_by_session d') (pt_rows s') (pt_dead s') /\ d_sessions d' = pt_sessions s'.
Proof.
  intros R I Pol Hb. destruct R as [C Es Ho].
  destruct op as [a|x|p|x|sid m]; cbn [dstep].
  - unfold d_add_session. destruct (d_sessions d !! se_id a) as [y|] eqn:E.
    + eexists _, _, _. split; [done|]. split; [apply rs_add_err; rewrite <- Es, E; by eexists|]. done.
    + eexists _, _, _. split; [done|]. split; [apply rs_add; by rewrite <- Es|].
      cbn [d_sessions d_by_session dset_sessions dset_by_session pt_rows pt_dead pt_sessions].
      split; [|by rewrite Es].
      assert (Nb : d_by_session d !! se_id a = None).
      { apply eq_None_not_Some. rewrite (ci_dom _ _ I), E. by intros [? ?]. }
      destruct C as [C1 C2 C3 C4 C5 C6 C7 C8 C9 C10 C11]. constructor; try done.
      * intros p r c Hr Hc. destruct (decide (se_id a = c)) as [<-|n].
        -- rewrite lookup_insert. by eexists.
        -- rewrite lookup_insert_ne by done. by eapply C5.
      * intros x m id l. destruct (decide (se_id a = x)) as [<-|n].
        -- rewrite lookup_insert. intros HH; injection HH as <-. rewrite lookup_empty. split; [done|].
           intros (p & r & P & Hr & _ & Hin). destruct (C5 _ _ _ Hr Hin) as [? ?]. congruence.
        -- rewrite lookup_insert_ne by done. apply C7.
  - unfold d_remove_session. destruct (d_sessions d !! x) as [y|] eqn:E.
    2:{ eexists _, _, _. split; [done|]. split; [apply rs_remove_err; by rewrite <- Es|]. done. }
    destruct (proj2 (ci_dom _ _ I x)) as [m Hm]; [rewrite E; by eexists|].
    rewrite Hm. cbn [default].
    destruct (loop_steps x (shuf (o_first o) (map_to_list m)) _ _ _ _ m C Hm) as (d' & dead' & HL & (K1 & K2 & K3) & C' & Hd).
    { apply shuf_perm. }
    unfold default, id. rewrite HL. eexists _, _, _. split; [done|].
    split; [apply (rs_remove s x dead'); [rewrite <- Es, E; by eexists|done]|].
    cbn [d_sessions d_by_session dset_sessions dset_by_session pt_rows pt_dead pt_sessions].
    split; [|by rewrite K1, Es]. rewrite K2. apply core_drop.
    eapply core_same; [done..|]. cbn. lia.
  - unfold d_has_procedure. destruct (d_by_proc d !! p) as [l|] eqn:E.
    + destruct (dc_proc _ _ _ _ C _ _ E) as [r Hr].
      destruct (dc_row _ _ _ _ C _ _ Hr) as (l' & g & O1 & O2 & O3). assert (l' = l) as -> by congruence.
      rewrite O2. eexists _, _, _. split; [done|]. split; [|done]. apply rs_has.
      rewrite bool_decide_false; [|by eapply shows_nonempty; [done|apply (dc_wf _ _ _ _ C _ _ Hr)]].
      cbn. rewrite Hr. split; [by eexists|done].
    + eexists _, _, _. split; [done|]. split; [|done]. apply rs_has. split; [done|].
      intros [r Hr]. destruct (dc_row _ _ _ _ C _ _ Hr) as (l' & g & O1 & _). congruence.
  - unfold d_auto_disclose. eexists _, _, _. split; [done|]. split; [apply rs_disclose|].
    split; [|done]. by eapply core_same.
  - destruct m; cbn [d_receive_message];
      try (eexists _, _, _; split; [done|]; split; [by apply rs_other|done]).
    + (* ERROR *)
      destruct (d_error d m) as [d' out|w] eqn:E.
      2:{ exfalso. unfold d_error in E. destruct (negb _); [discriminate|].
          destruct (d_pending d !! er_request m); discriminate. }
      eexists d', out, s. split; [done|]. split.
      { apply rs_other; [done|].
        by destruct (error_cases _ _ _ _ E) as [(_ & _ & x & ->)|[(_ & _ & _ & x & ->)|(p & _ & _ & _ & ->)]]. }
      destruct (error_cases _ _ _ _ E) as [(_ & -> & _)|[(_ & _ & -> & _)|(p & _ & _ & -> & _)]]; try done.
      split; [|done]. by eapply core_same.
    + (* CALL *)
      destruct s as [rows dead ss]. cbn [pt_rows pt_dead pt_sessions] in *.
      unfold d_call. destruct (find_routes o d _ rows dead ss (ca_procedure m) C)
        as [(q & l & g & r & F & O & Hr & Hro)|[HF Hno]].
      * pose proof O as (O1 & O2 & Sh). rewrite F, O2.
        destruct (dc_wf _ _ _ _ C _ _ Hr) as (Hnd & Hne & Hle).
        rewrite decide_False by (by eapply shows_nonempty).
        destruct (pick_picks o _ _ _ Sh Hne) as (callee & nx & P & Pk). rewrite P.
        fold (with_next d l nx g).
        assert (Hcal : callee ∈ p_callees r).
        { rewrite <- (sh_callees _ _ _ Sh). by eapply pick_in. }
        assert (Hat : is_Some (d_sessions d !! callee)).
        { apply (ci_dom _ _ I). by eapply (dc_att _ _ _ _ C). }
        destruct Hat as [sc Hsc].
        destruct (d_allocate (with_next d l nx g) sid m callee) as [dA i] eqn:A.
        assert (CA : dcore dA (d_by_session dA)
                  (<[q := PRow (p_id r) (p_match r) (p_invoke r) (p_callees r) nx (p_indexed r)]> rows) dead
                  /\ d_sessions dA = ss /\ d_details dA = d_details d).
        { assert (CN : dcore (with_next d l nx g) (d_by_session d)
                  (<[q := PRow (p_id r) (p_match r) (p_invoke r) (p_callees r) nx (p_indexed r)]> rows) dead).
          { eapply (core_update d _ rows dead _ _ q l g r); try done.
            - constructor; try apply Sh. done.
            - intros c Hc. by eapply (dc_att _ _ _ _ C).
            - intros x. cbn [with_next d_wild dset_heap p_indexed]. rewrite (dc_wild _ _ _ _ C). split.
              + intros (? & r' & ? & ? & ?). assert (r' = r) as -> by congruence. split; [congruence|done].
              + intros (-> & ? & ?). split; [done|]. by exists r.
            - split; [done|]. intros x m0 m1 H0 H1. assert (m1 = m0) as -> by congruence. split; [done|].
              cbn [p_callees]. destruct (decide (x ∈ p_callees r)) as [Hx|Hx].
              + apply (dc_mine _ _ _ _ C _ _ _ _ H0). by exists q, r.
              + destruct (m0 !! p_id r) as [y|] eqn:Ey; [|done]. exfalso.
                apply (dc_mine _ _ _ _ C _ _ _ _ H0) in Ey as (q' & rq & Q1 & Q2 & Q3 & Q4).
                assert (q' = q) as -> by (by eapply dc_ids). assert (rq = r) as -> by congruence. done. }
          destruct (allocate_cases _ _ _ _ _ _ A) as [(-> & _)|(-> & _)].
          - split; [done|]. done.
          - split; [|done]. eapply core_same; [exact CN|done..|].
            unfold alloc_new. cbn. rewrite next_id_small by done. lia. }
        destruct CA as (CA & SA & DA).
        assert (Hsend : forall who, exists v, d_send dA m i (g_id g) (d_details_map sid m who) callee
                  = Ret dA (DMsg (MInvocation v) callee) /\ in_registration v = p_id r).
        { intros who. unfold d_send. rewrite SA, <- Es, Hsc. eexists. split; [done|].
          rewrite details_map_spec, invocation_spec. unfold invocation_for.
          rewrite <- (sh_gid _ _ _ Sh). by destruct (_ && _). }
        rewrite DA. destruct (d_details d) eqn:D.
        -- cbn in Pol. rewrite <- (ci_details _ _ I), D in Pol. specialize (Pol eq_refl).
           apply present_as_present in Pol as [w Hw]. apply (ci_sess _ _ I) in Hw.
           rewrite Es in Hw. rewrite SA, Hw. destruct (Hsend (Some w)) as (v & -> & Hv).
           eexists dA, _, _. split; [done|]. split; [exact (rs_call (PTable rows dead ss) sid m q r callee nx v Hro Pk Hv)|]. done.
        -- destruct (Hsend None) as (v & -> & Hv).
           eexists dA, _, _. split; [done|]. split; [exact (rs_call (PTable rows dead ss) sid m q r callee nx v Hro Pk Hv)|]. done.
      * assert (Href : d_call o d sid m = Ret d (no_such m sid)).
        { unfold d_call. destruct HF as [->|(l & g & -> & -> & E)]; [done|]. by rewrite decide_True. }
        unfold d_call in Href. rewrite Href.
        eexists _, _, _. split; [done|]. split; [by apply rs_call_refused|]. done.
    + (* REGISTER *)
      destruct (d_register d sid m) as [d' out|w] eqn:E.
      2:{ exfalso. unfold d_register in E. destruct (d_by_session d !! sid); [|discriminate].
          destruct (d_by_proc d !! rg_procedure m) as [l|] eqn:P; [|discriminate].
          destruct (dc_proc _ _ _ _ C _ _ P) as [r Hr].
          destruct (dc_row _ _ _ _ C _ _ Hr) as (l' & gg & O1 & O2 & _). assert (l' = l) as -> by congruence.
          rewrite O2 in E. destruct (_ || _); discriminate. }
      exists d', out. destruct (register_cases _ _ _ _ _ E) as
        [(M & -> & e & ->)|(mine & M & [(l & g & P & L & H & -> & ->)|[(l & g & P & L & I1 & I2 & I3 & -> & ->)|(P & -> & ->)]])].
      * exists s. split; [done|]. split; [apply rs_register_err|done].
        rewrite <- Es. apply eq_None_not_Some. rewrite <- (ci_dom _ _ I), M. by intros [? ?].
      * assert (Hat : is_Some (pt_sessions s !! sid)).
        { rewrite <- Es. apply (ci_dom _ _ I). rewrite M. by eexists. }
        destruct (dc_proc _ _ _ _ C _ _ P) as [r Hr].
        destruct (dc_row _ _ _ _ C _ _ Hr) as (l' & g' & O1 & O2 & Sh). assert (l' = l) as -> by congruence.
        assert (g' = g) as -> by congruence.
        exists s. split; [done|]. split; [|done]. apply (rs_register_refused s sid m r); try done.
        by rewrite <- (sh_invoke _ _ _ Sh).
      * assert (Hat : is_Some (pt_sessions s !! sid)).
        { rewrite <- Es. apply (ci_dom _ _ I). rewrite M. by eexists. }
        destruct (dc_proc _ _ _ _ C _ _ P) as [r Hr].
        destruct (dc_row _ _ _ _ C _ _ Hr) as (l' & g' & O). pose proof O as (O1 & O2 & Sh).
        assert (l' = l) as -> by congruence. assert (g' = g) as -> by congruence.
        destruct (dc_wf _ _ _ _ C _ _ Hr) as (Hnd & Hne & Hle).
        assert (Hnin : sid ∉ p_callees r).
        { intros Hin. cbn in Pol. destruct Pol as [HH|HH]; [|congruence..].
          exists (p_id r). apply Ho. by exists r. }
        eexists. split; [done|]. rewrite (sh_gid _ _ _ Sh).
        split; [apply (rs_register_join s sid m r); try done; rewrite <- (sh_invoke _ _ _ Sh); done|].
        split; [|done]. cbn [with_rows pt_rows pt_dead join_d d_by_session].
        eapply (core_update d _ (pt_rows s) (pt_dead s) _ _ (rg_procedure m) l g r); try done.
        -- cbn. by rewrite insert_id.
        -- constructor; cbn [g_proc g_id g_match g_invoke g_next g_callees g_regs p_id p_match p_invoke p_callees p_turn];
             try apply Sh.
           ++ by rewrite (sh_callees _ _ _ Sh).
           ++ intros c. rewrite elem_of_app, elem_of_list_singleton, <- (sh_regs _ _ _ Sh).
              destruct (decide (sid = c)) as [<-|n].
              ** rewrite lookup_insert. split; [by right|by eexists].
              ** rewrite lookup_insert_ne by done. split; [by left|]. intros [?|?]; [done|congruence].
        -- cbn [p_callees]. apply NoDup_app. split; [done|]. split; [|apply NoDup_singleton].
           intros c Hc ->%elem_of_list_singleton. done.
        -- cbn [p_callees]. intros HH. apply app_eq_nil in HH as [_ ?]. done.
        -- cbn [p_callees]. intros c [Hc|Hc%elem_of_list_singleton]%elem_of_app; [by eapply (dc_att _ _ _ _ C)|].
           subst c. rewrite M. by eexists.
        -- intros x. cbn [join_d d_wild p_indexed]. rewrite (dc_wild _ _ _ _ C). split.
           ++ intros (? & r' & ? & ? & ?). assert (r' = r) as -> by congruence. split; [congruence|done].
           ++ intros (-> & ? & ?). split; [done|]. by exists r.
        -- cbn [p_callees]. split.
           ++ intros x. destruct (decide (sid = x)) as [<-|n].
              ** rewrite lookup_insert, M. split; by eexists.
              ** by rewrite lookup_insert_ne.
           ++ intros x m0 m1 H0 H1. destruct (decide (sid = x)) as [<-|n].
              ** rewrite lookup_insert in H1. injection H1 as <-. assert (m0 = mine) as -> by congruence.
                 rewrite (sh_gid _ _ _ Sh). split.
                 --- intros i Hi. rewrite lookup_insert_ne; [done|congruence].
                 --- rewrite lookup_insert, decide_True; [done|]. apply elem_of_app. right. by left.
              ** rewrite lookup_insert_ne in H1 by done. assert (m1 = m0) as -> by congruence. split; [done|].
                 destruct (decide (x ∈ p_callees r ++ [sid])) as [Hx|Hx].
                 --- apply elem_of_app in Hx as [Hx|Hx%elem_of_list_singleton]; [|congruence].
                     apply (dc_mine _ _ _ _ C _ _ _ _ H0). by exists (rg_procedure m), r.
                 --- destruct (m0 !! p_id r) as [y|] eqn:Ey; [|done]. exfalso.
                     apply (dc_mine _ _ _ _ C _ _ _ _ H0) in Ey as (q' & rq & Q1 & Q2 & Q3 & Q4).
                     assert (q' = rg_procedure m) as -> by (by eapply dc_ids).
                     assert (rq = r) as -> by congruence. apply Hx, elem_of_app. by left.
      * assert (Hat : is_Some (pt_sessions s !! sid)).
        { rewrite <- Es. apply (ci_dom _ _ I). rewrite M. by eexists. }
        assert (Hn : pt_rows s !! rg_procedure m = None).
        { destruct (pt_rows s !! rg_procedure m) as [r|] eqn:Hr; [|done].
          destruct (dc_row _ _ _ _ C _ _ Hr) as (l' & g' & O1 & _). congruence. }
        eexists. split; [done|]. rewrite (next_id_small _ Hb).
        split; [apply rs_register_new; try done|].
        { intros p r Hr. destruct (dc_wf _ _ _ _ C _ _ Hr) as (_ & _ & ?). lia. }
        cbn [pt_rows pt_dead pt_sessions]. split; [|done].
        unfold create_d at 2. rewrite (next_id_small _ Hb). cbn [d_by_session].
        eapply core_create; try done. intros q.
        destruct (decide (requested_policy (rg_options m) = PPrefix)) as [Ep|Ep].
        -- rewrite elem_of_difference, elem_of_singleton. tauto.
        -- tauto.
    + (* UNREGISTER *)
      cbn in Pol. destruct Pol as [(p & Hown & Honly)|Hnone].
      * apply Ho in Hown as (r & Hr & Hid & Hin).
        destruct (dc_row _ _ _ _ C _ _ Hr) as (l & g & O). pose proof O as (O1 & O2 & Sh).
        destruct (dc_wf _ _ _ _ C _ _ Hr) as (Hnd & Hne & Hle).
        assert (Hcs : p_callees r = [sid]).
        { assert (Hall : forall c, c ∈ p_callees r -> c = sid).
          { intros c Hc. apply (Honly c p). apply Ho. by exists r. }
          destruct (p_callees r) as [|c1 [|c2 cs]]; [done| |].
          - f_equal. apply Hall. by left.
          - exfalso. apply NoDup_cons in Hnd as [Hx _]. apply Hx.
            rewrite (Hall c1) by (by left). rewrite (Hall c2) by (right; by left). by left. }
        destruct (dc_att _ _ _ _ C _ _ _ Hr Hin) as [mine M].
        assert (Hm : mine !! ur_registration m = Some l).
        { apply (dc_mine _ _ _ _ C _ _ _ _ M). by exists p, r. }
        assert (Rg : delete sid (g_regs g) = ∅).
        { apply map_empty. intros c. apply eq_None_not_Some. rewrite (delete_regs _ _ _ _ Sh).
          intros [n Hc]. rewrite Hcs in Hc. by apply elem_of_list_singleton in Hc. }
        assert (Hat : is_Some (pt_sessions s !! sid)).
        { rewrite <- Es. apply (ci_dom _ _ I). rewrite M. by eexists. }
        destruct (d_unregister d sid m) as [d' out|w] eqn:E.
        2:{ exfalso. unfold d_unregister in E. rewrite M, Hm, O2 in E.
            destruct (decide (mine = ∅)); discriminate. }
        exists d', out. destruct (unregister_cases _ _ _ _ _ E) as
          [([HH|HH] & _)|(mine' & l' & g' & M' & Hm' & L' & -> & ->)].
        { congruence. }
        { rewrite M in HH. injection HH as ->. by rewrite lookup_empty in Hm. }
        assert (mine' = mine) as -> by congruence. assert (l' = l) as -> by congruence.
        assert (g' = g) as -> by congruence.
        eexists. split; [done|]. split; [by eapply (rs_unregister s sid m p r)|].
        cbn [pt_rows pt_dead pt_sessions]. unfold unreg_d. rewrite !(decide_True _ _ Rg).
        split; [|done]. cbn [d_by_session].
        eapply (core_delete d _ (pt_rows s) (pt_dead s) _ _ p l g r); try done.
        -- cbn. by rewrite (sh_proc _ _ _ Sh).
        -- intros q Hq. cbn [d_wild]. destruct (decide (g_match g = m_wildcard)); [|done].
           by rewrite (sh_proc _ _ _ Sh), lookup_delete_ne.
        -- cbn [d_wild]. destruct (decide (g_match g = m_wildcard)) as [|n].
           ++ rewrite (sh_proc _ _ _ Sh). apply lookup_delete.
           ++ destruct (d_wild d !! p) as [y|] eqn:Ey; [|done].
              apply (dc_wild _ _ _ _ C) in Ey as (_ & r' & R' & HH & _). exfalso. apply n.
              rewrite (sh_match _ _ _ Sh). assert (r' = r) as -> by congruence. by rewrite HH.
        -- intros q. destruct (decide (p_match r = PPrefix)).
           ++ rewrite elem_of_union, elem_of_singleton. tauto.
           ++ tauto.
        -- split.
           ++ intros x. destruct (decide (sid = x)) as [<-|n].
              ** rewrite lookup_insert, M. split; by eexists.
              ** by rewrite lookup_insert_ne.
           ++ intros x m0 m1 H0 H1. rewrite decide_False by (by intros ?%elem_of_nil).
              destruct (decide (sid = x)) as [<-|n].
              ** rewrite lookup_insert in H1. injection H1 as <-. assert (m0 = mine) as -> by congruence. split.
                 --- intros i Hi. rewrite lookup_delete_ne; [done|congruence].
                 --- rewrite Hid. apply lookup_delete.
              ** rewrite lookup_insert_ne in H1 by done. assert (m1 = m0) as -> by congruence. split; [done|].
                 destruct (m0 !! p_id r) as [y|] eqn:Ey; [|done]. exfalso.
                 apply (dc_mine _ _ _ _ C _ _ _ _ H0) in Ey as (q' & rq & Q1 & Q2 & Q3 & Q4).
                 assert (q' = p) as -> by (by eapply dc_ids). assert (rq = r) as -> by congruence.
                 rewrite Hcs in Q4. apply elem_of_list_singleton in Q4. congruence.
      * assert (Hrow : forall p r, pt_rows s !! p = Some r -> sid ∉ p_callees r).
        { intros p r Hr Hin. apply (Hnone p (p_id r)), Ho. by exists r. }
        unfold d_unregister. destruct (d_by_session d !! sid) as [mine|] eqn:M.
        -- assert (mine = ∅) as ->.
           { apply map_empty. intros i. destruct (mine !! i) as [l|] eqn:E; [|done]. exfalso.
             apply (dc_mine _ _ _ _ C _ _ _ _ M) in E as (q & r & _ & Hr & _ & Hin). by eapply Hrow. }
           rewrite decide_True by done. eexists _, _, _. split; [done|].
           split; [by apply rs_unregister_err|done].
        -- eexists _, _, _. split; [done|]. split; [by apply rs_unregister_err|done].
    + (* YIELD *)
      destruct (d_yield d m) as [d' out|w] eqn:E.
      2:{ exfalso. unfold d_yield in E. destruct (d_pending d !! yi_request m); [|discriminate].
          destruct (d_sessions _ !! _); discriminate. }
      eexists d', out, s. split; [done|]. split.
      { apply rs_other; [done|].
        by destruct (yield_cases _ _ _ _ E) as [(_ & _ & ->)|(p & _ & _ & [[_ ->]|(x & _ & ->)])]. }
      destruct (yield_cases _ _ _ _ E) as [(_ & -> & _)|(p & _ & -> & _)]; [done|].
      destruct (_ && _); [done|]. split; [|done]. by eapply core_same.
Qed.

Lemma step_drep tr d s o op : drep tr d s -> cinv tr d -> polite tr op -> N.of_nat (length tr) < two53 ->
  exists d' out s', dstep o d op = Ret d' out /\ rstep s op out s' /\ drep ((op, out) :: tr) d' s'.
Proof.
  intros R I Pol Hb. destruct (step_sim tr d s o op R I Pol) as (d' & out & s' & H1 & H2 & H3 & H4).
  { rewrite (ci_ids _ _ I). pose proof (ci_len _ _ I). lia. }
  exists d', out, s'. split; [done|]. split; [done|]. constructor; [done|done|].
  eapply owns_step; [done| | |apply R].
  - intros p p' r r'. apply (dc_ids _ _ _ _ (dp_core _ _ _ R)).
  - intros p r Hr. apply (dc_wf _ _ _ _ (dp_core _ _ _ R) _ _ Hr).
Qed.

(** ** Whole histories *)

Lemma rruns_snoc s0 ops outs s op out s' : rruns s0 ops outs s -> rstep s op out s' ->
  rruns s0 (ops ++ [op]) (outs ++ [out]) s'.
Proof.
  induction 1 as [s1|s1 o1 u1 s2 ops outs s3 H1 H2 IH]; intros H.
  - cbn. econstructor; [done|]. constructor.
  - cbn. econstructor; [done|]. by apply IH.
Qed.

Lemma polite_prefix h1 h2 : polite_history (h1 ++ h2) -> polite_history h1.
Proof.
  intros H a o op b d outs E HR. apply (H a o op (b ++ h2) d outs); [|done].
  rewrite E, <- app_assoc. done.
Qed.

Lemma run_drep_from h0 d0 outs0 s0 h : drun new_dealer h0 = Ret d0 outs0 ->
  drep (dtrace_of h0 outs0) d0 s0 ->
  polite_history (h0 ++ h) -> N.of_nat (length (h0 ++ h)) <= two53 ->
  exists d outs s, drun d0 h = Ret d outs /\ rruns s0 (map snd h) outs s
    /\ drep (dtrace_of (h0 ++ h) (outs0 ++ outs)) d s.
Proof.
  intros H0 R0. induction h as [|[o op] h IH] using rev_ind; intros Hp Hb.
  { eexists _, _, _. split; [done|]. split; [constructor|]. by rewrite !app_nil_r. }
  rewrite !app_length in Hb. cbn [length] in Hb.
  destruct IH as (d & outs & s & H1 & H2 & H3).
  { rewrite app_assoc in Hp. by eapply polite_prefix. }
  { rewrite app_length. lia. }
  assert (H01 : drun new_dealer (h0 ++ h) = Ret d (outs0 ++ outs)).
  { by rewrite drun_app, H0, H1. }
  destruct (run_cinv (h0 ++ h) d (outs0 ++ outs) ltac:(rewrite app_length; lia) H01) as [I Hl].
  destruct (step_drep _ _ _ o op H3 I) as (d' & out & s' & K1 & K2 & K3).
  - apply (Hp (h0 ++ h) o op [] d (outs0 ++ outs)); [by rewrite app_assoc|done].
  - rewrite Hl, app_length. lia.
  - exists d', (outs ++ [out]), s'. split; [by eapply drun_snoc|]. split.
    + rewrite map_app. by eapply rruns_snoc.
    + rewrite !app_assoc. rewrite dtrace_snoc; [done|]. by eapply drun_length.
Qed.
Lemma run_drep h : polite_history h -> N.of_nat (length h) <= two53 ->
  exists d outs s, drun new_dealer h = Ret d outs /\ rruns empty_ptable (map snd h) outs s
    /\ drep (dtrace_of h outs) d s.
Proof. intros Hp Hb. exact (run_drep_from [] _ _ _ h eq_refl drep_init Hp Hb). Qed.
