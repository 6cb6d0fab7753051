(** A procedure that nobody registers to be shared, whatever else happens. *)
From Verif Require Import Prelude Value Msg IdGen Types PathMatch Dealer DealerSpec DealerKind.
From Verif Require Import BaseSpec BaseFacts TypesFacts DealerFacts DealerCases DealerCalls DealerRegs.
From Verif Require Import DealerSim DealerStep DealerProofs DealerPolite DealerKindProofs HostileDealer.

Section Sole.
Context (p : string).

Definition alone (op : dop) (out : dout) : Prop :=
  match op, out with
  | DReceive _ (MRegister m), DMsg (MRegistered _) _ => rg_procedure m = p -> unshared (invoke_policy m)
  | _, _ => True
  end.

Record sole (tr : dtrace) (d : dealer) : Prop := Sole {
  so_live : forall l g, d_heap d !! l = Some g -> g_proc g = p -> g_regs g <> ∅ -> d_by_proc d !! p = Some l;
  so_proc : forall l g, d_by_proc d !! p = Some l -> d_heap d !! l = Some g ->
      exists c, unshared (g_invoke g) /\ g_regs g = {[c := c]} /\ g_callees g = [c] /\ books d c (g_id g) = Some l;
  so_books : forall c i l g, books d c i = Some l -> d_heap d !! l = Some g -> g_proc g = p ->
      d_by_proc d !! p = Some l /\ is_Some (g_regs g !! c);
  so_owns : forall c i, owns tr c p i <->
      exists l g, d_by_proc d !! p = Some l /\ d_heap d !! l = Some g /\ g_id g = i /\ is_Some (g_regs g !! c) }.

Lemma sole_init : sole [] new_dealer.
Proof.
  constructor; intros *; cbn; rewrite ?lookup_empty; try discriminate.
  split; [done|]. by intros (l & g & H & _).
Qed.

Lemma sole_quiet e tr d d' : sole tr d -> quiet e ->
  (forall l, face <$> d_heap d' !! l = face <$> d_heap d !! l) -> d_by_proc d' = d_by_proc d ->
  (forall c i, books d' c i = books d c i) -> sole (e :: tr) d'.
Proof.
  intros V Q Hh Hp Hb.
  assert (Heap : forall l g', d_heap d' !! l = Some g' -> exists g, d_heap d !! l = Some g /\ face g' = face g).
  { intros l g' H. specialize (Hh l). rewrite H in Hh. destruct (d_heap d !! l) as [g|]; [|discriminate].
    injection Hh as E1 E2 E3 E4 E5. exists g. split; [done|]. unfold face. congruence. }
  assert (Back : forall l g, d_heap d !! l = Some g -> exists g', d_heap d' !! l = Some g' /\ face g' = face g).
  { intros l g H. specialize (Hh l). rewrite H in Hh. destruct (d_heap d' !! l) as [g'|]; [|discriminate].
    injection Hh as E1 E2 E3 E4 E5. exists g'. split; [done|]. unfold face. congruence. }
  constructor; rewrite ?Hp.
  - intros l g' H. destruct (Heap _ _ H) as (g & Hg & E). injection E as E1 E2 E3 E4 E5. rewrite E2, E3.
    by apply (so_live _ _ V).
  - intros l g' Hl H. destruct (Heap _ _ H) as (g & Hg & E). injection E as E1 E2 E3 E4 E5. rewrite E1, E3, E4, E5.
    setoid_rewrite Hb. by apply (so_proc _ _ V).
  - intros c i l g' Hl H. destruct (Heap _ _ H) as (g & Hg & E). injection E as E1 E2 E3 E4 E5. rewrite E2, E3.
    rewrite Hb in Hl. by apply (so_books _ _ V _ _ _ _ Hl).
  - intros c i. rewrite (quiet_owns _ _ _ _ _ Q), (so_owns _ _ V). split.
    + intros (l & g & H1 & H2 & H3 & H4). destruct (Back _ _ H2) as (g' & Hg & E). injection E as E1 E2 E3 E4 E5.
      exists l, g'. rewrite E1, E3. done.
    + intros (l & g' & H1 & H2 & H3 & H4). destruct (Heap _ _ H2) as (g & Hg & E). injection E as E1 E2 E3 E4 E5.
      exists l, g. rewrite <- E1, <- E3. done.
Qed.
Ltac squiet := eapply sole_quiet; [eassumption|split; cbn; intros; tauto|try done|try done|try done].

Lemma sole_add tr d s d' out : sole tr d -> DealerCalls.cinv tr d -> d_add_session d s = Ret d' out ->
  sole ((DAdd s, out) :: tr) d'.
Proof.
  intros V C. unfold d_add_session. destruct (d_sessions d !! se_id s) eqn:E; intros H; injection H as <- <-.
  { by squiet. }
  squiet. intros c i. unfold books. cbn [d_by_session dset_sessions dset_by_session].
  destruct (decide (se_id s = c)) as [<-|n]; [|by rewrite lookup_insert_ne].
  rewrite lookup_insert. cbn. rewrite lookup_empty.
  destruct (d_by_session d !! se_id s) eqn:B; [|done].
  destruct (proj1 (ci_dom _ _ C (se_id s))) as [? ?]; [by eexists|]. congruence.
Qed.

Lemma sole_register tr d c m d' out : sole tr d -> DealerCalls.cinv tr d -> ginv tr d -> uinv tr d -> d_idgen d < two53 ->
  alone (DReceive c (MRegister m)) out -> d_register d c m = Ret d' out ->
  sole ((DReceive c (MRegister m), out) :: tr) d'.
Proof.
  intros V C G U Hid Hpol H.
  destruct (register_cases _ _ _ _ _ H) as
    [(_ & -> & e & ->)|(mine & M & [(l & g & P & L & _ & -> & ->)|[(l & g & P & L & I1 & I2 & I3 & -> & ->)|(P & -> & ->)]])].
  - by squiet.
  - by squiet.
  - (* joining: another procedure *)
    assert (Hne : rg_procedure m <> p).
    { intros E. rewrite E in P. destruct (so_proc _ _ V _ _ P L) as (x & [F|F] & _); congruence. }
    destruct (gi_proc _ _ G _ _ P) as (g1 & L1 & Ep). assert (g1 = g) as -> by congruence. clear L1.
    assert (Hb : forall x i l0 g0, d_heap d !! l0 = Some g0 -> g_proc g0 = p ->
       books (join_d d c mine l g (rg_procedure m)) x i = Some l0 <-> books d x i = Some l0).
    { intros x i l0 g0 H0 Hp. unfold books. cbn [join_d d_by_session].
      destruct (decide (c = x)) as [<-|n]; [|by rewrite lookup_insert_ne]. rewrite lookup_insert, M. cbn.
      destruct (decide (g_id g = i)) as [<-|n]; [|by rewrite lookup_insert_ne]. rewrite lookup_insert. split.
      - intros E; injection E as <-. congruence.
      - intros E. destruct (gi_sess _ _ G _ _ _ _ M E) as (g1 & L1 & E1). assert (l0 = l) by (eapply (ui_ids _ _ U); eauto).
        congruence. }
    constructor; cbn [join_d d_heap d_by_proc].
    + intros l0 g0. destruct (decide (l = l0)) as [<-|n].
      * rewrite lookup_insert. intros E; injection E as <-. cbn [g_proc]. congruence.
      * rewrite !lookup_insert_ne by done. apply (so_live _ _ V).
    + intros l0 g0. rewrite lookup_insert_ne by done. intros P0. destruct (decide (l = l0)) as [<-|n].
      * destruct (gi_proc _ _ G _ _ P0) as (g1 & L1 & Ep1). congruence.
      * rewrite lookup_insert_ne by done. intros L0. destruct (gi_proc _ _ G _ _ P0) as (g1 & L1 & Ep1).
        assert (g1 = g0) as -> by congruence.
        destruct (so_proc _ _ V _ _ P0 L0) as (x & H1 & H2 & H3 & H4). exists x. do 3 (split; [done|]).
        by eapply (Hb x (g_id g0) l0 g0).
    + intros x i l0 g0 B0. destruct (decide (l = l0)) as [<-|n].
      * rewrite lookup_insert. intros E; injection E as <-. cbn [g_proc]. congruence.
      * rewrite !lookup_insert_ne by done. intros L0 Hp0. rewrite (Hb x i l0 g0 L0 Hp0) in B0. by eapply (so_books _ _ V).
    + intros x i. match goal with |- _ <-> ?R => change (owns (registering c m (g_id g) :: tr) x p i <-> R) end. rewrite owns_registering, (so_owns _ _ V).
      rewrite lookup_insert_ne by done. split.
      * intros [(_ & E & _)|(l0 & g0 & H1 & H2 & H3 & H4)]; [congruence|]. exists l0, g0.
        rewrite lookup_insert_ne; [done|]. intros <-. destruct (gi_proc _ _ G _ _ H1) as (g1 & L1 & Ep1). congruence.
      * intros (l0 & g0 & H1 & H2 & H3 & H4). right. exists l0, g0.
        rewrite lookup_insert_ne in H2; [done|]. intros <-. destruct (gi_proc _ _ G _ _ H1) as (g1 & L1 & Ep1). congruence.
  - (* creating *)
    assert (Hf : d_heap d !! d_fresh d = None).
    { destruct (d_heap d !! d_fresh d) eqn:E; [|done]. apply (gi_fresh _ _ G) in E. lia. }
    assert (Hb : forall x i l0 g0, d_heap d !! l0 = Some g0 ->
       books (create_d d c mine (rg_procedure m) (invoke_policy m) (requested_policy (rg_options m))) x i = Some l0
       <-> books d x i = Some l0).
    { intros x i l0 g0 H0. unfold books, create_d. cbn [d_by_session].
      destruct (decide (c = x)) as [<-|n]; [|by rewrite lookup_insert_ne]. rewrite lookup_insert, M. cbn.
      destruct (decide (next_id (d_idgen d) = i)) as [<-|n]; [|by rewrite lookup_insert_ne]. rewrite lookup_insert. split.
      - intros E; injection E as <-. congruence.
      - intros E. destruct (gi_sess _ _ G _ _ _ _ M E) as (g1 & L1 & E1). apply (ci_heap_bound _ _ C) in L1.
        rewrite next_id_small in E1 by done. lia. }
    assert (Hn : forall x i l0, books (create_d d c mine (rg_procedure m) (invoke_policy m) (requested_policy (rg_options m))) x i = Some l0 ->
        l0 = d_fresh d -> x = c).
    { intros x i l0 B ->. destruct (decide (c = x)) as [|n]; [done|]. unfold books, create_d in B. cbn [d_by_session] in B.
      rewrite lookup_insert_ne in B by done. change (books d x i = Some (d_fresh d)) in B.
      destruct (books_heap _ _ _ _ _ G B) as (? & ? & _ & _ & ? & _). congruence. }
    destruct (decide (rg_procedure m = p)) as [E|E].
    + rewrite E in P.
      assert (Dead : forall l g, d_heap d !! l = Some g -> g_proc g = p -> g_regs g = ∅).
      { intros l g L Ep. destruct (decide (g_regs g = ∅)); [done|].
        pose proof (so_live _ _ V _ _ L Ep ltac:(done)). congruence. }
      constructor.
      * intros l g. unfold create_d. cbn [d_heap d_by_proc]. rewrite E, lookup_insert. destruct (decide (d_fresh d = l)) as [<-|n]; [done|].
        rewrite lookup_insert_ne by done. intros L Ep Hr. by apply Dead in L.
      * intros l g. unfold create_d at 1 2. cbn [d_heap d_by_proc]. rewrite E, lookup_insert. intros F; injection F as <-.
        rewrite lookup_insert. intros F; injection F as <-. exists c. cbn [g_invoke g_regs g_callees g_id].
        split; [by apply Hpol|]. split; [done|]. split; [done|]. unfold books, create_d. cbn [d_by_session].
        rewrite lookup_insert. cbn. apply lookup_insert.
      * intros x i l g B. pose proof (Hn _ _ _ B) as Hx. revert B. unfold create_d at 2 3. cbn [d_heap d_by_proc].
        rewrite E, lookup_insert. destruct (decide (d_fresh d = l)) as [<-|n].
        -- intros B. rewrite lookup_insert. intros F; injection F as <-. intros _. split; [done|]. cbn [g_regs].
           rewrite (Hx eq_refl), lookup_singleton. by eexists.
        -- rewrite lookup_insert_ne by done. intros B L Ep. rewrite <- E, (Hb _ _ _ _ L) in B.
           destruct (so_books _ _ V _ _ _ _ B L Ep). congruence.
      * intros x i. match goal with |- _ <-> ?R => change (owns (registering c m (next_id (d_idgen d)) :: tr) x p i <-> R) end. rewrite owns_registering, (so_owns _ _ V).
        unfold create_d. cbn [d_heap d_by_proc]. rewrite E, lookup_insert, P. split.
        -- intros [(-> & _ & ->)|(l & g & ? & _)]; [|done]. exists (d_fresh d). eexists. rewrite lookup_insert.
           split; [done|]. split; [done|]. cbn. split; [done|]. rewrite lookup_singleton. by eexists.
        -- intros (l & g & F & L & <- & Hr). injection F as <-. rewrite lookup_insert in L. injection L as <-. left.
           cbn in Hr. destruct Hr as [z [<- _]%lookup_singleton_Some]. done.
    + constructor.
      * intros l g. unfold create_d. cbn [d_heap d_by_proc]. rewrite (lookup_insert_ne (d_by_proc d)) by done.
        destruct (decide (d_fresh d = l)) as [<-|n].
        -- rewrite lookup_insert. intros F; injection F as <-. done.
        -- rewrite lookup_insert_ne by done. apply (so_live _ _ V).
      * intros l g. unfold create_d at 1 2. cbn [d_heap d_by_proc]. rewrite lookup_insert_ne by done. intros P0.
        destruct (gi_proc _ _ G _ _ P0) as (g1 & L1 & Ep1).
        rewrite lookup_insert_ne by congruence. intros L. destruct (so_proc _ _ V _ _ P0 L) as (x & H1 & H2 & H3 & H4).
        exists x. do 3 (split; [done|]). by eapply Hb.
      * intros x i l g. unfold create_d at 2 3. cbn [d_heap d_by_proc]. rewrite (lookup_insert_ne (d_by_proc d)) by done.
        destruct (decide (d_fresh d = l)) as [<-|n].
        -- intros _. rewrite lookup_insert. intros F; injection F as <-. done.
        -- rewrite lookup_insert_ne by done. intros B L. rewrite (Hb _ _ _ _ L) in B. by apply (so_books _ _ V _ _ _ _ B).
      * intros x i. match goal with |- _ <-> ?R => change (owns (registering c m (next_id (d_idgen d)) :: tr) x p i <-> R) end. rewrite owns_registering, (so_owns _ _ V).
        unfold create_d. cbn [d_heap d_by_proc]. rewrite lookup_insert_ne by done. split.
        -- intros [(_ & F & _)|(l & g & H1 & H2 & H3)]; [congruence|]. exists l, g. rewrite lookup_insert_ne by congruence. done.
        -- intros (l & g & H1 & H2 & H3). right. exists l, g. destruct (gi_proc _ _ G _ _ H1) as (g1 & L1 & Ep1).
           rewrite lookup_insert_ne in H2 by congruence. done.
Qed.

Lemma sole_unregister tr d c u d' out : sole tr d -> ginv tr d -> uinv tr d -> d_unregister d c u = Ret d' out ->
  sole ((DReceive c (MUnregister u), out) :: tr) d'.
Proof.
  intros V G U H.
  destruct (unregister_cases _ _ _ _ _ H) as [(_ & -> & e & ->)|(mine & l & g & M & L1 & L2 & -> & ->)].
  { by squiet. }
  destruct (gi_sess _ _ G _ _ _ _ M L1) as (g' & L3 & Eid). assert (g' = g) as -> by congruence. clear L3.
  assert (B1 : books d c (ur_registration u) = Some l) by (unfold books; by rewrite M).
  assert (HH : d_heap (unreg_d d c mine (ur_registration u) l g) = <[l := leave_g c g]> (d_heap d))
    by (unfold unreg_d; by destruct (decide _)).
  assert (HB : forall x i, x <> c \/ i <> ur_registration u ->
     books (unreg_d d c mine (ur_registration u) l g) x i = books d x i).
  { intros x i Hxi. unfold unreg_d, books. destruct (decide _); cbn [d_by_session dset_heap]; [|done].
    destruct (decide (c = x)) as [->|n]; [|by rewrite lookup_insert_ne].
    rewrite lookup_insert, M. cbn. rewrite lookup_delete_ne; [done|]. destruct Hxi; congruence. }
  change (sole (unregistering c u :: tr) (unreg_d d c mine (ur_registration u) l g)).
  destruct (decide (g_proc g = p)) as [Ep|Ep].
  - destruct (so_books _ _ V _ _ _ _ B1 L2 Ep) as [P [z Hz]].
    destruct (so_proc _ _ V _ _ P L2) as (x & H1 & H2 & H3 & H4).
    rewrite H2 in Hz. apply lookup_singleton_Some in Hz as [-> <-].
    assert (Hd : delete c (g_regs g) = ∅) by (by rewrite H2, delete_singleton).
    assert (Hp : d_by_proc (unreg_d d c mine (ur_registration u) l g) !! p = None).
    { unfold unreg_d. rewrite decide_True by done. cbn [d_by_proc]. rewrite Ep. apply lookup_delete. }
    assert (Dead : forall l0 g0, d_heap (unreg_d d c mine (ur_registration u) l g) !! l0 = Some g0 -> g_proc g0 = p -> g_regs g0 = ∅).
    { intros l0 g0. rewrite HH. destruct (decide (l = l0)) as [<-|n].
      - rewrite lookup_insert. intros E; injection E as <-. done.
      - rewrite lookup_insert_ne by done. intros L0 E0. destruct (decide (g_regs g0 = ∅)); [done|].
        pose proof (so_live _ _ V _ _ L0 E0 ltac:(done)). congruence. }
    constructor; rewrite ?Hp.
    + intros l0 g0 L0 E0 Hr. by apply Dead in L0.
    + done.
    + intros x i l0 g0 B0 L0 E0. exfalso.
      assert (Hx : x <> c \/ i <> ur_registration u).
      { destruct (decide (x = c)) as [->|]; [|by left]. right. intros ->.
        unfold unreg_d, books in B0. rewrite decide_True in B0 by done. cbn [d_by_session] in B0.
        rewrite lookup_insert in B0. cbn in B0. by rewrite lookup_delete in B0. }
      rewrite (HB _ _ Hx) in B0. destruct (books_heap _ _ _ _ _ G B0) as (mine0 & g1 & M0 & B & L & E).
      assert (g_proc g1 = p) as Ep1.
      { rewrite HH in L0. destruct (decide (l = l0)) as [<-|n]; [congruence|]. rewrite lookup_insert_ne in L0 by done. congruence. }
      destruct (so_books _ _ V _ _ _ _ B0 L Ep1) as [P1 [z Hz]]. assert (l0 = l) as -> by congruence.
      assert (g1 = g) as -> by congruence. rewrite H2 in Hz. apply lookup_singleton_Some in Hz as [-> _].
      destruct Hx as [?|Hx]; [done|]. congruence.
    + intros x i. rewrite owns_unregistering. split; [|by intros (? & ? & ? & _)].
      intros [(l0 & g0 & F1 & F2 & F3 & [z F4])%(so_owns _ _ V) Hx]. exfalso. apply Hx.
      assert (l0 = l) as -> by congruence. assert (g0 = g) as -> by congruence.
      rewrite H2 in F4. apply lookup_singleton_Some in F4 as [-> _]. split; congruence.
  - assert (Hp : d_by_proc (unreg_d d c mine (ur_registration u) l g) !! p = d_by_proc d !! p).
    { unfold unreg_d. destruct (decide _); [|done]. cbn [d_by_proc]. by rewrite lookup_delete_ne. }
    assert (Hh : forall l0 g0, g_proc g0 = p ->
       d_heap (unreg_d d c mine (ur_registration u) l g) !! l0 = Some g0 <-> d_heap d !! l0 = Some g0).
    { intros l0 g0 E0. rewrite HH. destruct (decide (l = l0)) as [<-|n]; [|by rewrite lookup_insert_ne].
      rewrite lookup_insert. split; intros E; [injection E as <-|]; exfalso; [done|congruence]. }
    assert (Hk : forall x i l0 g0, d_heap d !! l0 = Some g0 -> g_proc g0 = p ->
      books (unreg_d d c mine (ur_registration u) l g) x i = Some l0 <-> books d x i = Some l0).
    { intros x i l0 g0 L0 E0. destruct (decide (x = c /\ i = ur_registration u)) as [[-> ->]|n].
      - rewrite B1. split; [|intros E; injection E as <-; congruence].
        unfold unreg_d, books. destruct (decide _); cbn [d_by_session dset_heap].
        + rewrite lookup_insert. cbn. by rewrite lookup_delete.
        + rewrite M. cbn. rewrite L1. done.
      - rewrite HB; [done|]. destruct (decide (x = c)); [|by left]. right. tauto. }
    assert (Hpl : forall l0 g0, d_by_proc d !! p = Some l0 ->
       d_heap (unreg_d d c mine (ur_registration u) l g) !! l0 = Some g0 -> d_heap d !! l0 = Some g0 /\ g_proc g0 = p).
    { intros l0 g0 P0. destruct (gi_proc _ _ G _ _ P0) as (g1 & F1 & F2). rewrite (proj2 (Hh l0 g1 F2) F1). intros E; by injection E as <-. }
    constructor; rewrite ?Hp.
    + intros l0 g0 L0 E0. apply (so_live _ _ V); [|done]. by apply (Hh _ _ E0).
    + intros l0 g0 P0 [L0 E0]%(Hpl _ _ P0). destruct (so_proc _ _ V _ _ P0 L0) as (x & H1 & H2 & H3 & H4). exists x.
      do 3 (split; [done|]). by apply (Hk _ _ _ _ L0 E0).
    + intros x i l0 g0 B0 L0 E0. apply (Hh _ _ E0) in L0. apply (Hk _ _ _ _ L0 E0) in B0. by eapply (so_books _ _ V).
    + intros x i. rewrite owns_unregistering, (so_owns _ _ V). split.
      * intros [(l0 & g0 & F1 & F2 & F3) _]. exists l0, g0. split; [done|]. split; [|done].
        destruct (gi_proc _ _ G _ _ F1) as (g1 & F4 & F5). apply Hh; [congruence|done].
      * intros (l0 & g0 & F1 & [F2 F5]%(Hpl _ _ F1) & F3 & F4). split; [by exists l0, g0|]. intros [-> ->].
        apply Ep. assert (l = l0) as -> by (eapply (ui_ids _ _ U); [exact L2|exact F2|congruence]). congruence.
Qed.

(** Removal: [p] is untouched, or its only holder is gone. *)
Definition same (d d1 : dealer) : Prop :=
  d_by_proc d1 !! p = d_by_proc d !! p
  /\ forall l g, g_proc g = p -> d_heap d1 !! l = Some g <-> d_heap d !! l = Some g.
Definition gone (x : N) (d d1 : dealer) : Prop :=
  d_by_proc d1 !! p = None /\ (forall l g, d_heap d1 !! l = Some g -> g_proc g = p -> g_regs g = ∅)
  /\ exists l g, d_by_proc d !! p = Some l /\ d_heap d !! l = Some g /\ g_proc g = p /\ g_regs g = {[x := x]}.

Lemma sole_loop tr x d ls : sole tr d -> ginv tr d -> (forall l, l ∈ ls -> exists i, books d x i = Some l) ->
  forall d1 d2 u, ginv tr d1 -> same d d1 \/ gone x d d1 -> shed x d d1 -> d_remove_loop x d1 ls = Ret d2 u ->
  (same d d1 -> (same d d2 /\ forall l g, l ∈ ls -> d_heap d !! l = Some g -> g_proc g <> p) \/ gone x d d2)
  /\ (gone x d d1 -> gone x d d2).
Proof.
  intros V G. induction ls as [|l ls IH]; intros Hls d1 d2 u G1 S1 H1; cbn [d_remove_loop].
  { intros H; injection H as <-. split; [|done]. intros ?. left. split; [done|]. intros l g []%elem_of_nil. }
  destruct (d_remove_body x d1 l) as [d1' u1|w] eqn:B; [|discriminate]. intros H.
  assert (B' : d_remove_loop x d1 [l] = Ret d1' u1) by (cbn [d_remove_loop]; rewrite B; by destruct u1).
  pose proof (ginv_remove_loop _ _ _ _ _ _ G1 B') as G1'.
  pose proof (shed_trans _ _ _ _ H1 (shed_loop _ _ _ _ _ B')) as H1'. clear B'.
  assert (St : (gone x d d1 -> gone x d d1')
    /\ (same d d1 -> (same d d1' /\ forall g, d_heap d !! l = Some g -> g_proc g <> p) \/ gone x d d1')).
  { destruct (d_heap d1 !! l) as [reg|] eqn:L.
    2:{ unfold d_remove_body in B. by rewrite L in B. }
    destruct (sh_down _ _ _ H1 _ _ L) as (reg0 & L0 & _ & Ep0 & _).
    rewrite (remove_body_eq _ _ _ _ L) in B.
    destruct (d_by_proc d1 !! g_proc reg) as [l'|] eqn:P.
    2:{ injection B as <-. split; [done|]. intros S. left. split; [done|]. intros g Hg E.
        assert (g = reg0) as -> by congruence. rewrite Ep0, E, (proj1 S) in P.
        destruct (Hls l ltac:(by left)) as [i Hi]. destruct (so_books _ _ V _ _ _ _ Hi L0 E). congruence. }
    destruct (d_heap d1 !! l') as [g|] eqn:L'; [|discriminate].
    destruct (drop_callee x (g_callees g)) as [cs|] eqn:D; [|discriminate].
    injection B as <-. destruct (gi_proc _ _ G1 _ _ P) as (g1 & L1 & Ep1). assert (g1 = g) as -> by congruence. clear L1.
    destruct (decide (g_proc reg = p)) as [E|E].
    - split.
      + intros (Hn & _). congruence.
      + intros [S1' S2]. right. destruct (Hls l ltac:(by left)) as [i Hi].
        assert (E0 : g_proc reg0 = p) by congruence.
        destruct (so_books _ _ V _ _ _ _ Hi L0 E0) as [P0 [z Hz]].
        assert (l' = l) as -> by (rewrite E in P; congruence).
        assert (reg0 = reg) as -> by (apply (S2 l reg E) in L; congruence).
        assert (g = reg) as -> by congruence.
        destruct (so_proc _ _ V _ _ P0 L0) as (y & F1 & F2 & F3 & F4).
        rewrite F2 in Hz. apply lookup_singleton_Some in Hz as [-> _].
        assert (Hd : delete x (g_regs reg) = ∅) by (by rewrite F2, delete_singleton).
        unfold gone, removed_d. cbn [d_by_proc d_heap]. rewrite decide_True by done. rewrite E, lookup_delete.
        split; [done|]. split; [|by exists l, reg].
        intros l0 g0. destruct (decide (l = l0)) as [<-|n].
        * rewrite lookup_insert. intros Q; injection Q as <-. done.
        * rewrite lookup_insert_ne by done. intros Q Eq. apply (S2 _ _ Eq) in Q.
          destruct (decide (g_regs g0 = ∅)); [done|]. pose proof (so_live _ _ V _ _ Q Eq ltac:(done)). congruence.
    - assert (Hp : d_by_proc (removed_d d1 x l' g cs) !! p = d_by_proc d1 !! p).
      { unfold removed_d. cbn [d_by_proc]. destruct (decide _); [|done]. rewrite lookup_delete_ne by congruence. done. }
      assert (Hh : forall l0 g0, g_proc g0 = p ->
        d_heap (removed_d d1 x l' g cs) !! l0 = Some g0 <-> d_heap d1 !! l0 = Some g0).
      { intros l0 g0 E0. unfold removed_d. cbn [d_heap]. destruct (decide (l' = l0)) as [<-|n]; [|by rewrite lookup_insert_ne].
        rewrite lookup_insert. split; intros Q; [injection Q as <-; cbn in E0|]; exfalso; congruence. }
      split.
      + intros (F1 & F2 & F3). split; [congruence|]. split; [|done]. intros l0 g0 Q Eq. apply (Hh _ _ Eq) in Q. by eapply F2.
      + intros [F1 F2]. left. split.
        * split; [congruence|]. intros l0 g0 Eq. by rewrite (Hh _ _ Eq), (F2 _ _ Eq).
        * intros g0 Q. assert (g0 = reg0) as -> by congruence. congruence. }
  destruct St as [St1 St2].
  destruct (IH (fun l H => Hls l (elem_of_list_further _ _ _ H)) d1' d2 u G1') as [IH1 IH2]; [|done|done|].
  { destruct S1 as [S1|S1]; [|by right; apply St1]. destruct (St2 S1) as [[? _]|?]; [by left|by right]. }
  split; [|by auto]. intros S. destruct (St2 S) as [[S' Hl]|S']; [|right; by auto].
  destruct (IH1 S') as [[S'' Hl']|S'']; [|by right]. left. split; [done|].
  intros l0 g0 [->|Hin]%elem_of_cons; [by apply Hl|by apply Hl'].
Qed.

Lemma sole_remove tr o d x d' out : sole tr d -> ginv tr d -> d_remove_session o d x = Ret d' out ->
  sole ((DRemove x, out) :: tr) d'.
Proof.
  intros V G. unfold d_remove_session. destruct (d_sessions d !! x).
  2:{ intros H; injection H as <- <-. by squiet. }
  set (mine := default ∅ (d_by_session d !! x)).
  assert (Min : forall l, l ∈ map snd (shuf (o_first o) (map_to_list mine)) <-> exists i, books d x i = Some l).
  { intros l. rewrite elem_of_list_fmap. setoid_rewrite elem_of_shuf.
    unfold books, mine. split.
    - intros ([i y] & -> & H%elem_of_map_to_list). exists i. cbn. destruct (d_by_session d !! x); [done|].
      cbn in H. by rewrite lookup_empty in H.
    - intros [i H]. exists (i, l). split; [done|]. apply elem_of_map_to_list.
      destruct (d_by_session d !! x); [done|discriminate]. }
  destruct (d_remove_loop x d _) as [d1 u|w] eqn:L; [|discriminate].
  intros H; injection H as <- <-. pose proof (shed_loop _ _ _ _ _ L) as [B D _].
  assert (S0 : same d d) by done.
  destruct (sole_loop tr x d _ V G (fun l H => proj1 (Min l) H) d d1 u G (or_introl S0) (shed_refl x d) L) as [S _].
  specialize (S S0). clear S0 L.
  set (d2 := dset_sessions _ _).
  assert (Hb : forall c i, books d2 c i = if decide (c = x) then None else books d c i).
  { intros c i. unfold books, d2. cbn [d_by_session dset_sessions dset_by_session]. rewrite B.
    destruct (decide (c = x)) as [->|n]; [by rewrite lookup_delete|by rewrite lookup_delete_ne]. }
  change (sole (removing x :: tr) d2).
  destruct S as [[[S1 S2] Hl]|(S1 & S2 & l0 & g0 & P0 & L0 & E0 & R0)].
  - assert (Hpl : forall l0 g0, d_by_proc d !! p = Some l0 -> d_heap d2 !! l0 = Some g0 -> d_heap d !! l0 = Some g0 /\ g_proc g0 = p).
    { intros l0 g0 P0. destruct (gi_proc _ _ G _ _ P0) as (g1 & F1 & F2). unfold d2. cbn [d_heap dset_sessions dset_by_session].
      rewrite (proj2 (S2 l0 g1 F2) F1). intros E; by injection E as <-. }
    assert (Nx : forall l g c, d_by_proc d !! p = Some l -> d_heap d !! l = Some g -> g_regs g = {[c := c]} -> c <> x).
    { intros l g c P Lg Hr ->. destruct (so_proc _ _ V _ _ P Lg) as (y & F1 & F2 & F3 & F4).
      assert (y = x) as ->. { rewrite F2 in Hr. assert (({[y := y]} : gmap N N) !! y = Some y) as Q by apply lookup_singleton.
        rewrite Hr in Q. by apply lookup_singleton_Some in Q as [? _]. }
      destruct (gi_proc _ _ G _ _ P) as (g1 & G2 & G3). assert (g1 = g) as -> by congruence.
      eapply Hl; [|exact Lg|done]. apply Min. eauto. }
    constructor.
    + intros l g Hg Ep Hr. unfold d2. cbn [d_by_proc dset_sessions dset_by_session]. rewrite S1.
      apply (so_live _ _ V l g); [|done..]. by apply S2.
    + intros l g. unfold d2 at 1. cbn [d_by_proc dset_sessions dset_by_session]. rewrite S1. intros P [Lg Ep]%(Hpl _ _ P).
      destruct (so_proc _ _ V _ _ P Lg) as (y & F1 & F2 & F3 & F4). exists y. do 3 (split; [done|]).
      rewrite Hb, decide_False; [done|]. by eapply Nx.
    + intros c i l g. rewrite Hb. destruct (decide (c = x)) as [|n]; [done|]. intros Hk Lg Ep.
      apply (S2 _ _ Ep) in Lg. unfold d2. cbn [d_by_proc dset_sessions dset_by_session]. rewrite S1. by eapply (so_books _ _ V).
    + intros c i. rewrite owns_removing, (so_owns _ _ V). unfold d2 at 1. cbn [d_by_proc dset_sessions dset_by_session]. rewrite S1. split.
      * intros (n & l & g & F1 & F2 & F3 & F4). exists l, g. split; [done|]. split; [|done].
        destruct (gi_proc _ _ G _ _ F1) as (g1 & F5 & F6). apply S2; [congruence|done].
      * intros (l & g & F1 & [F2 F5]%(Hpl _ _ F1) & F3 & F4). split; [|by exists l, g].
        destruct (so_proc _ _ V _ _ F1 F2) as (y & G1 & G2 & G3 & G4). pose proof (Nx _ _ _ F1 F2 G2).
        rewrite G2 in F4. destruct F4 as [z [<- _]%lookup_singleton_Some]. done.
  - constructor.
    + intros l g Hg Ep Hr. exfalso. apply Hr. by eapply S2.
    + intros l g. unfold d2 at 1. cbn [d_by_proc dset_sessions dset_by_session]. rewrite S1. done.
    + intros c i l g. rewrite Hb. destruct (decide (c = x)) as [|n]; [done|]. intros Hk Lg Ep. exfalso.
      destruct (books_heap _ _ _ _ _ G Hk) as (mine0 & g1 & _ & _ & L1 & _).
      destruct (D _ _ Lg) as (g2 & L2 & _ & Ep2 & _). assert (g2 = g1) as -> by congruence.
      destruct (so_books _ _ V _ _ _ _ Hk L1 ltac:(congruence)) as [P1 [z Hz]].
      assert (l = l0) as -> by congruence. assert (g1 = g0) as -> by congruence.
      rewrite R0 in Hz. by apply lookup_singleton_Some in Hz as [<- _].
    + intros c i. rewrite owns_removing, (so_owns _ _ V). unfold d2 at 1. cbn [d_by_proc dset_sessions dset_by_session]. rewrite S1. split.
      * intros (n & l & g & F1 & F2 & F3 & [z F4]). exfalso. assert (l = l0) as -> by congruence.
        assert (g = g0) as -> by congruence. rewrite R0 in F4. by apply lookup_singleton_Some in F4 as [<- _].
      * by intros (l & g & ? & _).
Qed.

Lemma sole_step tr d o op d' out : sole tr d -> DealerCalls.cinv tr d -> ginv tr d -> uinv tr d ->
  d_idgen d < two53 -> alone op out -> dstep o d op = Ret d' out -> sole ((op, out) :: tr) d'.
Proof.
  intros V C G U Hid Hup. destruct op as [s|x|q|x|c m]; cbn [dstep] in *.
  - by apply sole_add.
  - by apply sole_remove.
  - unfold d_has_procedure. destruct (d_by_proc d !! q) as [l|].
    + destruct (d_heap d !! l); [|discriminate]. intros H; injection H as <- <-. by squiet.
    + intros H; injection H as <- <-. by squiet.
  - intros H; injection H as <- <-. by squiet.
  - assert (Same : d' = d -> quiet (DReceive c m, out) -> sole ((DReceive c m, out) :: tr) d').
    { intros -> Q. by eapply sole_quiet; [eassumption|exact Q|..]. }
    destruct m; cbn [d_receive_message];
      try (intros H; injection H as <- <-; apply Same; [done|split; cbn; intros; tauto]).
    + intros H. destruct (error_cases _ _ _ _ H) as
        [(_ & -> & _)|[(_ & _ & -> & _)|(q & _ & _ & -> & _)]]; by squiet.
    + intros H. destruct (call_cases _ _ _ _ _ _ H) as
        [(-> & _)|(l & g & callee & nx & i & who & F & L & E & P & A & _)]; [by squiet|].
      assert (Hd : d_heap d' = <[l := set_next nx g]> (d_heap d) /\ d_by_session d' = d_by_session d /\ d_by_proc d' = d_by_proc d).
      { destruct (allocate_cases _ _ _ _ _ _ A) as [(-> & _)|(-> & _)]; done. }
      destruct Hd as (Hd1 & Hd2 & Hd3). eapply sole_quiet; [done|split; cbn; intros; tauto| |done|].
      * intros l0. rewrite Hd1. destruct (decide (l = l0)) as [<-|n]; [by rewrite lookup_insert, L|by rewrite lookup_insert_ne].
      * intros y j. unfold books. by rewrite Hd2.
    + intros H. by eapply sole_register.
    + intros H. by eapply sole_unregister.
    + intros H. destruct (yield_cases _ _ _ _ H) as [(_ & -> & _)|(q & _ & -> & _)]; [by squiet|].
      destruct (_ && _); by squiet.
Qed.

Lemma run_sole h d outs : N.of_nat (length h) <= two53 -> drun new_dealer h = Ret d outs ->
  never_shared (dtrace_of h outs) p -> sole (dtrace_of h outs) d.
Proof.
  revert d outs. induction h as [|[o op] h IH] using rev_ind; intros d outs Hb H.
  { injection H as <- <-. intros _. apply sole_init. }
  rewrite app_length in Hb. cbn [length] in Hb.
  destruct (drun_snoc_inv _ _ _ _ _ _ H) as (d1 & o1 & out & H1 & H2 & ->).
  rewrite dtrace_snoc by (by eapply drun_length). intros Ha.
  destruct (run_cinv h d1 o1 ltac:(lia) H1) as [C Hl].
  eapply sole_step; [apply IH; [lia|done|]|done|by apply run_ginv|by apply run_uinv; [lia|]| | |done].
  - intros s m a to Hin. apply (Ha s m a to). by right.
  - rewrite (ci_ids _ _ C). pose proof (ci_len _ _ C). lia.
  - destruct op as [s|x|q|x|c m]; try done. destruct m; try done. destruct out as [| | |m' to]; try done.
    destruct m'; try done. cbn [alone]. eapply (Ha c). by left.
Qed.
End Sole.

(** ** The properties *)
Lemma owns_once tr c q i : owns tr c q i -> exists pol, once_registered tr c q pol i.
Proof.
  induction tr as [|e tr IH]; [done|]. intros [[pol H]|[H _]].
  - exists pol, e. split; [by left|done].
  - destruct (IH H) as (pol & e' & He & H'). exists pol, e'. split; [by right|done].
Qed.

Lemma sole_served h o sid c d0 outs b g : never_shared (dtrace_of h outs) (ca_procedure c) -> N.of_nat (length h) < two53 ->
  drun new_dealer h = Ret d0 outs ->
  let tr := dtrace_of h outs in
  (disclosing_caller tr = true -> present tr sid) -> owns tr b (ca_procedure c) g ->
  exists d v, dstep o d0 (DReceive sid (MCall c)) = Ret d (DMsg (MInvocation v) b) /\ in_registration v = g.
Proof.
  intros Ha Hb R tr Hd Ho. pose proof (run_sole _ h d0 outs ltac:(lia) R Ha) as V. fold tr in V.
  pose proof (run_ginv _ _ _ R) as G. pose proof (run_sinv _ _ _ R) as S. fold tr in G, S.
  apply (so_owns _ _ _ V) in Ho as (l & r & P & L & <- & Hr).
  destruct (so_proc _ _ _ V _ _ P L) as (x & H1 & H2 & H3 & H4).
  assert (x = b) as ->. { rewrite H2 in Hr. by destruct Hr as [z [? _]%lookup_singleton_Some]. }
  assert (Hne : g_regs r <> ∅). { intros E. rewrite E in Hr. rewrite lookup_empty in Hr. by destruct Hr. }
  assert (is_Some (d_sessions d0 !! b)) as [sb Hs].
  { apply (si_dom _ _ S). unfold books in H4. by destruct (d_by_session d0 !! b). }
  cbn [dstep d_receive_message]. unfold d_call. rewrite (find_exact o d0 _ _ _ P L Hne), L, decide_False by done.
  destruct (pick_some o r) as (callee & nx & Hp). { by rewrite H3. }
  pose proof (pick_in _ _ _ _ Hp) as Hin. rewrite H3 in Hin. apply elem_of_list_singleton in Hin as ->.
  rewrite Hp. destruct (d_allocate _ sid c b) as [dA i] eqn:A.
  assert (Hs' : d_sessions dA = d_sessions d0 /\ d_details dA = d_details d0).
  { destruct (allocate_cases _ _ _ _ _ _ A) as [(-> & _ & _)|(-> & _ & _)]; done. }
  destruct Hs' as [E1 E2]. rewrite E1, E2, (si_details _ _ S).
  assert (Send : forall w, exists d v, d_send dA c i (g_id r) w b = Ret d (DMsg (MInvocation v) b) /\ in_registration v = g_id r).
  { intros w. unfold d_send. rewrite E1, Hs. eexists _, _. split; [done|]. unfold invocation_for. by destruct (_ && _). }
  destruct (disclosing_caller tr) eqn:D; [|apply Send].
  pose proof (Hd eq_refl) as [s Hss]%present_as_present. apply (si_sess _ _ S) in Hss. rewrite Hss. apply Send.
Qed.

Lemma sole_invoked h o sid c d0 outs d v callee m : N.of_nat (length h) < two53 ->
  drun new_dealer h = Ret d0 outs -> dstep o d0 (DReceive sid (MCall c)) = Ret d (DMsg (MInvocation v) callee) ->
  let tr := dtrace_of h outs in
  registered_under tr (in_registration v) m -> never_shared tr (rg_procedure m) ->
  owns tr callee (rg_procedure m) (in_registration v) /\ forall x q, owns tr x q (in_registration v) -> x = callee.
Proof.
  intros Hb R H tr Hm Ha. pose proof (run_sole _ h d0 outs ltac:(lia) R Ha) as V. fold tr in V.
  pose proof (run_ginv _ _ _ R) as G. pose proof (run_uinv h d0 outs ltac:(lia) R) as U. fold tr in G, U.
  cbn [dstep d_receive_message] in H.
  destruct (call_cases _ _ _ _ _ _ H) as
    [(_ & E & _)|(l & g & cl & nx & i & who & F & L & E & P & A & _ & [[_ ?]|(s & _ & E')])]; [discriminate|discriminate|].
  injection E' as -> <-. apply pick_in in P.
  assert (Ei : in_registration (invocation_for c i (g_id g) (invocation_details c sid who) s) = g_id g)
    by (unfold invocation_for; by destruct (_ && _)).
  rewrite Ei in Hm |- *.
  destruct (ui_names _ _ U _ _ _ L Hm) as [_ Ep]. symmetry in Ep.
  pose proof (so_live _ _ _ V _ _ L Ep E) as Q.
  destruct (so_proc _ _ _ V _ _ Q L) as (x & H1 & H2 & H3 & H4).
  rewrite H3 in P. apply elem_of_list_singleton in P as ->. split.
  - apply (so_owns _ _ _ V). exists l, g. split; [done|]. split; [done|]. split; [done|]. rewrite H2, lookup_singleton. by eexists.
  - intros y q Hy.
    assert (q = rg_procedure m) as ->.
    { destruct (owns_once _ _ _ _ Hy) as (pol & e & He & Hreg). rewrite <- Ep.
      destruct e as [op out]. destruct op as [| | | |s' mm]; try done. destruct mm; try done.
      destruct out as [| | |m' to]; try done. destruct m'; try done. cbn in Hreg. destruct Hreg as (-> & <- & _ & Hg & _).
      refine (proj2 (ui_names _ _ U _ _ _ L _)). by eexists _, _, _. }
    apply (so_owns _ _ _ V) in Hy as (l' & g' & F1 & F2 & F3 & F4). assert (l' = l) as -> by congruence.
    assert (g' = g) as -> by congruence. rewrite H2 in F4. by destruct F4 as [z [? _]%lookup_singleton_Some].
Qed.

Lemma sole_registering h o sid m d0 d outs out : never_shared (dtrace_of h outs) (rg_procedure m) -> N.of_nat (length h) < two53 ->
  drun new_dealer h = Ret d0 outs -> dstep o d0 (DReceive sid (MRegister m)) = Ret d out ->
  let tr := dtrace_of h outs in
  present tr sid ->
  (forall x g, owns tr x (rg_procedure m) g ->
     out = DMsg (refusal 64 (rg_request m) "wamp.error.procedure_already_exists") sid /\ d = d0)
  /\ ((forall x g, ~ owns tr x (rg_procedure m) g) ->
      out = DMsg (MRegistered (Registered (rg_request m) (used tr + 1))) sid).
Proof.
  intros Ha Hb R Hs tr Hpr. pose proof (run_sole _ h d0 outs ltac:(lia) R Ha) as V. fold tr in V.
  pose proof (run_ginv _ _ _ R) as G. pose proof (run_sinv _ _ _ R) as S.
  destruct (run_cinv h d0 outs ltac:(lia) R) as [C Hl]. fold tr in G, S, C, Hl.
  assert (Hid : d_idgen d0 < two53) by (rewrite (ci_ids _ _ C); pose proof (ci_len _ _ C); lia).
  cbn [dstep d_receive_message] in Hs.
  destruct (register_cases _ _ _ _ _ Hs) as
    [(M & _)|(mine & M & [(l & g0 & P & L & HH & -> & ->)|[(l & g0 & P & L & I1 & I2 & I3 & E1 & ->)|(P & E1 & ->)]])].
  - exfalso. apply (sinv_present _ _ _ S), (si_dom _ _ S) in Hpr. rewrite M in Hpr. by destruct Hpr.
  - split; [done|]. intros Hno. exfalso. destruct (so_proc _ _ _ V _ _ P L) as (x & H1 & H2 & H3 & H4).
    eapply (Hno x), (so_owns _ _ _ V). exists l, g0. split; [done|]. split; [done|]. split; [done|].
    rewrite H2, lookup_singleton. by eexists.
  - exfalso. destruct (so_proc _ _ _ V _ _ P L) as (x & [?|?] & _); congruence.
  - split.
    + intros x g (l' & g' & P' & _)%(so_owns _ _ _ V). congruence.
    + intros _. by rewrite next_id_small, (ci_ids _ _ C) by done.
Qed.

Lemma sole_given_up h o sid u d0 outs p : never_shared (dtrace_of h outs) p -> N.of_nat (length h) < two53 ->
  drun new_dealer h = Ret d0 outs -> owns (dtrace_of h outs) sid p (ur_registration u) ->
  exists d, dstep o d0 (DReceive sid (MUnregister u)) = Ret d (DMsg (MUnregistered (Unregistered (ur_request u))) sid).
Proof.
  intros Ha Hb R Ho. pose proof (run_sole _ h d0 outs ltac:(lia) R Ha) as V.
  apply (so_owns _ _ _ V) in Ho as (l & g & P & L & Ei & Hr).
  destruct (so_proc _ _ _ V _ _ P L) as (x & H1 & H2 & H3 & H4). rewrite H2 in Hr.
  destruct Hr as [z [-> _]%lookup_singleton_Some]. rewrite Ei in H4.
  cbn [dstep d_receive_message]. unfold d_unregister. unfold books in H4.
  destruct (d_by_session d0 !! sid) as [mine|] eqn:M; [|discriminate]. cbn in H4.
  rewrite decide_False by (intros ->; by rewrite lookup_empty in H4). rewrite H4, L. by eexists.
Qed.
