(** Proofs about considerate histories. *)
From Verif Require Import Prelude Value Msg IdGen Types PathMatch Dealer DealerSpec DealerKind.
From Verif Require Import BaseSpec BaseFacts TypesFacts DealerFacts DealerCalls DealerCases DealerRegs.
From Verif Require Import DealerSim DealerStep DealerProofs DealerPolite.

Lemma strikes_unregistered e tr sid g : strikes e tr sid g -> is_unregistered e sid g.
Proof.
  destruct e as [op out]. destruct op as [s|x|p|x|s m]; try done.
  destruct m; try done. destruct out as [| | |m' to]; try done. destruct m'; try done. cbn. tauto.
Qed.
Lemma owns_listed tr sid p g : owns tr sid p g -> listed tr sid p g.
Proof.
  induction tr as [|e tr IH]; [done|]. intros [H|[H1 H2]]; [by left|]. right. split; [by apply IH|].
  intros Hs. by eapply H2, strikes_unregistered.
Qed.

Definition books (d : dealer) (sid i : N) : option N := d_by_session d !! sid ≫= fun m => m !! i.

Record kinv (tr : dtrace) (d : dealer) : Prop := KInv {
  ki_live : forall p l g, d_by_proc d !! p = Some l -> d_heap d !! l = Some g -> g_regs g <> ∅;
  ki_cur : forall l g, d_heap d !! l = Some g -> g_regs g <> ∅ -> d_by_proc d !! g_proc g = Some l;
  ki_regs : forall l g x, d_heap d !! l = Some g -> is_Some (g_regs g !! x) <-> owns tr x (g_proc g) (g_id g);
  ki_owns : forall x p i, owns tr x p i -> exists l g, d_heap d !! l = Some g /\ g_proc g = p /\ g_id g = i;
  ki_books : forall sid i l g, books d sid i = Some l -> d_heap d !! l = Some g -> listed tr sid (g_proc g) i;
  ki_listed : forall sid p i, listed tr sid p i ->
      exists l g, books d sid i = Some l /\ d_heap d !! l = Some g /\ g_proc g = p;
  ki_callees : forall l g, d_heap d !! l = Some g -> g_regs g <> ∅ -> NoDup (g_callees g)
      /\ (forall x, is_Some (g_regs g !! x) -> x ∈ g_callees g)
      /\ (forall x, x ∈ g_callees g -> listed tr x (g_proc g) (g_id g)) }.

Lemma kinv_init : kinv [] new_dealer.
Proof.
  constructor; intros *; cbn; rewrite ?lookup_empty; try discriminate; try done.
Qed.

(** ** Steps that leave registrations alone *)
Definition core (g : registration) := (g_id g, g_proc g, g_regs g, g_callees g).
Definition quiet (e : dop * dout) : Prop :=
  (forall sid p pol g, ~ is_registered e sid p pol g) /\ (forall sid g, ~ is_unregistered e sid g).

Lemma quiet_owns e tr x p i : quiet e -> owns (e :: tr) x p i <-> owns tr x p i.
Proof. intros [H1 H2]. cbn. split; [|intros H; right; by split]. intros [[pol H]|[H _]]; [by apply H1 in H|done]. Qed.
Lemma quiet_listed e tr x p i : quiet e -> listed (e :: tr) x p i <-> listed tr x p i.
Proof.
  intros [H1 H2]. cbn [listed]. split.
  - intros [[pol H]|[H _]]; [by apply H1 in H|done].
  - intros H. right. split; [done|]. intros Hs. by apply strikes_unregistered, H2 in Hs.
Qed.

Lemma kinv_quiet e tr d d' : kinv tr d -> quiet e ->
  (forall l, core <$> d_heap d' !! l = core <$> d_heap d !! l) -> d_by_proc d' = d_by_proc d ->
  (forall sid i, books d' sid i = books d sid i) -> kinv (e :: tr) d'.
Proof.
  intros K Q Hh Hp Hb.
  assert (Back : forall l g', d_heap d' !! l = Some g' -> exists g, d_heap d !! l = Some g
     /\ g_id g' = g_id g /\ g_proc g' = g_proc g /\ g_regs g' = g_regs g /\ g_callees g' = g_callees g).
  { intros l g' E. specialize (Hh l). rewrite E in Hh. destruct (d_heap d !! l) as [g|]; [|discriminate].
    cbn in Hh. injection Hh as E1 E2 E3 E4. exists g. done. }
  assert (Forth : forall l g, d_heap d !! l = Some g -> exists g', d_heap d' !! l = Some g'
     /\ g_id g' = g_id g /\ g_proc g' = g_proc g /\ g_regs g' = g_regs g /\ g_callees g' = g_callees g).
  { intros l g E. specialize (Hh l). rewrite E in Hh. destruct (d_heap d' !! l) as [g'|]; [|discriminate].
    cbn in Hh. injection Hh as E1 E2 E3 E4. exists g'. done. }
  constructor.
  - intros p l g' H1 H2. destruct (Back _ _ H2) as (g & H3 & _ & _ & -> & _). rewrite Hp in H1. by eapply ki_live.
  - intros l g' H1. destruct (Back _ _ H1) as (g & H3 & _ & -> & -> & _). rewrite Hp. by eapply ki_cur.
  - intros l g' x H1. destruct (Back _ _ H1) as (g & H3 & -> & -> & -> & _). rewrite quiet_owns by done. by eapply ki_regs.
  - intros x p i H%quiet_owns; [|done]. destruct (ki_owns _ _ K _ _ _ H) as (l & g & H1 & <- & <-).
    destruct (Forth _ _ H1) as (g' & ? & ? & ? & _). eauto.
  - intros sid i l g'. rewrite Hb. intros H1 H2. destruct (Back _ _ H2) as (g & H3 & _ & -> & _).
    apply quiet_listed; [done|]. by eapply ki_books.
  - intros sid p i H%quiet_listed; [|done]. destruct (ki_listed _ _ K _ _ _ H) as (l & g & H1 & H2 & <-).
    destruct (Forth _ _ H2) as (g' & ? & _ & ? & _). exists l, g'. by rewrite Hb.
  - intros l g' H1. destruct (Back _ _ H1) as (g & H3 & -> & -> & -> & ->). intros Hne.
    destruct (ki_callees _ _ K _ _ H3 Hne) as (N1 & N2 & N3). split; [done|]. split; [done|].
    intros x Hx. apply quiet_listed; [done|]. by apply N3.
Qed.

(** ** REGISTER *)
Lemma books_insert d sid mine i j x b : d_by_session d !! sid = Some mine ->
  match <[sid := <[i := b]> mine]> (d_by_session d) !! x with Some m => m !! j | None => None end
  = if decide (x = sid /\ j = i) then Some b else books d x j.
Proof.
  intros M. unfold books. destruct (decide (x = sid)) as [->|n].
  - rewrite lookup_insert, M. cbn. destruct (decide (j = i)) as [->|n].
    + by rewrite lookup_insert, decide_True.
    + rewrite lookup_insert_ne by done. by rewrite decide_False by tauto.
  - rewrite lookup_insert_ne by done. rewrite decide_False by tauto. by destruct (d_by_session d !! x).
Qed.

Definition registering (sid : N) (m : register) (i : N) : dop * dout :=
  (DReceive sid (MRegister m), DMsg (MRegistered (Registered (rg_request m) i)) sid).
Lemma owns_registering sid m i tr x p j :
  owns (registering sid m i :: tr) x p j <-> (x = sid /\ p = rg_procedure m /\ j = i) \/ owns tr x p j.
Proof.
  cbn. split.
  - intros [(pol & ? & ? & _ & ? & _)|[? _]]; [left|by right]. done.
  - intros [(-> & -> & ->)|H]; [left|right; tauto]. by eexists.
Qed.
Lemma listed_registering sid m i tr x p j :
  listed (registering sid m i :: tr) x p j <-> (x = sid /\ p = rg_procedure m /\ j = i) \/ listed tr x p j.
Proof.
  cbn [listed]. split.
  - intros [(pol & ? & ? & _ & ? & _)|[? _]]; [left|by right]. done.
  - intros [(-> & -> & ->)|H]; [left|right; split; [done|by intros []]]. by eexists.
Qed.

Lemma kinv_create tr d sid m mine : kinv tr d -> ginv tr d -> cinv tr d -> d_idgen d < two53 ->
  d_by_session d !! sid = Some mine -> d_by_proc d !! rg_procedure m = None ->
  kinv (registering sid m (next_id (d_idgen d)) :: tr)
    (create_d d sid mine (rg_procedure m) (invoke_policy m) (requested_policy (rg_options m))).
Proof.
  intros K G C Hid M P. rewrite next_id_small by done.
  assert (New : forall x p i, owns tr x p i -> i <> d_idgen d + 1).
  { intros x p i H. destruct (ki_owns _ _ K _ _ _ H) as (l & g & H1 & _ & <-).
    apply (ci_heap_bound _ _ C) in H1. lia. }
  assert (NewL : forall x p i, listed tr x p i -> i <> d_idgen d + 1).
  { intros x p i H. destruct (ki_listed _ _ K _ _ _ H) as (l & g & H1 & H2 & _). unfold books in H1.
    destruct (d_by_session d !! x) as [mm|] eqn:E; [|discriminate]. cbn in H1.
    destruct (gi_sess _ _ G _ _ _ _ E H1) as (g' & H3 & <-). apply (ci_heap_bound _ _ C) in H3. lia. }
  assert (Fr : d_heap d !! d_fresh d = None).
  { destruct (d_heap d !! d_fresh d) eqn:E; [|done]. apply (gi_fresh _ _ G) in E. lia. }
  unfold create_d. rewrite next_id_small by done.
  set (gn := Registration (d_idgen d + 1) (rg_procedure m) {[sid := sid]} (invoke_policy m) 0 [sid] _).
  assert (Heap : forall l g, <[d_fresh d := gn]> (d_heap d) !! l = Some g ->
     (l = d_fresh d /\ g = gn) \/ (l <> d_fresh d /\ d_heap d !! l = Some g)).
  { intros l g. destruct (decide (d_fresh d = l)) as [<-|n].
    - rewrite lookup_insert. intros E; injection E as <-. by left.
    - rewrite lookup_insert_ne by done. intros E. right. done. }
  assert (Ne : g_regs gn <> ∅) by (apply map_non_empty_singleton).
  constructor; cbn [d_heap d_by_proc].
  - intros p l g H1 [[-> ->]|[n H2]]%Heap; [done|].
    destruct (decide (rg_procedure m = p)) as [<-|np].
    + rewrite lookup_insert in H1. congruence.
    + rewrite lookup_insert_ne in H1 by done. by eapply ki_live.
  - intros l g [[-> ->]|[n H2]]%Heap Hne.
    + apply lookup_insert.
    + pose proof (ki_cur _ _ K _ _ H2 Hne) as E. rewrite lookup_insert_ne by congruence. done.
  - intros l g x [[-> ->]|[n H2]]%Heap; rewrite owns_registering.
    + cbn [gn g_regs g_proc g_id]. split.
      * intros [y Hy]. apply lookup_singleton_Some in Hy as [<- _]. by left.
      * intros [(-> & _)|H]; [rewrite lookup_singleton; by eexists|]. by apply New in H.
    + rewrite (ki_regs _ _ K _ _ _ H2). split; [by right|]. intros [(-> & _ & E)|H]; [|done].
      apply (ci_heap_bound _ _ C) in H2. lia.
  - intros x p i [(-> & -> & ->)|H]%owns_registering.
    + exists (d_fresh d), gn. by rewrite lookup_insert.
    + destruct (ki_owns _ _ K _ _ _ H) as (l & g & H1 & H2). exists l, g.
      rewrite lookup_insert_ne; [done|congruence].
  - intros x i l g Hb Hg. change (match <[sid := <[d_idgen d + 1 := d_fresh d]> mine]> (d_by_session d) !! x with Some mm => mm !! i | None => None end = Some l) in Hb.
    rewrite books_insert in Hb by done. apply listed_registering.
    destruct (decide (x = sid /\ i = d_idgen d + 1)) as [[-> ->]|n].
    + injection Hb as <-. rewrite lookup_insert in Hg. injection Hg as <-. by left.
    + right. apply Heap in Hg as [[-> ->]|[n' Hg]].
      * exfalso. unfold books in Hb. destruct (d_by_session d !! x) as [mm|] eqn:E; [|discriminate]. cbn in Hb.
        destruct (gi_sess _ _ G _ _ _ _ E Hb) as (g' & H3 & _). congruence.
      * by eapply ki_books.
  - intros x p i [(-> & -> & ->)|H]%listed_registering.
    + exists (d_fresh d), gn. split; [|by rewrite lookup_insert].
      change (match <[sid := <[d_idgen d + 1 := d_fresh d]> mine]> (d_by_session d) !! sid with Some mm => mm !! (d_idgen d + 1) | None => None end = Some (d_fresh d)).
      rewrite books_insert by done. by rewrite decide_True.
    + destruct (ki_listed _ _ K _ _ _ H) as (l & g & H1 & H2 & H3). exists l, g. split; [|split; [|done]].
      * change (match <[sid := <[d_idgen d + 1 := d_fresh d]> mine]> (d_by_session d) !! x with Some mm => mm !! i | None => None end = Some l).
        rewrite books_insert by done. rewrite decide_False; [done|]. intros [_ ->]. by apply NewL in H.
      * rewrite lookup_insert_ne; [done|congruence].
  - intros l g [[-> ->]|[n H2]]%Heap Hne.
    + cbn [gn g_callees g_regs g_proc g_id]. split; [apply NoDup_singleton|]. split.
      * intros x [y Hy]. apply lookup_singleton_Some in Hy as [<- _]. by left.
      * intros x ->%elem_of_list_singleton. apply listed_registering. by left.
    + destruct (ki_callees _ _ K _ _ H2 Hne) as (N1 & N2 & N3). split; [done|]. split; [done|].
      intros x Hx. apply listed_registering. right. by apply N3.
Qed.

Lemma kinv_join tr d sid m mine l g : kinv tr d -> ginv tr d -> uinv tr d ->
  considerate tr (DReceive sid (MRegister m)) ->
  d_by_session d !! sid = Some mine -> d_by_proc d !! rg_procedure m = Some l -> d_heap d !! l = Some g ->
  g_invoke g <> ""%string -> g_invoke g <> "single"%string -> invoke_policy m = g_invoke g ->
  kinv (registering sid m (g_id g) :: tr) (join_d d sid mine l g (rg_procedure m)).
Proof.
  intros K G U Hc M P Hl I1 I2 I3.
  pose proof (ki_live _ _ K _ _ _ P Hl) as Hne.
  assert (Ep : g_proc g = rg_procedure m).
  { destruct (gi_proc _ _ G _ _ P) as (g' & ? & ?). congruence. }
  assert (Hnl : ~ listed tr sid (rg_procedure m) (g_id g)).
  { intros Hli. apply map_choose in Hne as (y & v & Hy).
    specialize (Hc NoRejoin). cbn in Hc. rewrite I3 in Hc. destruct Hc; [|done..].
    exists (g_id g), y. split; [done|]. rewrite <- Ep. apply (ki_regs _ _ K _ _ _ Hl). by eexists. }
  set (gn := Registration (g_id g) (g_proc g) (<[sid := sid]> (g_regs g)) (g_invoke g) (g_next g)
                   (g_callees g ++ [sid]) (g_match g)).
  assert (Heap : forall l0 g0, <[l := gn]> (d_heap d) !! l0 = Some g0 ->
     (l0 = l /\ g0 = gn) \/ (l0 <> l /\ d_heap d !! l0 = Some g0)).
  { intros l0 g0. destruct (decide (l = l0)) as [<-|n].
    - rewrite lookup_insert. intros E; injection E as <-. by left.
    - rewrite lookup_insert_ne by done. intros E. right. done. }
  assert (Ne : g_regs gn <> ∅) by (apply insert_non_empty).
  assert (Oth : forall l0 g0, l0 <> l -> d_heap d !! l0 = Some g0 -> g_id g0 <> g_id g).
  { intros l0 g0 n H0 E. apply n. by eapply ui_ids. }
  unfold join_d. fold gn. constructor; cbn [d_heap d_by_proc].
  - intros p l0 g0 H1 [[-> ->]|[n H2]]%Heap; [done|].
    destruct (decide (rg_procedure m = p)) as [<-|np].
    + rewrite lookup_insert in H1. congruence.
    + rewrite lookup_insert_ne in H1 by done. by eapply ki_live.
  - intros l0 g0 [[-> ->]|[n H2]]%Heap Hne0.
    + cbn [gn g_proc]. rewrite Ep. apply lookup_insert.
    + pose proof (ki_cur _ _ K _ _ H2 Hne0) as E. rewrite lookup_insert_ne; [done|]. intros E2. rewrite <- E2 in E. congruence.
  - intros l0 g0 x [[-> ->]|[n H2]]%Heap; rewrite owns_registering.
    + cbn [gn g_regs g_proc g_id]. rewrite Ep. destruct (decide (sid = x)) as [<-|nx].
      * rewrite lookup_insert. split; [by left|by eexists].
      * rewrite lookup_insert_ne, (ki_regs _ _ K _ _ _ Hl), Ep by done. split; [by right|].
        intros [(-> & _)|H]; done.
    + rewrite (ki_regs _ _ K _ _ _ H2). split; [by right|]. intros [(-> & _ & E)|H]; [|done].
      by destruct (Oth _ _ n H2 E).
  - intros x p i [(-> & -> & ->)|H]%owns_registering.
    + exists l, gn. by rewrite lookup_insert.
    + destruct (ki_owns _ _ K _ _ _ H) as (l0 & g0 & H1 & H2 & H3). destruct (decide (l = l0)) as [<-|n].
      * exists l, gn. rewrite lookup_insert. assert (g0 = g) as -> by congruence. done.
      * exists l0, g0. by rewrite lookup_insert_ne.
  - intros x i l0 g0 Hb Hg. change (match <[sid := <[g_id g := l]> mine]> (d_by_session d) !! x with Some mm => mm !! i | None => None end = Some l0) in Hb.
    rewrite books_insert in Hb by done. apply listed_registering.
    destruct (decide (x = sid /\ i = g_id g)) as [[-> ->]|n].
    + injection Hb as <-. rewrite lookup_insert in Hg. injection Hg as <-. by left.
    + right. apply Heap in Hg as [[-> ->]|[n' Hg]]; [|by eapply ki_books].
      change (g_proc gn) with (g_proc g). by eapply ki_books.
  - intros x p i [(-> & -> & ->)|H]%listed_registering.
    + exists l, gn. split; [|by rewrite lookup_insert].
      change (match <[sid := <[g_id g := l]> mine]> (d_by_session d) !! sid with Some mm => mm !! (g_id g) | None => None end = Some l).
      rewrite books_insert by done. by rewrite decide_True.
    + destruct (ki_listed _ _ K _ _ _ H) as (l0 & g0 & H1 & H2 & H3).
      assert (exists g1, <[l := gn]> (d_heap d) !! l0 = Some g1 /\ g_proc g1 = p) as (g1 & E1 & E2).
      { destruct (decide (l = l0)) as [<-|n].
        - exists gn. rewrite lookup_insert. split; [done|]. cbn. congruence.
        - exists g0. by rewrite lookup_insert_ne. }
      exists l0, g1. split; [|done].
      change (match <[sid := <[g_id g := l]> mine]> (d_by_session d) !! x with Some mm => mm !! i | None => None end = Some l0).
      rewrite books_insert by done. destruct (decide (x = sid /\ i = g_id g)) as [[-> ->]|n]; [|done].
      f_equal. unfold books in H1. rewrite M in H1. cbn in H1.
      destruct (gi_sess _ _ G _ _ _ _ M H1) as (g2 & H4 & H5). by eapply ui_ids.
  - intros l0 g0 [[-> ->]|[n H2]]%Heap Hne0.
    + cbn [gn g_callees g_regs g_proc g_id]. destruct (ki_callees _ _ K _ _ Hl Hne) as (N1 & N2 & N3).
      split; [|split].
      * apply NoDup_app. split; [done|]. split; [|apply NoDup_singleton].
        intros x Hx ->%elem_of_list_singleton. apply Hnl. rewrite <- Ep. by apply N3.
      * intros x. destruct (decide (sid = x)) as [<-|nx].
        -- intros _. apply elem_of_app. right. by left.
        -- rewrite lookup_insert_ne by done. intros Hx. apply elem_of_app. left. by apply N2.
      * intros x Hx. rewrite Ep. apply listed_registering. apply elem_of_app in Hx as [Hx| ->%elem_of_list_singleton]; [right|by left].
        rewrite <- Ep. by apply N3.
    + destruct (ki_callees _ _ K _ _ H2 Hne0) as (N1 & N2 & N3). split; [done|]. split; [done|].
      intros x Hx. apply listed_registering. right. by apply N3.
Qed.

(** ** UNREGISTER *)
Definition unregistering (sid : N) (u : unregister) : dop * dout :=
  (DReceive sid (MUnregister u), DMsg (MUnregistered (Unregistered (ur_request u))) sid).
Lemma owns_unregistering sid u tr x p i :
  owns (unregistering sid u :: tr) x p i <-> owns tr x p i /\ ~ (x = sid /\ i = ur_registration u).
Proof.
  cbn. split.
  - intros [(pol & [])|[H1 H2]]. split; [done|]. intros [-> ->]. by apply H2.
  - intros [H1 H2]. right. split; [done|]. intros [-> <-]. by apply H2.
Qed.
Lemma listed_unregistering sid u tr x p i :
  listed (unregistering sid u :: tr) x p i
  <-> listed tr x p i /\ ~ (x = sid /\ i = ur_registration u /\ forall y q, owns tr y q i -> y = sid).
Proof.
  cbn [listed]. unfold strikes, unregistering. split.
  - intros [(pol & [])|[H1 H2]]. split; [done|]. intros (-> & -> & H). by apply H2.
  - intros [H1 H2]. right. split; [done|]. intros (-> & <- & H). by apply H2.
Qed.

Lemma books_heap tr d sid i l : ginv tr d -> books d sid i = Some l ->
  exists mine g, d_by_session d !! sid = Some mine /\ mine !! i = Some l /\ d_heap d !! l = Some g /\ g_id g = i.
Proof.
  unfold books. intros G H. destruct (d_by_session d !! sid) as [mine|] eqn:M; [|discriminate]. cbn in H.
  destruct (gi_sess _ _ G _ _ _ _ M H) as (g & ? & ?). eauto 6.
Qed.

Lemma kinv_unregister tr d sid u mine l g : kinv tr d -> ginv tr d -> uinv tr d ->
  (exists p, owns tr sid p (ur_registration u)) ->
  d_by_session d !! sid = Some mine -> mine !! ur_registration u = Some l -> d_heap d !! l = Some g ->
  kinv (unregistering sid u :: tr) (unreg_d d sid mine (ur_registration u) l g).
Proof.
  intros K G U [p0 Ho] M L Hl.
  destruct (gi_sess _ _ G _ _ _ _ M L) as (g' & Hl' & Eid). assert (g' = g) as -> by congruence. clear Hl'.
  assert (Hsid : is_Some (g_regs g !! sid)).
  { destruct (ki_owns _ _ K _ _ _ Ho) as (l1 & g1 & H1 & H2 & H3).
    assert (l1 = l) as -> by (eapply ui_ids; [done..|congruence]). assert (g1 = g) as -> by congruence.
    apply (ki_regs _ _ K _ _ _ Hl). by rewrite H2, H3. }
  assert (Hne : g_regs g <> ∅) by (intros E; rewrite E, lookup_empty in Hsid; by destruct Hsid).
  pose proof (ki_cur _ _ K _ _ Hl Hne) as Hcur.
  assert (Oth : forall l0 g0, l0 <> l -> d_heap d !! l0 = Some g0 -> g_id g0 <> g_id g).
  { intros l0 g0 n H0 E. apply n. by eapply ui_ids. }
  assert (Holder : forall x q, owns tr x q (g_id g) -> q = g_proc g /\ is_Some (g_regs g !! x)).
  { intros x q H. destruct (ki_owns _ _ K _ _ _ H) as (l1 & g1 & H1 & H2 & H3).
    assert (l1 = l) as -> by (eapply ui_ids; [done..|congruence]). assert (g1 = g) as -> by congruence.
    split; [done|]. apply (ki_regs _ _ K _ _ _ Hl). by rewrite H2. }
  set (gn := leave_g sid g).
  assert (Heap : forall l0 g0, <[l := gn]> (d_heap d) !! l0 = Some g0 ->
     (l0 = l /\ g0 = gn) \/ (l0 <> l /\ d_heap d !! l0 = Some g0)).
  { intros l0 g0. destruct (decide (l = l0)) as [<-|n].
    - rewrite lookup_insert. intros E; injection E as <-. by left.
    - rewrite lookup_insert_ne by done. intros E. right. done. }
  assert (Regs : forall l0 g0 x, <[l := gn]> (d_heap d) !! l0 = Some g0 ->
     is_Some (g_regs g0 !! x) <-> owns (unregistering sid u :: tr) x (g_proc g0) (g_id g0)).
  { intros l0 g0 x [[-> ->]|[n H2]]%Heap; rewrite owns_unregistering, <- Eid.
    - cbn [gn leave_g set_regs g_regs g_proc g_id]. rewrite <- (ki_regs _ _ K _ _ _ Hl).
      destruct (decide (x = sid)) as [->|nx].
      + rewrite lookup_delete. split; [by intros []|]. intros [_ []]. done.
      + rewrite lookup_delete_ne by done. split; [|by intros []]. intros ?. split; [done|]. by intros [].
    - rewrite <- (ki_regs _ _ K _ _ _ H2). split; [|by intros []]. intros ?. split; [done|].
      intros [_ E]. by destruct (Oth _ _ n H2 E). }
  assert (Owns : forall x p i, owns (unregistering sid u :: tr) x p i ->
     exists l0 g0, <[l := gn]> (d_heap d) !! l0 = Some g0 /\ g_proc g0 = p /\ g_id g0 = i).
  { intros x p i [H _]%owns_unregistering. destruct (ki_owns _ _ K _ _ _ H) as (l0 & g0 & H1 & H2 & H3).
    destruct (decide (l = l0)) as [<-|n].
    - exists l, gn. rewrite lookup_insert. assert (g0 = g) as -> by congruence. done.
    - exists l0, g0. by rewrite lookup_insert_ne. }
  unfold unreg_d. destruct (decide (delete sid (g_regs g) = ∅)) as [Hem|Hem].
  - assert (Sole : forall y q, owns tr y q (ur_registration u) -> y = sid).
    { intros y q Hy. rewrite <- Eid in Hy. apply Holder in Hy as [_ [v Hv]].
      destruct (decide (y = sid)) as [|n]; [done|]. exfalso.
      assert (E : delete sid (g_regs g) !! y = Some v) by (by rewrite lookup_delete_ne).
      rewrite Hem, lookup_empty in E. discriminate. }
    assert (Bk : forall x i, match <[sid := delete (ur_registration u) mine]> (d_by_session d) !! x with Some mm => mm !! i | None => None end
       = if decide (x = sid /\ i = ur_registration u) then None else books d x i).
    { intros x i. unfold books. destruct (decide (x = sid)) as [->|n].
      - rewrite lookup_insert, M. cbn. destruct (decide (i = ur_registration u)) as [->|n].
        + by rewrite lookup_delete, decide_True.
        + rewrite lookup_delete_ne by done. by rewrite decide_False by tauto.
      - rewrite lookup_insert_ne by done. rewrite decide_False by tauto. by destruct (d_by_session d !! x). }
    constructor; cbn [d_heap d_by_proc]; fold gn; [..|done|done| | |].
    + intros p l0 g0 [np H1]%lookup_delete_Some [[-> ->]|[n H2]]%Heap.
      * destruct (gi_proc _ _ G _ _ H1) as (g2 & ? & ?). congruence.
      * by eapply ki_live.
    + intros l0 g0 [[-> ->]|[n H2]]%Heap Hne0; [done|].
      pose proof (ki_cur _ _ K _ _ H2 Hne0) as E. rewrite lookup_delete_ne; [done|]. intros E2. rewrite <- E2 in E. congruence.
    + intros x i l0 g0 Hb Hg. change (match <[sid := delete (ur_registration u) mine]> (d_by_session d) !! x with Some mm => mm !! i | None => None end = Some l0) in Hb.
      rewrite Bk in Hb. destruct (decide (x = sid /\ i = ur_registration u)) as [|n]; [discriminate|].
      apply listed_unregistering. split; [|tauto].
      apply Heap in Hg as [[-> ->]|[n' Hg]]; [change (g_proc gn) with (g_proc g)|]; by eapply ki_books.
    + intros x p i [H Hns]%listed_unregistering.
      destruct (ki_listed _ _ K _ _ _ H) as (l0 & g0 & H1 & H2 & H3).
      assert (n : ~ (x = sid /\ i = ur_registration u)).
      { intros [-> ->]. apply Hns. split; [done|]. split; [done|]. exact Sole. }
      assert (exists g1, <[l := gn]> (d_heap d) !! l0 = Some g1 /\ g_proc g1 = p) as (g1 & E1 & E2).
      { destruct (decide (l = l0)) as [<-|nl].
        - exists gn. rewrite lookup_insert. split; [done|]. cbn. congruence.
        - exists g0. by rewrite lookup_insert_ne. }
      exists l0, g1. split; [|done].
      change (match <[sid := delete (ur_registration u) mine]> (d_by_session d) !! x with Some mm => mm !! i | None => None end = Some l0).
      by rewrite Bk, decide_False.
    + intros l0 g0 [[-> ->]|[n H2]]%Heap Hne0; [done|].
      destruct (ki_callees _ _ K _ _ H2 Hne0) as (N1 & N2 & N3). split; [done|]. split; [done|].
      intros x Hx. apply listed_unregistering. split; [by apply N3|]. rewrite <- Eid. intros (_ & E & _).
      by destruct (Oth _ _ n H2 E).
  - assert (Shared : ~ forall y q, owns tr y q (ur_registration u) -> y = sid).
    { intros Hall. apply map_choose in Hem as (y & v & [n Hy]%lookup_delete_Some). apply n. symmetry.
      apply (Hall y (g_proc g)). rewrite <- Eid. apply (ki_regs _ _ K _ _ _ Hl). by eexists. }
    assert (Li : forall x p i, listed (unregistering sid u :: tr) x p i <-> listed tr x p i).
    { intros x p i. rewrite listed_unregistering. split; [by intros []|]. intros H. split; [done|].
      intros (_ & -> & H'). done. }
    constructor; cbn [d_heap d_by_proc dset_heap]; fold gn; [..|done|done| | |].
    + intros p l0 g0 H1 [[-> ->]|[n H2]]%Heap; [done|]. by eapply ki_live.
    + intros l0 g0 [[-> ->]|[n H2]]%Heap Hne0; [done|]. by eapply ki_cur.
    + intros x i l0 g0 Hb Hg. apply Li.
      apply Heap in Hg as [[-> ->]|[n' Hg]]; [change (g_proc gn) with (g_proc g)|]; by eapply ki_books.
    + intros x p i H%Li. destruct (ki_listed _ _ K _ _ _ H) as (l0 & g0 & H1 & H2 & H3).
      destruct (decide (l = l0)) as [<-|nl].
      * exists l, gn. split; [done|]. rewrite lookup_insert. split; [done|]. cbn. congruence.
      * exists l0, g0. by rewrite lookup_insert_ne.
    + intros l0 g0 [[-> ->]|[n H2]]%Heap Hne0.
      * destruct (ki_callees _ _ K _ _ Hl Hne) as (N1 & N2 & N3). cbn [gn leave_g set_regs g_regs g_proc g_id g_callees].
        split; [done|]. split.
        -- intros x [v [_ Hx]%lookup_delete_Some]. apply N2. by eexists.
        -- intros x Hx. apply Li. by apply N3.
      * destruct (ki_callees _ _ K _ _ H2 Hne0) as (N1 & N2 & N3). split; [done|]. split; [done|].
        intros x Hx. apply Li. by apply N3.
Qed.

(** ** RemoveSession *)
Definition strip (sid : N) (g : registration) : registration :=
  Registration (g_id g) (g_proc g) (delete sid (g_regs g)) (g_invoke g) (g_next g)
    (filter (fun x => x <> sid) (g_callees g)) (g_match g).
Definition swept_g (d : dealer) (sid : N) (ps : list string) (l : N) (g : registration) : registration :=
  if decide (d_by_proc d !! g_proc g = Some l /\ g_proc g ∈ ps) then strip sid g else g.
Record swept (d : dealer) (sid : N) (ps : list string) (d' : dealer) : Prop := Swept {
  sw_heap : forall l, d_heap d' !! l = swept_g d sid ps l <$> d_heap d !! l;
  sw_proc : forall p l, d_by_proc d' !! p = Some l <->
      d_by_proc d !! p = Some l
      /\ (p ∈ ps -> forall g, d_heap d !! l = Some g -> delete sid (g_regs g) <> ∅) }.

Lemma strip_strip sid g : strip sid (strip sid g) = strip sid g.
Proof.
  unfold strip. cbn. f_equal.
  - by rewrite delete_idemp.
  - apply filter_absent. intros [H _]%elem_of_list_filter. done.
Qed.
Lemma strip_swept d sid ps l g : strip sid (swept_g d sid ps l g) = strip sid g.
Proof. unfold swept_g. destruct (decide _); [apply strip_strip|done]. Qed.
Lemma swept_g_proc d sid ps l g : g_proc (swept_g d sid ps l g) = g_proc g.
Proof. unfold swept_g. by destruct (decide _). Qed.
Lemma swept_same d sid ps ps' l g : (d_by_proc d !! g_proc g = Some l -> g_proc g ∈ ps <-> g_proc g ∈ ps') ->
  swept_g d sid ps l g = swept_g d sid ps' l g.
Proof.
  intros H. unfold swept_g. destruct (decide (d_by_proc d !! g_proc g = Some l /\ g_proc g ∈ ps)) as [[H1 H2]|n].
  - rewrite decide_True; [done|]. split; [done|]. by apply H.
  - rewrite decide_False; [done|]. intros [H1 H2]. apply n. split; [done|]. by apply H.
Qed.

Lemma sweep_body tr d sid ps d1 l reg : kinv tr d -> ginv tr d -> swept d sid ps d1 -> d_heap d !! l = Some reg ->
  exists d2, d_remove_body sid d1 l = Ret d2 () /\ swept d sid (g_proc reg :: ps) d2.
Proof.
  intros K G S Hl.
  assert (Hl1 : d_heap d1 !! l = Some (swept_g d sid ps l reg)) by (by rewrite (sw_heap _ _ _ _ S), Hl).
  rewrite (remove_body_eq _ _ _ _ Hl1), swept_g_proc. set (p := g_proc reg).
  destruct (d_by_proc d1 !! p) as [l'|] eqn:P1.
  2:{ exists d1. split; [done|]. constructor.
      - intros l0. rewrite (sw_heap _ _ _ _ S). destruct (d_heap d !! l0) as [g0|] eqn:E0; [|done]. cbn. f_equal.
        apply swept_same. intros Hb. rewrite elem_of_cons. split; [by right|]. intros [E|?]; [|done].
        destruct (decide (g_proc g0 ∈ ps)) as [|n]; [done|]. exfalso.
        rewrite E in Hb, n. assert (d_by_proc d1 !! p = Some l0); [|congruence].
        apply (sw_proc _ _ _ _ S). done.
      - intros p0 l0. rewrite (sw_proc _ _ _ _ S). split; intros [H1 H2]; (split; [done|]).
        + intros [->|H]%elem_of_cons; [|by apply H2]. exfalso.
          assert (d_by_proc d1 !! p = Some l0); [|congruence]. apply (sw_proc _ _ _ _ S). done.
        + intros H. apply H2. by right. }
  pose proof P1 as [P Hc]%(sw_proc _ _ _ _ S).
  destruct (gi_proc _ _ G _ _ P) as (g & Hg & Ep).
  pose proof (ki_live _ _ K _ _ _ P Hg) as Hne. destruct (ki_callees _ _ K _ _ Hg Hne) as (Hnd & _ & _).
  assert (Hg1 : d_heap d1 !! l' = Some (swept_g d sid ps l' g)) by (by rewrite (sw_heap _ _ _ _ S), Hg).
  rewrite Hg1. set (g1 := swept_g d sid ps l' g) in *.
  assert (Hnd1 : NoDup (g_callees g1)).
  { unfold g1, swept_g. destruct (decide _); [|done]. by apply NoDup_filter. }
  rewrite drop_callee_nodup by done. eexists. split; [reflexivity|].
  assert (Hr : delete sid (g_regs g1) = delete sid (g_regs g)).
  { exact (f_equal g_regs (strip_swept d sid ps l' g)). }
  assert (Ep1 : g_proc g1 = p) by (unfold g1; by rewrite swept_g_proc).
  constructor; cbn [removed_d d_heap d_by_proc].
  - intros l0. change (Registration (g_id g1) (g_proc g1) (delete sid (g_regs g1)) (g_invoke g1) (g_next g1)
      (filter (fun x => x <> sid) (g_callees g1)) (g_match g1)) with (strip sid g1).
    unfold g1 at 1. rewrite strip_swept. destruct (decide (l' = l0)) as [<-|n].
    + rewrite lookup_insert, Hg. cbn. unfold swept_g. rewrite decide_True; [done|]. rewrite Ep.
      split; [done|by left].
    + rewrite lookup_insert_ne, (sw_heap _ _ _ _ S) by done. destruct (d_heap d !! l0) as [g0|] eqn:E0; [|done].
      cbn. f_equal. apply swept_same. intros Hb. rewrite elem_of_cons. split; [by right|]. intros [E|?]; [|done].
      exfalso. apply n. rewrite E in Hb. fold p in Hb. congruence.
  - intros p0 l0. rewrite Hr, Ep1. destruct (decide (delete sid (g_regs g) = ∅)) as [Hem|Hem].
    + rewrite lookup_delete_Some, (sw_proc _ _ _ _ S). split.
      * intros (np & H1 & H2). split; [done|]. intros [->|H]%elem_of_cons; [done|by apply H2].
      * intros [H1 H2]. split.
        -- intros <-. assert (l0 = l') as -> by congruence. by apply (H2 ltac:(by left) _ Hg).
        -- split; [done|]. intros H. apply H2. by right.
    + rewrite (sw_proc _ _ _ _ S). split; intros [H1 H2]; (split; [done|]).
      * intros [->|H]%elem_of_cons; [|by apply H2]. intros g0 Hg0. fold p in H1.
        assert (l0 = l') as -> by congruence. by assert (g0 = g) as -> by congruence.
      * intros H. apply H2. by right.
Qed.

Lemma sweep_loop tr d sid ls : forall ps d1, kinv tr d -> ginv tr d -> swept d sid ps d1 ->
  (forall l, l ∈ ls -> is_Some (d_heap d !! l)) ->
  exists d2 ps', d_remove_loop sid d1 ls = Ret d2 () /\ swept d sid ps' d2
    /\ forall p, p ∈ ps' <-> p ∈ ps \/ exists l g, l ∈ ls /\ d_heap d !! l = Some g /\ g_proc g = p.
Proof.
  induction ls as [|l ls IH]; intros ps d1 K G S Hls; cbn [d_remove_loop].
  { exists d1, ps. split; [done|]. split; [done|]. intros p. split; [by left|].
    intros [?|(l & g & []%elem_of_nil & _)]. done. }
  destruct (Hls l) as [reg Hl]; [by left|].
  destruct (sweep_body _ _ _ _ _ _ _ K G S Hl) as (d2 & -> & S2).
  destruct (IH _ _ K G S2) as (d3 & ps' & E & S3 & Hp).
  { intros l0 H0. apply Hls. by right. }
  exists d3, ps'. split; [done|]. split; [done|]. intros p. rewrite Hp, elem_of_cons. split.
  - intros [[->|H]|(l0 & g0 & H0 & H1 & H2)].
    + right. exists l, reg. split; [by left|done].
    + by left.
    + right. exists l0, g0. split; [by right|done].
  - intros [H|(l0 & g0 & [->|H0]%elem_of_cons & H1 & H2)].
    + left. by right.
    + left. left. congruence.
    + right. eauto.
Qed.

Definition removing (sid : N) : dop * dout := (DRemove sid, DOk).
Lemma owns_removing sid tr x p i : owns (removing sid :: tr) x p i <-> x <> sid /\ owns tr x p i.
Proof.
  cbn. split.
  - intros [(pol & [])|[H1 H2]]. split; [congruence|done].
  - intros [H1 H2]. right. split; [done|congruence].
Qed.
Lemma listed_removing sid tr x p i : listed (removing sid :: tr) x p i <-> x <> sid /\ listed tr x p i.
Proof.
  cbn [listed]. unfold strikes, removing. split.
  - intros [(pol & [])|[H1 H2]]. split; [congruence|done].
  - intros [H1 H2]. right. split; [done|congruence].
Qed.

Lemma kinv_remove tr d o sid : kinv tr d -> ginv tr d -> cinv tr d -> is_Some (d_sessions d !! sid) ->
  exists d', d_remove_session o d sid = Ret d' DOk /\ kinv (removing sid :: tr) d'.
Proof.
  intros K G C [s Hs]. unfold d_remove_session. rewrite Hs.
  set (mine := default ∅ (d_by_session d !! sid)).
  assert (Min : forall l, l ∈ map snd (shuf (o_first o) (map_to_list mine)) <-> exists i, books d sid i = Some l).
  { intros l. rewrite elem_of_list_fmap. setoid_rewrite elem_of_shuf.
    unfold books, mine. split.
    - intros ([i x] & -> & H%elem_of_map_to_list). exists i. cbn. destruct (d_by_session d !! sid); [done|].
      cbn in H. by rewrite lookup_empty in H.
    - intros [i H]. exists (i, l). split; [done|]. apply elem_of_map_to_list.
      destruct (d_by_session d !! sid); [done|discriminate]. }
  destruct (sweep_loop tr d sid (map snd (shuf (o_first o) (map_to_list mine))) [] d K G) as (d1 & ps & E & S & Hps).
  { constructor.
    - intros l. destruct (d_heap d !! l); [|done]. cbn. unfold swept_g. rewrite decide_False; [done|].
      intros [_ []%elem_of_nil].
    - intros p l. split; [|by intros []]. intros H. split; [done|]. intros []%elem_of_nil. }
  { intros l [i H]%Min. destruct (books_heap _ _ _ _ _ G H) as (? & g & _ & _ & ? & _). by eexists. }
  rewrite E. eexists. split; [reflexivity|].
  destruct (remove_loop_same _ _ _ _ _ E) as [(_ & _ & _ & _ & _ & Ebs & _ & _) _].
  assert (Ps : forall p, p ∈ ps <-> exists i, listed tr sid p i).
  { intros p. rewrite Hps. split.
    - intros [[]%elem_of_nil|(l & g & [i H]%Min & H1 & <-)]. exists i. by eapply ki_books.
    - intros [i H]. right. destruct (ki_listed _ _ K _ _ _ H) as (l & g & H1 & H2 & H3). exists l, g.
      split; [apply Min; eauto|done]. }
  assert (Heap : forall l g', d_heap d1 !! l = Some g' -> exists g, d_heap d !! l = Some g /\ g' = swept_g d sid ps l g).
  { intros l g'. rewrite (sw_heap _ _ _ _ S). destruct (d_heap d !! l) as [g|]; [|discriminate].
    intros H; injection H as <-. eauto. }
  assert (Hid : forall l g, g_id (swept_g d sid ps l g) = g_id g) by (intros l g; unfold swept_g; by destruct (decide _)).
  assert (Bk : forall x i, match delete sid (d_by_session d1) !! x with Some mm => mm !! i | None => None end
       = if decide (x = sid) then None else books d x i).
  { intros x i. rewrite Ebs. destruct (decide (x = sid)) as [->|n]; [by rewrite lookup_delete|].
    rewrite lookup_delete_ne by done. unfold books. by destruct (d_by_session d !! x). }
  assert (Cur : forall l g, d_heap d !! l = Some g -> g_regs g <> ∅ ->
     swept_g d sid ps l g = (if decide (g_proc g ∈ ps) then strip sid g else g)).
  { intros l g Hg Hne. unfold swept_g. pose proof (ki_cur _ _ K _ _ Hg Hne).
    destruct (decide (g_proc g ∈ ps)); [by rewrite decide_True|]. rewrite decide_False; [done|]. tauto. }
  assert (Dead : forall l g, d_heap d !! l = Some g -> g_regs g = ∅ -> swept_g d sid ps l g = g).
  { intros l g Hg He. unfold swept_g. rewrite decide_False; [done|]. intros [H _]. by apply (ki_live _ _ K _ _ _ H Hg). }
  constructor; cbn [d_heap d_by_proc dset_sessions dset_by_session].
  - intros p l g' [H1 H2]%(sw_proc _ _ _ _ S) (g & Hg & ->)%Heap.
    rewrite (Cur _ _ Hg) by (by eapply ki_live). destruct (gi_proc _ _ G _ _ H1) as (g2 & Hg2 & <-).
    assert (g2 = g) as -> by congruence.
    destruct (decide (g_proc g ∈ ps)) as [Hin|]; [by apply (H2 Hin)|by eapply ki_live].
  - intros l g' (g & Hg & ->)%Heap. rewrite swept_g_proc. destruct (decide (g_regs g = ∅)) as [He|Hne].
    { by rewrite (Dead _ _ Hg He). }
    rewrite (Cur _ _ Hg Hne). intros Hne'. apply (sw_proc _ _ _ _ S). split; [by eapply ki_cur|].
    intros Hin g0 Hg0. assert (g0 = g) as -> by congruence. by rewrite decide_True in Hne'.
  - intros l g' x (g & Hg & ->)%Heap. rewrite swept_g_proc, Hid, owns_removing, <- (ki_regs _ _ K _ _ _ Hg).
    destruct (decide (g_regs g = ∅)) as [He|Hne].
    { rewrite (Dead _ _ Hg He), He, lookup_empty. split; [by intros []|]. by intros [_ []]. }
    rewrite (Cur _ _ Hg Hne). destruct (decide (g_proc g ∈ ps)) as [Hin|Hout].
    + cbn [strip g_regs]. destruct (decide (x = sid)) as [->|n].
      * rewrite lookup_delete. split; [by intros []|]. by intros [].
      * rewrite lookup_delete_ne by done. tauto.
    + split; [|by intros []]. intros Hx. split; [|done]. intros ->. apply Hout, Ps. exists (g_id g).
      apply owns_listed. by apply (ki_regs _ _ K _ _ _ Hg).
  - intros x p i [_ H]%owns_removing. destruct (ki_owns _ _ K _ _ _ H) as (l & g & H1 & H2 & H3).
    exists l, (swept_g d sid ps l g). rewrite (sw_heap _ _ _ _ S), H1, swept_g_proc, Hid. done.
  - intros x i l g' Hb (g & Hg & ->)%Heap.
    change (match delete sid (d_by_session d1) !! x with Some mm => mm !! i | None => None end = Some l) in Hb.
    rewrite Bk in Hb. destruct (decide (x = sid)) as [|n]; [discriminate|].
    apply listed_removing. split; [done|]. rewrite swept_g_proc. by eapply ki_books.
  - intros x p i [n H]%listed_removing. destruct (ki_listed _ _ K _ _ _ H) as (l & g & H1 & H2 & H3).
    exists l, (swept_g d sid ps l g). split.
    + change (match delete sid (d_by_session d1) !! x with Some mm => mm !! i | None => None end = Some l).
      by rewrite Bk, decide_False.
    + by rewrite (sw_heap _ _ _ _ S), H2, swept_g_proc.
  - intros l g' (g & Hg & ->)%Heap. rewrite swept_g_proc, Hid. destruct (decide (g_regs g = ∅)) as [He|Hne].
    { by rewrite (Dead _ _ Hg He). }
    destruct (ki_callees _ _ K _ _ Hg Hne) as (N1 & N2 & N3).
    rewrite (Cur _ _ Hg Hne). destruct (decide (g_proc g ∈ ps)) as [Hin|Hout]; intros _.
    + cbn [strip g_regs g_callees]. split; [by apply NoDup_filter|]. split.
      * intros x [v [n Hx]%lookup_delete_Some]. apply elem_of_list_filter. split; [congruence|]. apply N2. by eexists.
      * intros x [n Hx]%elem_of_list_filter. apply listed_removing. split; [done|]. by apply N3.
    + split; [done|]. split; [done|]. intros x Hx. apply listed_removing. split; [|by apply N3].
      intros ->. apply Hout, Ps. exists (g_id g). by apply N3.
Qed.

(** ** Calls *)
Lemma pick_some o g : g_callees g <> [] -> exists c nx, d_pick o g = Some (c, nx).
Proof.
  intros Hne.
  assert (K : forall k nx, (k < length (g_callees g))%nat ->
    exists c nx', (fun c => (c, nx : nat)) <$> g_callees g !! k = Some (c, nx')).
  { intros k nx Hk. apply lookup_lt_is_Some in Hk as [c ->]. cbn. eauto. }
  assert (0 < length (g_callees g))%nat by (destruct (g_callees g); cbn; [done|lia]).
  unfold d_pick. destruct (Nat.ltb_spec 1 (length (g_callees g))); [|by apply K].
  destruct (String.eqb _ _); [by apply K|]. destruct (String.eqb _ _); [apply K; lia|].
  destruct (String.eqb _ _).
  { destruct (Nat.leb_spec (length (g_callees g)) (g_next g)); apply K; lia. }
  destruct (String.eqb _ _); [|by apply K]. apply K. apply Nat.mod_upper_bound. lia.
Qed.
Lemma find_heap tr d o p l : ginv tr d -> d_find o d p = Some l -> is_Some (d_heap d !! l).
Proof.
  intros G. unfold d_find. rewrite size_test.
  assert (Ex : forall l, d_by_proc d !! p = Some l -> is_Some (d_heap d !! l)).
  { intros l0 H. destruct (gi_proc _ _ G _ _ H) as (g & ? & _). by eexists. }
  destruct (match d_by_proc d !! p with Some _ => _ | None => _ end); [by intros H%Ex|].
  destruct (longest_prefix (d_prefix d) p) as [l0|] eqn:E.
  { intros H; injection H as <-. apply longest_prefix_spec in E as (q & _ & Hq & _).
    destruct (gi_prefix _ _ G _ _ Hq) as (g & ? & _). by eexists. }
  destruct (d_by_proc d !! p) as [l0|] eqn:E1; [intros H; injection H as <-; by apply Ex|].
  destruct (List.find _ _) as [[q l0]|] eqn:F; [|discriminate]. cbn. intros H; injection H as <-.
  apply List.find_some in F as [F _]. apply elem_of_list_In, elem_of_shuf, elem_of_map_to_list in F.
  destruct (gi_wild _ _ G _ _ F) as (g & ? & _). by eexists.
Qed.

Lemma kind_call tr d o sid c : kinv tr d -> ginv tr d -> sinv tr d ->
  (disclosing_caller tr = true -> present tr sid) ->
  exists d' out, d_call o d sid c = Ret d' out /\
    ((d' = d /\ out = no_such c sid
      /\ (d_find o d (ca_procedure c) = None
          \/ exists l g, d_find o d (ca_procedure c) = Some l /\ d_heap d !! l = Some g /\ g_regs g = ∅))
     \/ exists l g v callee, out = DMsg (MInvocation v) callee /\ in_registration v = g_id g
          /\ d_find o d (ca_procedure c) = Some l /\ d_heap d !! l = Some g /\ g_regs g <> ∅
          /\ listed tr callee (g_proc g) (g_id g) /\ present tr callee).
Proof.
  intros K G S Hd.
  assert (At : forall x p i, listed tr x p i -> is_Some (d_sessions d !! x)).
  { intros x p i H. destruct (ki_listed _ _ K _ _ _ H) as (l & g & Hb & _). apply (si_dom _ _ S).
    unfold books in Hb. by destruct (d_by_session d !! x). }
  assert (R : exists d' out, d_call o d sid c = Ret d' out).
  { unfold d_call. destruct (d_find o d (ca_procedure c)) as [l|] eqn:F; [|eauto].
    destruct (find_heap _ _ _ _ _ G F) as [g Hg]. rewrite Hg. destruct (decide (g_regs g = ∅)) as [|Hne]; [eauto|].
    destruct (ki_callees _ _ K l g Hg Hne) as (_ & N2 & _).
    destruct (pick_some o g) as (callee & nx & ->).
    { apply map_choose in Hne as (x & v & Hx). intros E. specialize (N2 x). rewrite E in N2.
      apply (not_elem_of_nil x), N2. by eexists. }
    destruct (d_allocate _ sid c callee) as [dA i] eqn:A.
    assert (Hs : d_sessions dA = d_sessions d /\ d_details dA = d_details d).
    { destruct (allocate_cases _ _ _ _ _ _ A) as [(-> & _ & _)|(-> & _ & _)]; done. }
    destruct Hs as [-> ->]. rewrite (si_details _ _ S).
    assert (Send : forall w, exists d' out, d_send dA c i (g_id g) w callee = Ret d' out).
    { intros w. unfold d_send. destruct (d_sessions dA !! callee); eauto. }
    destruct (disclosing_caller tr) eqn:D; [|apply Send].
    pose proof (Hd eq_refl) as [s Hs]%present_as_present. apply (si_sess _ _ S) in Hs. rewrite Hs. apply Send. }
  destruct R as (d' & out & R). exists d', out. split; [done|].
  destruct (call_cases _ _ _ _ _ _ R) as
    [H|(l & g & callee & nx & i & who & F & Hg & Hne & P & A & _ & H)]; [by left|right].
  apply pick_in in P. destruct (ki_callees _ _ K l g Hg Hne) as (_ & _ & N3).
  destruct H as [[Hn _]|(s & Hs & ->)].
  { apply N3, At in P as [? ?]. congruence. }
  exists l, g, (invocation_for c i (g_id g) (invocation_details c sid who) s), callee. split; [done|].
  split; [unfold invocation_for; by destruct (_ && _)|]. split; [done|]. split; [done|]. split; [done|].
  split; [by apply N3|]. apply (sinv_present _ _ _ S). by eexists.
Qed.

(** ** Any step *)
Lemma listed_none tr d sid : kinv tr d -> ginv tr d -> (forall p g, ~ listed tr sid p g) ->
  d_by_session d !! sid = None \/ d_by_session d !! sid = Some ∅.
Proof.
  intros K G Hno. destruct (d_by_session d !! sid) as [mine|] eqn:M; [right|by left]. f_equal.
  apply map_empty. intros i. destruct (mine !! i) as [l|] eqn:E; [|done]. exfalso.
  destruct (gi_sess _ _ G _ _ _ _ M E) as (g & Hg & _). apply (Hno (g_proc g) i).
  eapply ki_books; [done| |done]. unfold books. by rewrite M.
Qed.

Local Ltac same H := apply H; [split; intros; by intros []|done|done|done].
Lemma kind_step tr d o op : kinv tr d -> ginv tr d -> cinv tr d -> sinv tr d -> uinv tr d ->
  N.of_nat (length tr) < two53 -> considerate tr op ->
  exists d' out, dstep o d op = Ret d' out /\ kinv ((op, out) :: tr) d'.
Proof.
  intros K G C S U Hb Hc.
  assert (Hid : d_idgen d < two53) by (rewrite (ci_ids _ _ C); pose proof (ci_len _ _ C); lia).
  assert (Same : forall e d', quiet e -> d_heap d' = d_heap d -> d_by_proc d' = d_by_proc d ->
     d_by_session d' = d_by_session d -> kinv (e :: tr) d').
  { intros e d' Q E1 E2 E3. eapply kinv_quiet; [done|done| |done|].
    - intros l. by rewrite E1.
    - intros x i. unfold books. by rewrite E3. }
  destruct op as [s|id|p|x|sid m]; cbn [dstep].
  - unfold d_add_session. destruct (d_sessions d !! se_id s) as [s0|] eqn:E.
    + eexists _, _. split; [reflexivity|]. same Same.
    + eexists _, _. split; [reflexivity|]. eapply kinv_quiet; [done|split; intros; by intros []|done|done|].
      intros x i. unfold books. cbn [d_by_session dset_sessions dset_by_session].
      destruct (decide (se_id s = x)) as [<-|n]; [|by rewrite lookup_insert_ne].
      rewrite lookup_insert. cbn. rewrite lookup_empty.
      destruct (d_by_session d !! se_id s) eqn:Eb; [|done].
      assert (is_Some (d_sessions d !! se_id s)) as [? ?]; [|congruence]. apply (si_dom _ _ S). by eexists.
  - destruct (d_sessions d !! id) as [s|] eqn:E.
    + destruct (kinv_remove tr d o id K G C) as (d' & H1 & H2); [by eexists|]. eauto.
    + unfold d_remove_session. rewrite E. eexists _, _. split; [reflexivity|]. same Same.
  - unfold d_has_procedure. destruct (d_by_proc d !! p) as [l|] eqn:E.
    + destruct (gi_proc _ _ G _ _ E) as (g & -> & _). eexists _, _. split; [reflexivity|]. same Same.
    + eexists _, _. split; [reflexivity|]. same Same.
  - eexists _, _. split; [reflexivity|]. same Same.
  - assert (Other : forall d' out,
      match m with MRegister _ | MUnregister _ => False | _ => True end ->
      (forall l, core <$> d_heap d' !! l = core <$> d_heap d !! l) -> d_by_proc d' = d_by_proc d ->
      d_by_session d' = d_by_session d ->
      kinv ((DReceive sid m, out) :: tr) d').
    { intros d' out E2 E3 E4 E5. eapply kinv_quiet; [done| |done|done|].
      - split; intros *; destruct m; try done; by intros [].
      - intros x i. unfold books. by rewrite E5. }
    destruct m; cbn [d_receive_message]; try (eexists _, _; split; [reflexivity|]; same Same).
    + destruct (d_error d m) as [d' out|w] eqn:E.
      2:{ unfold d_error in E. destruct (negb _); [discriminate|]. by destruct (d_pending d !! _). }
      exists d', out. split; [done|].
      destruct (error_cases _ _ _ _ E) as [(_ & -> & _)|[(_ & _ & -> & _)|(p & _ & _ & -> & _)]]; by apply Other.
    + destruct (kind_call tr d o sid m K G S (Hc KnownCaller)) as (d' & out & E & _).
      exists d', out. split; [done|]. destruct (call_cases _ _ _ _ _ _ E) as
        [(-> & _)|(l & g & cl & nx & i & who & F & L & _ & P & A & _)]; [by apply Other|].
      assert (HH : forall l0, core <$> <[l := set_next nx g]> (d_heap d) !! l0 = core <$> d_heap d !! l0).
      { intros l0. destruct (decide (l = l0)) as [<-|n]; [by rewrite lookup_insert, L|by rewrite lookup_insert_ne]. }
      destruct (allocate_cases _ _ _ _ _ _ A) as [(-> & _)|(-> & _)]; apply Other; done.
    + destruct (d_register d sid m) as [d' out|w] eqn:E.
      2:{ unfold d_register in E. destruct (d_by_session d !! sid); [|discriminate].
          destruct (d_by_proc d !! rg_procedure m) as [l|] eqn:P; [|discriminate].
          destruct (gi_proc _ _ G _ _ P) as (g1 & Hg & _). rewrite Hg in E. by destruct (_ || _). }
      exists d', out. split; [done|].
      destruct (register_cases _ _ _ _ _ E) as
        [(_ & -> & e & ->)|(mine & M & [(l & g & P & L & _ & -> & ->)|[(l & g & P & L & I1 & I2 & I3 & -> & ->)|(P & -> & ->)]])].
      * same Same.
      * same Same.
      * by eapply kinv_join.
      * by apply kinv_create.
    + specialize (Hc OnlyHeld). cbn in Hc. destruct Hc as [[p Ho]|Hno].
      * destruct (ki_listed _ _ K _ _ _ (owns_listed _ _ _ _ Ho)) as (l & g & Hbk & Hg & _).
        destruct (books_heap _ _ _ _ _ G Hbk) as (mine & g' & M & L & _ & _).
        assert (R : exists d' out, d_unregister d sid m = Ret d' out).
        { unfold d_unregister. rewrite M. destruct (decide (mine = ∅)); [eauto|]. rewrite L, Hg. eauto. }
        destruct R as (d' & out & R). exists d', out. split; [done|].
        destruct (unregister_cases _ _ _ _ _ R) as [([?|E]&_)|(mine' & l' & g2 & M' & L' & Hg' & -> & ->)]; [congruence| |].
        -- assert (mine = ∅) as -> by congruence. by rewrite lookup_empty in L.
        -- eapply kinv_unregister; try done. by exists p.
      * unfold d_unregister. destruct (listed_none _ _ _ K G Hno) as [->| ->].
        -- eexists _, _. split; [reflexivity|]. same Same.
        -- rewrite decide_True by done. eexists _, _. split; [reflexivity|]. same Same.
    + destruct (d_yield d m) as [d' out|w] eqn:E.
      2:{ unfold d_yield in E. destruct (d_pending d !! _) as [p|]; [|discriminate]. by destruct (d_sessions _ !! _). }
      exists d', out. split; [done|]. destruct (yield_cases _ _ _ _ E) as [(_ & -> & _)|(p & _ & -> & _)]; [by apply Other|].
      apply Other; [done|..]; by destruct (_ && _).
Qed.

Lemma follows_prefix rule h1 h2 : follows rule (h1 ++ h2) -> follows rule h1.
Proof. intros H a o op b d outs -> Hr. eapply H; [|done]. by rewrite <- app_assoc. Qed.

Lemma run_kinv h : considerate_history h -> N.of_nat (length h) <= two53 ->
  exists d outs, drun new_dealer h = Ret d outs /\ kinv (dtrace_of h outs) d.
Proof.
  induction h as [|[o op] h IH] using rev_ind; intros Hc Hb.
  { exists new_dealer, []. split; [done|]. apply kinv_init. }
  rewrite app_length in Hb. cbn [length] in Hb.
  destruct IH as (d & outs & R & K); [by eapply follows_prefix|lia|].
  destruct (run_cinv h d outs ltac:(lia) R) as [C Hl].
  destruct (kind_step (dtrace_of h outs) d o op K) as (d' & out & E & K').
  { by apply run_ginv. } { done. } { by apply run_sinv. } { apply run_uinv; [lia|done]. } { rewrite Hl. lia. }
  { eapply Hc; [done|exact R]. }
  exists d', (outs ++ [out]). split; [by eapply drun_snoc|].
  rewrite dtrace_snoc by (by eapply drun_length). done.
Qed.

(** ** The properties *)
Lemma considerate_never_panics h : considerate_history h -> N.of_nat (length h) <= two53 ->
  exists d outs, drun new_dealer h = Ret d outs.
Proof. intros H1 H2. destruct (run_kinv h H1 H2) as (d & outs & R & _). eauto. Qed.

Lemma considerate_inv h d outs : considerate_history h -> N.of_nat (length h) <= two53 ->
  drun new_dealer h = Ret d outs -> kinv (dtrace_of h outs) d.
Proof. intros H1 H2 R. destruct (run_kinv h H1 H2) as (d' & outs' & R' & K). rewrite R in R'. by injection R' as <- <-. Qed.

Lemma find_exact o d p l g : d_by_proc d !! p = Some l -> d_heap d !! l = Some g -> g_regs g <> ∅ ->
  d_find o d p = Some l.
Proof. intros P L Hne. unfold d_find. rewrite P, L. by rewrite bool_decide_false. Qed.

Lemma considerate_served h o sid c d0 outs b g : considerate_history h -> N.of_nat (length h) < two53 ->
  drun new_dealer h = Ret d0 outs ->
  let tr := dtrace_of h outs in
  (disclosing_caller tr = true -> present tr sid) -> owns tr b (ca_procedure c) g ->
  exists d v callee, dstep o d0 (DReceive sid (MCall c)) = Ret d (DMsg (MInvocation v) callee)
    /\ in_registration v = g /\ present tr callee /\ listed tr callee (ca_procedure c) g.
Proof.
  intros Hc Hb R tr Hd Ho. pose proof (considerate_inv h d0 outs Hc ltac:(lia) R) as K. fold tr in K.
  pose proof (run_ginv _ _ _ R) as G. pose proof (run_sinv _ _ _ R) as S. fold tr in G, S.
  destruct (ki_owns _ _ K _ _ _ Ho) as (l & gg & Hl & Ep & Ei).
  assert (Hne : g_regs gg <> ∅).
  { rewrite <- Ep, <- Ei in Ho. apply (ki_regs _ _ K _ _ _ Hl) in Ho as [v Hv]. intros E. by rewrite E, lookup_empty in Hv. }
  pose proof (ki_cur _ _ K _ _ Hl Hne) as P. rewrite Ep in P.
  pose proof (find_exact o d0 _ _ _ P Hl Hne) as F.
  destruct (kind_call tr d0 o sid c K G S Hd) as (d' & out & E & [(_ & _ & [?|(l' & g' & F' & L' & He)])|
     (l' & g' & v & callee & -> & Hi & F' & L' & _ & Hli & Hpr)]); [congruence..|].
  assert (l' = l) as -> by congruence. assert (g' = gg) as -> by congruence.
  exists d', v, callee. rewrite Ep, Ei in Hli. split; [done|]. split; [congruence|]. done.
Qed.

Lemma considerate_refused h o sid c d0 outs : considerate_history h -> N.of_nat (length h) < two53 ->
  drun new_dealer h = Ret d0 outs -> (disclosing_caller (dtrace_of h outs) = true -> present (dtrace_of h outs) sid) ->
  (forall x p g, owns (dtrace_of h outs) x p g -> ~ reaches (dtrace_of h outs) g p (ca_procedure c)) ->
  dstep o d0 (DReceive sid (MCall c))
    = Ret d0 (DMsg (refusal 48 (ca_request c) "wamp.error.no_such_procedure") sid).
Proof.
  intros Hc Hb R Hd Hno. pose proof (considerate_inv h d0 outs Hc ltac:(lia) R) as K.
  pose proof (run_ginv _ _ _ R) as G. pose proof (run_sinv _ _ _ R) as S.
  destruct (kind_call _ d0 o sid c K G S Hd) as (d' & out & E & [(-> & -> & _)|
     (l & g & v & callee & -> & Hi & F & L & Hne & _)]); [exact E|]. exfalso.
  apply map_choose in Hne as (x & y & Hx).
  apply (Hno x (g_proc g) (g_id g)).
  { apply (ki_regs _ _ K _ _ _ L). by eexists. }
  destruct (gi_heap _ _ G _ _ L) as [_ _ (z & pol & B1 & B2)].
  destruct (find_covers _ _ _ _ _ _ G F L) as [E1|[[E1 E2]|[E1 E2]]]; [by left|right; exists z, pol; split; [done|]..].
  - rewrite E1 in B1. by apply pol_name_inj in B1 as <-.
  - rewrite E1 in B1. by apply pol_name_inj in B1 as <-.
Qed.

Lemma considerate_register h o sid m d0 d outs out : considerate_history h -> N.of_nat (length h) < two53 ->
  drun new_dealer h = Ret d0 outs -> dstep o d0 (DReceive sid (MRegister m)) = Ret d out ->
  let tr := dtrace_of h outs in
  present tr sid ->
  (forall x g m', owns tr x (rg_procedure m) g -> registered_under tr g m' ->
     (invoke_policy m' <> "" /\ invoke_policy m' <> "single" /\ invoke_policy m' = invoke_policy m
      /\ out = DMsg (MRegistered (Registered (rg_request m) g)) sid)
     \/ ((invoke_policy m' = "" \/ invoke_policy m' = "single" \/ invoke_policy m' <> invoke_policy m)
         /\ out = DMsg (refusal 64 (rg_request m) "wamp.error.procedure_already_exists") sid /\ d = d0))
  /\ ((forall x g, ~ owns tr x (rg_procedure m) g) ->
      out = DMsg (MRegistered (Registered (rg_request m) (used tr + 1))) sid).
Proof.
  intros Hc Hb R Hs tr Hpr. pose proof (considerate_inv h d0 outs Hc ltac:(lia) R) as K.
  pose proof (run_ginv _ _ _ R) as G. pose proof (run_sinv _ _ _ R) as S.
  pose proof (run_uinv h d0 outs ltac:(lia) R) as U.
  destruct (run_cinv h d0 outs ltac:(lia) R) as [C Hl]. fold tr in K, G, S, U, C, Hl.
  assert (Hid : d_idgen d0 < two53) by (rewrite (ci_ids _ _ C); pose proof (ci_len _ _ C); lia).
  assert (Owned : forall x i, owns tr x (rg_procedure m) i -> exists l g,
     d_by_proc d0 !! rg_procedure m = Some l /\ d_heap d0 !! l = Some g /\ g_id g = i).
  { intros x i H. destruct (ki_owns _ _ K _ _ _ H) as (l & g & Hg & Ep & Ei). exists l, g.
    split; [|done]. rewrite <- Ep. apply (ki_cur _ _ K _ _ Hg). intros E.
    rewrite <- Ep, <- Ei in H. apply (ki_regs _ _ K _ _ _ Hg) in H as [v Hv]. by rewrite E, lookup_empty in Hv. }
  assert (Held : forall l, d_by_proc d0 !! rg_procedure m = Some l -> exists x i, owns tr x (rg_procedure m) i).
  { intros l P. destruct (gi_proc _ _ G _ _ P) as (g & Hg & <-).
    pose proof (ki_live _ _ K _ _ _ P Hg) as Hne. apply map_choose in Hne as (x & v & Hx).
    exists x, (g_id g). apply (ki_regs _ _ K _ _ _ Hg). by eexists. }
  cbn [dstep d_receive_message] in Hs.
  destruct (register_cases _ _ _ _ _ Hs) as
    [(M & _)|(mine & M & [(l & g0 & P & L & HH & -> & ->)|[(l & g0 & P & L & I1 & I2 & I3 & E1 & ->)|(P & E1 & ->)]])].
  - exfalso. apply (sinv_present _ _ _ S), (si_dom _ _ S) in Hpr. rewrite M in Hpr. by destruct Hpr.
  - split.
    + intros x i m' Ho Hm'. right. destruct (Owned _ _ Ho) as (l' & g' & P' & L' & <-).
      assert (l' = l) as -> by congruence. assert (g' = g0) as -> by congruence.
      destruct (ui_names _ _ U _ _ _ L Hm') as [E _]. rewrite <- E in HH. split; [|done].
      destruct HH as [?|[?|?]]; [by left|right; by left|right; right; congruence].
    + intros Hno. destruct (Held _ P) as (x & i & H). by apply Hno in H.
  - split.
    + intros x i m' Ho Hm'. left. destruct (Owned _ _ Ho) as (l' & g' & P' & L' & <-).
      assert (l' = l) as -> by congruence. assert (g' = g0) as -> by congruence.
      destruct (ui_names _ _ U _ _ _ L Hm') as [E _]. rewrite E. done.
    + intros Hno. destruct (Held _ P) as (x & i & H). by apply Hno in H.
  - split.
    + intros x g m' Ho Hm'. destruct (Owned _ _ Ho) as (l' & gg & P' & _). congruence.
    + intros _. by rewrite next_id_small, (ci_ids _ _ C) by done.
Qed.

(** ** Polite histories are considerate *)
Lemma polite_listed h : polite_history h -> forall d outs sid p g, drun new_dealer h = Ret d outs ->
  listed (dtrace_of h outs) sid p g -> owns (dtrace_of h outs) sid p g.
Proof.
  induction h as [|[o op] h IH] using rev_ind; intros Hp d outs sid p g R.
  { injection R as <- <-. done. }
  destruct (drun_snoc_inv _ _ _ _ _ _ R) as (d1 & o1 & out & R1 & E & ->).
  rewrite dtrace_snoc by (by eapply drun_length). intros [H|[H Hns]]; [by left|]. right.
  assert (Hp1 : polite_history h) by (by eapply polite_prefix).
  pose proof (IH Hp1 _ _ _ _ _ R1 H) as Ho. split; [done|]. intros Hu. apply Hns.
  pose proof (Hp h o op [] d1 o1 eq_refl R1) as Hpo.
  destruct op as [s|x|q|x|s m]; try done. destruct m; try done.
  destruct out as [| | |m' to]; try done. destruct m'; try done.
  cbn in Hu, Hpo. destruct Hu as [-> <-]. cbn. split; [done|]. split; [done|].
  destruct Hpo as [(q & _ & Hall)|Hno]; [done|]. by apply Hno in Ho.
Qed.
Lemma polite_considerate h : polite_history h -> considerate_history h.
Proof.
  intros Hp h1 o op h2 d outs E R x. pose proof (Hp _ _ _ _ _ _ E R) as Hpo.
  assert (Hp1 : polite_history h1) by (subst h; by eapply polite_prefix).
  destruct x, op as [s|y|q|y|s m]; try done; destruct m; try done; cbn in Hpo |- *.
  - intros (g & y & Hl & _). apply Hpo. exists g. by eapply polite_listed.
  - destruct Hpo as [(q & Ho & _)|Hno]; [left; eauto|right]. intros q g Hl. by eapply Hno, polite_listed.
Qed.
