(** A dealer's registrations of sessions that keep the rules, whatever the
    other sessions do. *)
From Verif Require Import Prelude Value Msg IdGen Types PathMatch Dealer DealerSpec.
From Verif Require Import BaseSpec BaseFacts TypesFacts DealerFacts DealerCases DealerCalls DealerRegs.
From Verif Require Import DealerStep DealerProofs DealerPolite DealerKindProofs.

Definition unshared (s : string) : Prop := s = "" \/ s = "single".
Definition added (tr : dtrace) (c : N) : Prop := exists s out, (DAdd s, out) ∈ tr /\ se_id s = c.

(** The rules, at the dealer: a session is added once, an honest session
    registers for itself only and gives up only what it holds. *)
Definition upright (honest : N -> Prop) (tr : dtrace) (op : dop) : Prop :=
  match op with
  | DAdd s => ~ added tr (se_id s)
  | DReceive c (MRegister m) => honest c -> unshared (invoke_policy m)
  | DReceive c (MUnregister u) => honest c -> exists p, owns tr c p (ur_registration u)
  | _ => True
  end.

Record vinv (honest : N -> Prop) (tr : dtrace) (d : dealer) : Prop := VInv {
  vi_callee : forall l g c, d_heap d !! l = Some g -> honest c -> c ∈ g_callees g ->
      g_callees g = [c] /\ unshared (g_invoke g) /\ (forall x, is_Some (g_regs g !! x) -> x = c)
      /\ (present tr c -> is_Some (g_regs g !! c) -> owns tr c (g_proc g) (g_id g));
  vi_owns : forall c p i, honest c -> owns tr c p i ->
      exists l g, books d c i = Some l /\ d_heap d !! l = Some g /\ g_proc g = p /\ c ∈ g_callees g
                  /\ is_Some (g_regs g !! c);
  vi_added : forall l g c, d_heap d !! l = Some g -> c ∈ g_callees g -> added tr c }.

Lemma added_mono e tr c : added tr c -> added (e :: tr) c.
Proof. intros (s & out & H & E). exists s, out. split; [by right|done]. Qed.
Lemma present_added tr c : present tr c -> added tr c.
Proof.
  induction tr as [|[op out] tr IH]; [done|]. cbn [present].
  destruct op as [s|x|p|x|sid m]; try (intros H; by apply added_mono, IH).
  - destruct out; try (intros H; by apply added_mono, IH).
    intros [H|H]; [|by apply added_mono, IH]. exists s, DOk. split; [by left|done].
  - destruct out; try (intros H; by apply added_mono, IH). intros [_ H]. by apply added_mono, IH.
Qed.

Lemma vinv_init honest : vinv honest [] new_dealer.
Proof. constructor; intros *; cbn; rewrite ?lookup_empty; try discriminate; done. Qed.

Definition face (g : registration) := (g_id g, g_proc g, g_regs g, g_callees g, g_invoke g).

(** Calls that concern no registration. *)
Lemma vinv_quiet honest e tr d d' : vinv honest tr d -> quiet e ->
  (forall c, present (e :: tr) c <-> present tr c) ->
  (forall l, face <$> d_heap d' !! l = face <$> d_heap d !! l) ->
  (forall c i, books d' c i = books d c i) -> vinv honest (e :: tr) d'.
Proof.
  intros V Q Hp Hh Hb.
  assert (Heap : forall l g', d_heap d' !! l = Some g' -> exists g, d_heap d !! l = Some g /\ face g' = face g).
  { intros l g' H. specialize (Hh l). rewrite H in Hh. destruct (d_heap d !! l) as [g|]; [|discriminate].
    injection Hh as E1 E2 E3 E4 E5. exists g. split; [done|]. unfold face. congruence. }
  constructor.
  - intros l g' c H Hc Hin. destruct (Heap _ _ H) as (g & Hg & E). injection E as E1 E2 E3 E4 E5.
    rewrite E1, E2, E3, E4, E5 in *. rewrite Hp, (quiet_owns _ _ _ _ _ Q). by eapply (vi_callee _ _ _ V).
  - intros c p i Hc Ho. rewrite (quiet_owns _ _ _ _ _ Q) in Ho.
    destruct (vi_owns _ _ _ V _ _ _ Hc Ho) as (l & g & H1 & H2 & H3 & H4 & H5).
    specialize (Hh l). rewrite H2 in Hh. destruct (d_heap d' !! l) as [g'|] eqn:E; [|discriminate].
    injection Hh as E1 E2 E3 E4 E5. exists l, g'. rewrite Hb, E2, E3, E4. done.
  - intros l g' c H Hin. destruct (Heap _ _ H) as (g & Hg & E). injection E as E1 E2 E3 E4 E5.
    rewrite E4 in Hin. by eapply added_mono, (vi_added _ _ _ V).
Qed.

Ltac vquiet := eapply vinv_quiet; [eassumption|split; cbn; intros; tauto|cbn; intros; tauto|try done|try done].

Lemma vinv_add honest tr d s d' out : vinv honest tr d -> ~ added tr (se_id s) -> d_add_session d s = Ret d' out ->
  vinv honest ((DAdd s, out) :: tr) d'.
Proof.
  intros V Hn. unfold d_add_session. destruct (d_sessions d !! se_id s) eqn:E; intros H; injection H as <- <-.
  { by vquiet. }
  constructor; cbn [d_heap dset_sessions dset_by_session].
  - intros l g c Hg Hc Hin. destruct (vi_callee _ _ _ V _ _ _ Hg Hc Hin) as (H1 & H2 & H3 & H4).
    split; [done|]. split; [done|]. split; [done|]. cbn [present owns is_registered is_unregistered].
    intros [<-|Hp] Hr; [|right; split; [by apply H4|tauto]]. exfalso. apply Hn. by eapply (vi_added _ _ _ V).
  - intros c p i Hc. cbn [owns is_registered is_unregistered]. intros [[? []]|[Ho _]].
    destruct (vi_owns _ _ _ V _ _ _ Hc Ho) as (l & g & H1 & H2 & H3 & H4 & H5). exists l, g. split; [|done].
    unfold books in *. cbn [d_by_session dset_sessions dset_by_session]. rewrite lookup_insert_ne; [done|].
    intros <-. apply Hn. by eapply (vi_added _ _ _ V).
  - intros l g c Hg Hin. by eapply added_mono, (vi_added _ _ _ V).
Qed.

(** REGISTER. *)
Lemma vinv_register honest tr d c m d' out : vinv honest tr d -> DealerCalls.cinv tr d -> ginv tr d -> d_idgen d < two53 ->
  (honest c -> unshared (invoke_policy m)) -> d_register d c m = Ret d' out ->
  vinv honest ((DReceive c (MRegister m), out) :: tr) d'.
Proof.
  intros V C G Hid Hpol H.
  assert (Hpres : forall mine, d_by_session d !! c = Some mine -> added tr c).
  { intros mine M. apply present_added, present_as_present.
    destruct (proj1 (ci_dom _ _ C c)) as [s Hs]; [by rewrite M|]. exists s. by apply (ci_sess _ _ C). }
  destruct (register_cases _ _ _ _ _ H) as
    [(_ & -> & e & ->)|(mine & M & [(l & g & P & L & _ & -> & ->)|[(l & g & P & L & I1 & I2 & I3 & -> & ->)|(P & -> & ->)]])].
  - by vquiet.
  - by vquiet.
  - (* joining *)
    assert (Hc : ~ honest c).
    { intros Hc. destruct (Hpol Hc) as [E|E]; congruence. }
    assert (Hg : forall x, honest x -> x ∉ g_callees g).
    { intros x Hx Hin. destruct (vi_callee _ _ _ V _ _ _ L Hx Hin) as (_ & [E|E] & _); congruence. }
    constructor; cbn [join_d d_heap].
    + intros l0 g0 x. destruct (decide (l = l0)) as [<-|n].
      * rewrite lookup_insert. intros E; injection E as <-. cbn [g_callees]. intros Hx.
        rewrite elem_of_app, elem_of_list_singleton. intros [Hin| ->]; [by apply Hg in Hin|done].
      * rewrite lookup_insert_ne by done. intros H0 Hx Hin.
        destruct (vi_callee _ _ _ V _ _ _ H0 Hx Hin) as (H1 & H2 & H3 & H4). split; [done|]. split; [done|]. split; [done|].
        cbn [present owns is_unregistered]. intros Hp Hr. right. split; [by apply H4|tauto].
    + intros x p i Hx. cbn [owns is_unregistered]. intros [(pol & H0 & _)|[Ho _]]; [by subst x|].
      destruct (vi_owns _ _ _ V _ _ _ Hx Ho) as (l0 & g0 & H1 & H2 & H3 & H4 & H5). exists l0, g0.
      assert (l0 <> l) by (intros ->; rewrite L in H2; injection H2 as ->; by apply Hg in H4).
      rewrite lookup_insert_ne by done. split; [|done]. unfold books in *. cbn [join_d d_by_session].
      rewrite lookup_insert_ne; [done|]. intros ->. done.
    + intros l0 g0 x. destruct (decide (l = l0)) as [<-|n].
      * rewrite lookup_insert. intros E; injection E as <-. cbn [g_callees].
        rewrite elem_of_app, elem_of_list_singleton. intros [Hin| ->]; apply added_mono; [by eapply (vi_added _ _ _ V)|by eapply Hpres].
      * rewrite lookup_insert_ne by done. intros H0 Hin. by eapply added_mono, (vi_added _ _ _ V).
  - (* creating *)
    assert (Hf : d_heap d !! d_fresh d = None).
    { destruct (d_heap d !! d_fresh d) eqn:E; [|done]. apply (gi_fresh _ _ G) in E. lia. }
    constructor; unfold create_d; cbn [d_heap].
    + intros l0 g0 x. destruct (decide (d_fresh d = l0)) as [<-|n].
      * rewrite lookup_insert. intros E; injection E as <-. cbn [g_callees g_invoke g_regs g_proc g_id]. intros Hx ->%elem_of_list_singleton.
        split; [done|]. split; [by apply Hpol|]. split.
        { intros y [z Hy]. by apply lookup_singleton_Some in Hy as [<- _]. }
        intros _ _. left. by eexists.
      * rewrite lookup_insert_ne by done. intros H0 Hx Hin.
        destruct (vi_callee _ _ _ V _ _ _ H0 Hx Hin) as (H1 & H2 & H3 & H4). split; [done|]. split; [done|]. split; [done|].
        cbn [present owns is_unregistered]. intros Hp Hr. right. split; [by apply H4|tauto].
    + intros x p i Hx. cbn [owns is_unregistered]. intros [(pol & <- & <- & <- & Hi & _)|[Ho _]].
      * exists (d_fresh d). eexists. rewrite lookup_insert. split; [|split; [done|]].
        -- unfold books. cbn [d_by_session]. rewrite lookup_insert. cbn. cbn in Hi. rewrite Hi. apply lookup_insert.
        -- cbn. split; [done|]. split; [by left|]. rewrite lookup_singleton. by eexists.
      * destruct (vi_owns _ _ _ V _ _ _ Hx Ho) as (l0 & g0 & H1 & H2 & H3 & H4 & H5). exists l0, g0.
        assert (l0 <> d_fresh d) by (intros ->; congruence).
        rewrite lookup_insert_ne by done. split; [|done].
        destruct (books_heap _ _ _ _ _ G H1) as (mine0 & g1 & M0 & B0 & L0 & E0).
        unfold books. cbn [d_by_session]. destruct (decide (c = x)) as [->|n]; [|by rewrite lookup_insert_ne, M0].
        rewrite lookup_insert. cbn. assert (mine0 = mine) as -> by congruence. rewrite lookup_insert_ne; [done|].
        rewrite next_id_small by done. apply (ci_heap_bound _ _ C) in L0. lia.
    + intros l0 g0 x. destruct (decide (d_fresh d = l0)) as [<-|n].
      * rewrite lookup_insert. intros E; injection E as <-. cbn [g_callees]. intros ->%elem_of_list_singleton.
        by eapply added_mono, Hpres.
      * rewrite lookup_insert_ne by done. intros H0 Hin. by eapply added_mono, (vi_added _ _ _ V).
Qed.

(** UNREGISTER. *)
Lemma vinv_unregister honest tr d c u d' out : vinv honest tr d -> ginv tr d -> uinv tr d ->
  (honest c -> exists p, owns tr c p (ur_registration u)) -> d_unregister d c u = Ret d' out ->
  vinv honest ((DReceive c (MUnregister u), out) :: tr) d'.
Proof.
  intros V G U Hown H.
  destruct (unregister_cases _ _ _ _ _ H) as [(_ & -> & e & ->)|(mine & l & g & M & L1 & L2 & -> & ->)].
  { by vquiet. }
  destruct (gi_sess _ _ G _ _ _ _ M L1) as (g' & L3 & Eid). assert (g' = g) as -> by congruence. clear L3.
  assert (HH : d_heap (unreg_d d c mine (ur_registration u) l g) = <[l := leave_g c g]> (d_heap d))
    by (unfold unreg_d; by destruct (decide _)).
  assert (HB : forall x i, x <> c \/ i <> ur_registration u ->
     books (unreg_d d c mine (ur_registration u) l g) x i = books d x i).
  { intros x i Hxi. unfold unreg_d, books. destruct (decide _); cbn [d_by_session dset_heap]; [|done].
    destruct (decide (c = x)) as [->|n]; [|by rewrite lookup_insert_ne].
    rewrite lookup_insert, M. cbn. rewrite lookup_delete_ne; [done|]. destruct Hxi; congruence. }
  constructor; rewrite ?HH.
  - intros l0 g0 x. destruct (decide (l = l0)) as [<-|n].
    + rewrite lookup_insert. intros E; injection E as <-. cbn [leave_g set_regs g_callees g_invoke g_regs g_proc g_id].
      intros Hx Hin. destruct (vi_callee _ _ _ V _ _ _ L2 Hx Hin) as (H1 & H2 & H3 & H4).
      split; [done|]. split; [done|]. split.
      { intros y [z [_ Hy]%lookup_delete_Some]. apply H3. by eexists. }
      cbn [present owns is_registered is_unregistered]. intros Hp [z [Hne Hz]%lookup_delete_Some]. right.
      split; [apply H4; [done|by eexists]|]. intros [? _]. done.
    + rewrite lookup_insert_ne by done. intros H0 Hx Hin.
      destruct (vi_callee _ _ _ V _ _ _ H0 Hx Hin) as (H1 & H2 & H3 & H4). split; [done|]. split; [done|]. split; [done|].
      cbn [present owns is_registered is_unregistered]. intros Hp Hr. right. split; [by apply H4|].
      intros [_ E]. apply n. eapply (ui_ids _ _ U); [exact L2|exact H0|congruence].
  - intros x p i Hx. cbn [owns is_registered is_unregistered]. intros [[? []]|[Ho Hno]].
    destruct (vi_owns _ _ _ V _ _ _ Hx Ho) as (l0 & g0 & H1 & H2 & H3 & H4 & H5).
    destruct (books_heap _ _ _ _ _ G H1) as (mine0 & g1 & M0 & B0 & L0 & E0).
    assert (Hxi : x <> c \/ i <> ur_registration u).
    { destruct (decide (x = c)) as [->|]; [|by left]. right. intros ->. by apply Hno. }
    exists l0. rewrite (HB _ _ Hxi). destruct (decide (l = l0)) as [<-|n].
    + assert (g0 = g) as -> by congruence. exists (leave_g c g). rewrite lookup_insert. split; [done|]. split; [done|].
      cbn [leave_g set_regs g_callees g_regs g_proc]. split; [done|]. split; [done|].
      destruct Hxi as [Hxc|Hi]; [|exfalso; congruence]. by rewrite lookup_delete_ne.
    + exists g0. rewrite lookup_insert_ne by done. done.
  - intros l0 g0 x. destruct (decide (l = l0)) as [<-|n].
    + rewrite lookup_insert. intros E; injection E as <-. intros Hin. by eapply added_mono, (vi_added _ _ _ V).
    + rewrite lookup_insert_ne by done. intros H0 Hin. by eapply added_mono, (vi_added _ _ _ V).
Qed.

(** Removal. *)
Lemma drop_only x c cs : drop_callee x [c] = Some cs -> cs = if decide (c = x) then [] else [c].
Proof.
  rewrite drop_callee_nodup by apply NoDup_singleton. intros H; injection H as <-.
  destruct (decide (c = x)) as [->|n]; cbn.
  - by rewrite decide_False by tauto.
  - by rewrite decide_True.
Qed.

(** [s] is what is left of an honest session's object [g] while [x] is removed. *)
Record shed (x : N) (d d' : dealer) : Prop := Shed {
  sh_books : d_by_session d' = d_by_session d;
  sh_down : forall l g', d_heap d' !! l = Some g' -> exists g, d_heap d !! l = Some g
      /\ g_id g' = g_id g /\ g_proc g' = g_proc g /\ g_invoke g' = g_invoke g
      /\ (forall c, c ∈ g_callees g' -> c ∈ g_callees g)
      /\ (forall c, is_Some (g_regs g' !! c) -> is_Some (g_regs g !! c))
      /\ (forall c, g_callees g = [c] -> c ∈ g_callees g' -> g_callees g' = [c]);
  sh_up : forall l g c, d_heap d !! l = Some g -> c <> x -> g_callees g = [c] -> is_Some (g_regs g !! c) ->
      exists g', d_heap d' !! l = Some g' /\ g_proc g' = g_proc g /\ g_callees g' = [c] /\ is_Some (g_regs g' !! c) }.
Lemma shed_refl x d : shed x d d.
Proof. constructor; [done|eauto 10|eauto 10]. Qed.
Lemma shed_trans x a b c : shed x a b -> shed x b c -> shed x a c.
Proof.
  intros [B1 D1 U1] [B2 D2 U2]. constructor; [congruence|..].
  - intros l g (g1 & H1 & E1 & E2 & E3 & E4 & E5 & E6)%D2. destruct (D1 _ _ H1) as (g0 & H0 & F1 & F2 & F3 & F4 & F5 & F6).
    exists g0. split; [done|]. repeat (split; [congruence|]). split; [by auto|]. split; [by auto|].
    intros y Hy Hin. apply E6; [|done]. apply F6; [done|]. by apply E4.
  - intros l g y Hg Hy Hc Hr. destruct (U1 _ _ _ Hg Hy Hc Hr) as (g1 & H1 & E1 & E2 & E3).
    destruct (U2 _ _ _ H1 Hy E2 E3) as (g2 & H2 & F1 & F2 & F3). exists g2. split; [done|]. split; [congruence|]. done.
Qed.
Lemma shed_loop x ls : forall d d' u, d_remove_loop x d ls = Ret d' u -> shed x d d'.
Proof.
  induction ls as [|l ls IH]; intros d d' u; cbn [d_remove_loop].
  { intros H; injection H as <-. apply shed_refl. }
  destruct (d_remove_body x d l) as [d1 u1|w] eqn:B; [|discriminate].
  intros H. eapply shed_trans; [|eapply IH; exact H]. clear H IH.
  destruct (d_heap d !! l) as [reg|] eqn:L.
  2:{ unfold d_remove_body in B. by rewrite L in B. }
  rewrite (remove_body_eq _ _ _ _ L) in B.
  destruct (d_by_proc d !! g_proc reg) as [l'|] eqn:P; [|injection B as <-; apply shed_refl].
  destruct (d_heap d !! l') as [g|] eqn:L'; [|discriminate].
  destruct (drop_callee x (g_callees g)) as [cs|] eqn:D; [|discriminate].
  injection B as <-. constructor; cbn [removed_d d_by_session d_heap]; [done|..].
  - intros l0 g0. destruct (decide (l' = l0)) as [<-|n].
    + rewrite lookup_insert. intros E; injection E as <-. exists g. cbn [g_id g_proc g_invoke g_callees g_regs].
      repeat (split; [done|]). split; [|split].
      * intros c. by eapply drop_callee_sub.
      * intros c [z [_ Hz]%lookup_delete_Some]. by eexists.
      * intros c Hc Hin. rewrite Hc in D. apply drop_only in D. subst cs. by destruct (decide (c = x)); [apply elem_of_nil in Hin|].
    + rewrite lookup_insert_ne by done. intros Hl0. exists g0. eauto 10.
  - intros l0 g0 c H0 Hc Hg Hr. destruct (decide (l' = l0)) as [<-|n].
    + assert (g0 = g) as -> by congruence. eexists. rewrite lookup_insert. split; [done|]. cbn [g_proc g_callees g_regs].
      split; [done|]. rewrite Hg in D. apply drop_only in D. rewrite decide_False in D by done. split; [done|].
      by rewrite lookup_delete_ne.
    + rewrite lookup_insert_ne by done. eauto 10.
Qed.

Lemma vinv_remove honest tr o d x d' out : vinv honest tr d -> d_remove_session o d x = Ret d' out ->
  vinv honest ((DRemove x, out) :: tr) d'.
Proof.
  intros V. unfold d_remove_session. destruct (d_sessions d !! x).
  2:{ intros H; injection H as <- <-. by vquiet. }
  destruct (d_remove_loop x d _) as [d1 u|w] eqn:L; [|discriminate].
  intros H; injection H as <- <-. apply shed_loop in L as [B D Up].
  constructor; cbn [d_heap dset_sessions dset_by_session].
  - intros l g' c H0 Hc Hin. destruct (D _ _ H0) as (g & Hg & E1 & E2 & E3 & E4 & E5 & E6).
    destruct (vi_callee _ _ _ V _ _ _ Hg Hc (E4 _ Hin)) as (H1 & H2 & H3 & H4).
    split; [by apply E6|]. rewrite E1, E2, E3. split; [done|]. split; [by auto|].
    cbn [present owns is_registered is_unregistered]. intros [Hne Hp] Hr. right. split; [by auto|congruence].
  - intros c p i Hc. cbn [owns is_registered is_unregistered]. intros [[? []]|[Ho Hne]].
    destruct (vi_owns _ _ _ V _ _ _ Hc Ho) as (l & g & H1 & H2 & H3 & H4 & H5).
    destruct (vi_callee _ _ _ V _ _ _ H2 Hc H4) as (H6 & _).
    destruct (Up _ _ c H2 ltac:(congruence) H6 H5) as (g' & F1 & F2 & F3 & F4). exists l, g'.
    split; [|rewrite F3; split; [done|]; split; [congruence|]; split; [by left|done]].
    unfold books in *. cbn [d_by_session dset_sessions dset_by_session]. rewrite lookup_delete_ne by congruence. by rewrite B.
  - intros l g' c H0 Hin. destruct (D _ _ H0) as (g & Hg & _ & _ & _ & E4 & _).
    by eapply added_mono, (vi_added _ _ _ V), E4.
Qed.

Lemma vinv_step honest tr d o op d' out : vinv honest tr d -> DealerCalls.cinv tr d -> ginv tr d -> uinv tr d ->
  d_idgen d < two53 -> upright honest tr op -> dstep o d op = Ret d' out -> vinv honest ((op, out) :: tr) d'.
Proof.
  intros V C G U Hid Hup. destruct op as [s|x|p|x|c m]; cbn [dstep upright] in *.
  - by apply vinv_add.
  - by apply vinv_remove.
  - unfold d_has_procedure. destruct (d_by_proc d !! p) as [l|].
    + destruct (d_heap d !! l); [|discriminate]. intros H; injection H as <- <-. by vquiet.
    + intros H; injection H as <- <-. by vquiet.
  - intros H; injection H as <- <-. by vquiet.
  - assert (Same : d' = d -> quiet (DReceive c m, out) -> vinv honest ((DReceive c m, out) :: tr) d').
    { intros -> Q. by eapply vinv_quiet; [eassumption|exact Q|cbn; tauto|..]. }
    destruct m; cbn [d_receive_message];
      try (intros H; injection H as <- <-; apply Same; [done|split; cbn; intros; tauto]).
    + intros H. destruct (error_cases _ _ _ _ H) as
        [(_ & -> & _)|[(_ & _ & -> & _)|(p & _ & _ & -> & _)]]; by vquiet.
    + intros H. destruct (call_cases _ _ _ _ _ _ H) as
        [(-> & _)|(l & g & callee & nx & i & who & F & L & E & P & A & _)]; [by vquiet|].
      assert (Hd : d_heap d' = <[l := set_next nx g]> (d_heap d) /\ d_by_session d' = d_by_session d).
      { destruct (allocate_cases _ _ _ _ _ _ A) as [(-> & _)|(-> & _)]; done. }
      destruct Hd as [Hd1 Hd2]. eapply vinv_quiet; [done|split; cbn; intros; tauto|cbn; tauto| |].
      * intros l0. rewrite Hd1. destruct (decide (l = l0)) as [<-|n]; [by rewrite lookup_insert, L|by rewrite lookup_insert_ne].
      * intros y j. unfold books. by rewrite Hd2.
    + intros H. by eapply vinv_register.
    + intros H. by eapply vinv_unregister.
    + intros H. destruct (yield_cases _ _ _ _ H) as [(_ & -> & _)|(p & _ & -> & _)]; [by vquiet|].
      destruct (_ && _); by vquiet.
Qed.

(** What the network needs to know. *)

(** An invocation for an honest session concerns a registration it holds. *)
Lemma upright_invoked honest tr d o c m d' v callee : vinv honest tr d -> ginv tr d -> honest callee -> present tr callee ->
  d_call o d c m = Ret d' (DMsg (MInvocation v) callee) -> exists p, owns tr callee p (in_registration v).
Proof.
  intros V G Hc Hp H.
  destruct (call_cases _ _ _ _ _ _ H) as
    [(_ & E & _)|(l & g & cl & nx & i & who & F & L & E & P & A & _ & [[_ ?]|(s & _ & E')])]; [discriminate|discriminate|].
  injection E' as -> <-. apply pick_in in P.
  destruct (vi_callee _ _ _ V _ _ _ L Hc P) as (_ & _ & H3 & H4). exists (g_proc g).
  assert (is_Some (g_regs g !! callee)) as Hr.
  { destruct (map_choose _ E) as (y & z & Hy). assert (is_Some (g_regs g !! y)) as Hs by (by eexists).
    by rewrite (H3 _ Hs) in Hs. }
  specialize (H4 Hp Hr). unfold invocation_for. by destruct (_ && _).
Qed.

(** An honest session's UNREGISTER works. *)
Lemma upright_unregister honest tr d o c u : vinv honest tr d -> honest c -> (exists p, owns tr c p (ur_registration u)) ->
  exists d', dstep o d (DReceive c (MUnregister u)) = Ret d' (DMsg (MUnregistered (Unregistered (ur_request u))) c).
Proof.
  intros V Hc [p Ho]. destruct (vi_owns _ _ _ V _ _ _ Hc Ho) as (l & g & H1 & H2 & _).
  cbn [dstep d_receive_message]. unfold d_unregister. unfold books in H1.
  destruct (d_by_session d !! c) as [mine|] eqn:M; [|discriminate]. cbn in H1.
  rewrite decide_False by (intros ->; by rewrite lookup_empty in H1). rewrite H1, H2. by eexists.
Qed.
