(** What the dealer still holds when every session has left. *)
From Verif Require Import Prelude Value Msg IdGen Types PathMatch Dealer DealerSpec.
From Verif Require Import BaseSpec BaseFacts TypesFacts DealerFacts DealerCases DealerCalls DealerRegs.
From Verif Require Import DealerKindProofs DealerSim DealerStep DealerPolite.

(** Every procedure name leads to an object somebody holds, and whoever holds
    it has it among their own registrations. *)
Definition linv (d : dealer) : Prop := forall p l, d_by_proc d !! p = Some l ->
  exists g, d_heap d !! l = Some g /\ g_regs g <> ∅
    /\ forall x, is_Some (g_regs g !! x) -> books d x (g_id g) = Some l.

Lemma linv_init : linv new_dealer.
Proof. intros p l. cbn. by rewrite lookup_empty. Qed.

Lemma linv_same d d' : linv d -> d_by_proc d' = d_by_proc d ->
  (forall l g, d_heap d !! l = Some g -> exists g', d_heap d' !! l = Some g' /\ g_regs g' = g_regs g /\ g_id g' = g_id g) ->
  (forall c i, books d' c i = books d c i) -> linv d'.
Proof.
  intros L Hp Hh Hb p l. rewrite Hp. intros P. destruct (L _ _ P) as (g & G & R & B).
  destruct (Hh _ _ G) as (g' & G' & E1 & E2). exists g'. rewrite E1, E2. split; [done|]. split; [done|].
  intros x Hx. rewrite Hb. by apply B.
Qed.

Lemma linv_body tr x d l d' u : linv d -> ginv tr d -> d_remove_body x d l = Ret d' u ->
  linv d' /\ d_by_session d' = d_by_session d /\ d_sessions d' = d_sessions d
  /\ (forall q k, d_by_proc d' !! q = Some k -> d_by_proc d !! q = Some k)
  /\ (forall k g', d_heap d' !! k = Some g' -> exists g, d_heap d !! k = Some g /\
        (forall y, is_Some (g_regs g' !! y) -> is_Some (g_regs g !! y)))
  /\ (forall q g, d_by_proc d' !! q = Some l -> d_heap d' !! l = Some g -> g_regs g !! x = None).
Proof.
  intros V G B.
  destruct (d_heap d !! l) as [reg|] eqn:L.
  2:{ unfold d_remove_body in B. by rewrite L in B. }
  rewrite (remove_body_eq _ _ _ _ L) in B.
  destruct (d_by_proc d !! g_proc reg) as [l'|] eqn:P.
  2:{ injection B as <- _. split; [done|]. do 3 (split; [done|]). split; [eauto|].
      intros q g Q _. destruct (gi_proc _ _ G _ _ Q) as (g1 & G1 & E). congruence. }
  destruct (d_heap d !! l') as [g|] eqn:L'; [|discriminate].
  destruct (drop_callee x (g_callees g)) as [cs|] eqn:D; [|discriminate].
  injection B as <- _. destruct (gi_proc _ _ G _ _ P) as (g1 & G1 & E1). assert (g1 = g) as -> by congruence. clear G1.
  assert (Sub : forall q k, d_by_proc (removed_d d x l' g cs) !! q = Some k -> d_by_proc d !! q = Some k).
  { intros q k. unfold removed_d. cbn [d_by_proc]. destruct (decide _); [|done]. by intros [_ ?]%lookup_delete_Some. }
  split; [|split; [done|split; [done|split; [done|split]]]].
  - intros q k Q. pose proof (Sub _ _ Q) as Q0. destruct (V _ _ Q0) as (g0 & G0 & R0 & B0).
    unfold removed_d. cbn [d_heap]. destruct (decide (l' = k)) as [<-|n].
    + assert (g0 = g) as -> by congruence. rewrite lookup_insert. eexists. split; [done|]. cbn [g_regs g_id].
      destruct (gi_proc _ _ G _ _ Q0) as (g2 & G2 & E2). assert (g2 = g) as -> by congruence.
      split.
      * intros E. unfold removed_d in Q. cbn [d_by_proc] in Q. rewrite decide_True in Q by done.
        rewrite E2, lookup_delete in Q. done.
      * intros y [z Hz]. apply lookup_delete_Some in Hz as [n Hz]. apply (B0 y). by exists z.
    + rewrite lookup_insert_ne by done. exists g0. split; [done|]. split; [done|]. exact B0.
  - intros k g'. unfold removed_d. cbn [d_heap]. destruct (decide (l' = k)) as [<-|n].
    + rewrite lookup_insert. intros E; injection E as <-. exists g. split; [done|]. cbn [g_regs].
      intros y [z Hz]. apply lookup_delete_Some in Hz as [_ Hz]. by exists z.
    + rewrite lookup_insert_ne by done. eauto.
  - intros q g0 Q. pose proof (Sub _ _ Q) as Q0. destruct (gi_proc _ _ G _ _ Q0) as (g2 & G2 & E2).
    assert (g2 = reg) as -> by congruence. assert (l' = l) as -> by congruence.
    unfold removed_d. cbn [d_heap]. rewrite lookup_insert. intros E; injection E as <-. cbn [g_regs].
    apply lookup_delete.
Qed.

Lemma linv_loop tr x ls : forall d d' u, linv d -> ginv tr d -> d_remove_loop x d ls = Ret d' u ->
  linv d' /\ d_by_session d' = d_by_session d /\ d_sessions d' = d_sessions d
  /\ (forall q k, d_by_proc d' !! q = Some k -> d_by_proc d !! q = Some k)
  /\ (forall k g', d_heap d' !! k = Some g' -> exists g, d_heap d !! k = Some g /\
        (forall y, is_Some (g_regs g' !! y) -> is_Some (g_regs g !! y)))
  /\ (forall q k g, k ∈ ls -> d_by_proc d' !! q = Some k -> d_heap d' !! k = Some g -> g_regs g !! x = None).
Proof.
  induction ls as [|l ls IH]; intros d d' u V G; cbn [d_remove_loop].
  { intros H; injection H as <- _. repeat split; try done; [eauto|]. by intros q k g []%elem_of_nil. }
  destruct (d_remove_body x d l) as [d1 u1|w] eqn:B; [|discriminate]. intros H.
  assert (B' : d_remove_loop x d [l] = Ret d1 u1) by (cbn [d_remove_loop]; rewrite B; by destruct u1).
  pose proof (ginv_remove_loop _ _ _ _ _ _ G B') as G1. clear B'.
  destruct (linv_body _ _ _ _ _ _ V G B) as (V1 & S1 & T1 & P1 & H1 & N1).
  destruct (IH _ _ _ V1 G1 H) as (V2 & S2 & T2 & P2 & H2 & N2).
  split; [done|]. split; [congruence|]. split; [congruence|]. split; [eauto|]. split.
  - intros k g' Hg. destruct (H2 _ _ Hg) as (g1 & Hg1 & F1). destruct (H1 _ _ Hg1) as (g0 & Hg0 & F0). eauto.
  - intros q k g [->|Hk]%elem_of_cons Q Hg; [|by eapply N2].
    destruct (H2 _ _ Hg) as (g1 & Hg1 & F1). pose proof (N1 _ _ (P2 _ _ Q) Hg1) as N.
    destruct (g_regs g !! x) as [z|] eqn:E; [|done]. destruct (F1 x) as [z' Hz]; [by exists z|]. congruence.
Qed.

Lemma linv_remove tr o d x d' out : linv d -> ginv tr d -> d_remove_session o d x = Ret d' out -> linv d'.
Proof.
  intros V G. unfold d_remove_session. destruct (d_sessions d !! x).
  2:{ intros H; injection H as <- _. done. }
  set (mine := default ∅ (d_by_session d !! x)).
  assert (Min : forall i l, books d x i = Some l -> l ∈ map snd (shuf (o_first o) (map_to_list mine))).
  { intros i l H. rewrite elem_of_list_fmap. setoid_rewrite elem_of_shuf. exists (i, l). split; [done|].
    apply elem_of_map_to_list. unfold books in H. unfold mine. destruct (d_by_session d !! x); [done|discriminate]. }
  destruct (d_remove_loop x d _) as [d1 u|w] eqn:L; [|discriminate].
  intros H; injection H as <- _. destruct (linv_loop _ _ _ _ _ _ V G L) as (V1 & S1 & T1 & P1 & H1 & N1).
  intros p l. cbn [d_by_proc dset_sessions dset_by_session]. intros P.
  destruct (V1 _ _ P) as (g & Hg & R & B). exists g. cbn [d_heap dset_sessions dset_by_session].
  split; [done|]. split; [done|]. intros y Hy. pose proof (B _ Hy) as By.
  unfold books in *. cbn [d_by_session dset_sessions dset_by_session].
  destruct (decide (y = x)) as [->|n]; [|by rewrite lookup_delete_ne by done].
  exfalso. rewrite S1 in By. pose proof (N1 _ _ _ (Min _ _ By) P Hg) as N. destruct Hy. congruence.
Qed.

Lemma linv_step tr d o op d' out : linv d -> cinv tr d -> ginv tr d -> uinv tr d -> d_idgen d < two53 ->
  dstep o d op = Ret d' out -> linv d'.
Proof.
  intros V C G U Hid. destruct op as [s|x|q|x|c m]; cbn [dstep].
  - unfold d_add_session. destruct (d_sessions d !! se_id s) eqn:S; intros H; injection H as <- _; [done|].
    eapply linv_same; [done|done|eauto|]. intros c i. unfold books.
    cbn [d_by_session dset_sessions dset_by_session].
    destruct (decide (se_id s = c)) as [<-|n]; [|by rewrite lookup_insert_ne].
    rewrite lookup_insert. cbn. rewrite lookup_empty.
    destruct (d_by_session d !! se_id s) eqn:B; [|done].
    destruct (proj1 (ci_dom _ _ C (se_id s))) as [z Hz]; [by eexists|]. congruence.
  - by eapply linv_remove.
  - unfold d_has_procedure. destruct (d_by_proc d !! q) as [l|]; [|by intros H; injection H as <- _].
    destruct (d_heap d !! l); [|discriminate]. by intros H; injection H as <- _.
  - intros H; injection H as <- _. done.
  - destruct m; cbn [d_receive_message]; try (intros H; injection H as <- _; done).
    + intros H. destruct (error_cases _ _ _ _ H) as
        [(_ & -> & _)|[(_ & _ & -> & _)|(q & _ & _ & -> & _)]]; done.
    + intros H. destruct (call_cases _ _ _ _ _ _ H) as
        [(-> & _)|(l & g & callee & nx & i & who & F & L & E & P & A & _)]; [done|].
      assert (Hd : d_heap d' = <[l := set_next nx g]> (d_heap d) /\ d_by_session d' = d_by_session d /\ d_by_proc d' = d_by_proc d).
      { destruct (allocate_cases _ _ _ _ _ _ A) as [(-> & _)|(-> & _)]; done. }
      destruct Hd as (Hd1 & Hd2 & Hd3). eapply linv_same; [done|done| |].
      * intros l0 g0 H0. rewrite Hd1. destruct (decide (l = l0)) as [<-|n].
        -- rewrite lookup_insert. assert (g0 = g) as -> by congruence. eauto.
        -- rewrite lookup_insert_ne by done. eauto.
      * intros y j. unfold books. by rewrite Hd2.
    + intros H. destruct (register_cases _ _ _ _ _ H) as [(_ & -> & _)|(mine & M & [(l & g & P & L & _ & -> & _)|[(l & g & P & L & N1 & N2 & _ & -> & _)|(P & -> & _)]])]; [done|done| |].
      * intros p k. cbn [join_d d_by_proc d_heap]. intros Q.
        assert (Q0 : d_by_proc d !! p = Some k).
        { destruct (decide (rg_procedure m = p)) as [<-|n]; [|by rewrite lookup_insert_ne in Q].
          rewrite lookup_insert in Q. congruence. }
        destruct (V _ _ Q0) as (g0 & G0 & R0 & B0). unfold books. cbn [join_d d_by_session].
        destruct (decide (l = k)) as [<-|n].
        -- assert (g0 = g) as -> by congruence. rewrite lookup_insert. eexists. split; [done|]. cbn [g_regs g_id].
           split; [apply insert_non_empty|]. intros x Hx. destruct (decide (c = x)) as [<-|nx].
           ++ rewrite lookup_insert. cbn. by rewrite lookup_insert.
           ++ rewrite lookup_insert_ne in Hx by done. rewrite lookup_insert_ne by done. exact (B0 x Hx).
        -- rewrite lookup_insert_ne by done. exists g0. split; [done|]. split; [done|]. intros x Hx.
           pose proof (B0 x Hx) as Bx. unfold books in Bx. destruct (decide (c = x)) as [<-|nx].
           ++ rewrite lookup_insert. rewrite M in Bx. cbn in *. rewrite lookup_insert_ne; [done|].
              intros E. apply n. by eapply (ui_ids _ _ U).
           ++ by rewrite lookup_insert_ne by done.
      * intros p k. unfold create_d. cbn [d_by_proc d_heap]. intros Q. unfold books. cbn [d_by_session].
        destruct (decide (rg_procedure m = p)) as [<-|n].
        -- rewrite lookup_insert in Q. injection Q as <-. rewrite lookup_insert. eexists. split; [done|].
           cbn [g_regs g_id]. split; [apply map_non_empty_singleton|]. intros x [z [<- _]%lookup_singleton_Some].
           rewrite lookup_insert. cbn. by rewrite lookup_insert.
        -- rewrite lookup_insert_ne in Q by done. destruct (V _ _ Q) as (g0 & G0 & R0 & B0).
           pose proof (gi_fresh _ _ G _ _ G0). rewrite lookup_insert_ne by lia.
           exists g0. split; [done|]. split; [done|]. intros x Hx.
           pose proof (B0 x Hx) as Bx. unfold books in Bx. destruct (decide (c = x)) as [<-|nx].
           ++ rewrite lookup_insert. rewrite M in Bx. cbn in *. rewrite lookup_insert_ne; [done|].
              pose proof (ci_heap_bound _ _ C _ _ G0). rewrite next_id_small by done. lia.
           ++ by rewrite lookup_insert_ne by done.
    + intros H. destruct (unregister_cases _ _ _ _ _ H) as [(_ & -> & _)|(mine & l & g & M & L & Hg & -> & _)]; [done|].
      intros p k. unfold unreg_d. destruct (decide (delete c (g_regs g) = ∅)) as [E|E].
      * cbn [d_by_proc d_heap]. intros [n Q]%lookup_delete_Some. destruct (V _ _ Q) as (g0 & G0 & R0 & B0).
        assert (nk : l <> k).
        { intros ->. destruct (gi_proc _ _ G _ _ Q) as (g1 & ? & ?). congruence. }
        rewrite lookup_insert_ne by done. exists g0. split; [done|]. split; [done|]. intros x Hx.
        pose proof (B0 x Hx) as Bx. unfold books in *. cbn [d_by_session]. destruct (decide (c = x)) as [<-|nx].
        -- rewrite lookup_insert. rewrite M in Bx. cbn in *. rewrite lookup_delete_ne; [done|]. intros E2. congruence.
        -- by rewrite lookup_insert_ne by done.
      * cbn [d_by_proc d_heap dset_heap]. intros Q. destruct (V _ _ Q) as (g0 & G0 & R0 & B0).
        destruct (decide (l = k)) as [<-|n].
        -- assert (g0 = g) as -> by congruence. rewrite lookup_insert. eexists. split; [done|].
           unfold leave_g, set_regs. cbn [g_regs g_id]. split; [done|]. intros x [z Hz].
           apply lookup_delete_Some in Hz as [_ Hz]. apply (B0 x). by exists z.
        -- rewrite lookup_insert_ne by done. exists g0. done.
    + intros H. destruct (yield_cases _ _ _ _ H) as [(_ & -> & _)|(q & _ & -> & _)]; [done|].
      by destruct (_ && _).
Qed.

Lemma run_linv h d outs : N.of_nat (length h) <= two53 -> drun new_dealer h = Ret d outs -> linv d.
Proof.
  revert d outs. induction h as [|[o op] h IH] using rev_ind; intros d outs Hb H.
  { injection H as <- <-. apply linv_init. }
  rewrite app_length in Hb. cbn [length] in Hb.
  destruct (drun_snoc_inv _ _ _ _ _ _ H) as (d1 & o1 & out & H1 & H2 & ->).
  destruct (run_cinv h d1 o1 ltac:(lia) H1) as [C Hl].
  eapply linv_step; [by eapply IH; [lia|]|done|by apply run_ginv|by apply run_uinv; [lia|]| |done].
  rewrite (ci_ids _ _ C). pose proof (ci_len _ _ C). lia.
Qed.

(** ** The properties *)

(** Nobody is attached: the three maps are empty. *)
Lemma left_registrations h d outs : N.of_nat (length h) <= two53 -> drun new_dealer h = Ret d outs ->
  (forall x, ~ present (dtrace_of h outs) x) ->
  d_sessions d = ∅ /\ d_by_session d = ∅ /\ d_by_proc d = ∅.
Proof.
  intros Hb H Hn. destruct (run_cinv h d outs Hb H) as [C _]. pose proof (run_linv h d outs Hb H) as V.
  assert (S : forall x, d_sessions d !! x = None).
  { intros x. destruct (d_sessions d !! x) as [s|] eqn:E; [|done]. exfalso. apply (Hn x).
    apply present_as_present. exists s. by apply (ci_sess _ _ C). }
  assert (B : forall x, d_by_session d !! x = None).
  { intros x. destruct (d_by_session d !! x) as [s|] eqn:E; [|done].
    destruct (proj1 (ci_dom _ _ C x)) as [z Hz]; [by eexists|]. by rewrite S in Hz. }
  split; [by apply map_empty|]. split; [by apply map_empty|]. apply map_empty. intros p.
  destruct (d_by_proc d !! p) as [l|] eqn:P; [|done]. exfalso. destruct (V _ _ P) as (g & _ & R & K).
  apply R. apply map_empty. intros x. destruct (g_regs g !! x) as [z|] eqn:E; [|done].
  specialize (K x ltac:(by eexists)). unfold books in K. by rewrite B in K.
Qed.

(** And the wildcard list too, when the sessions kept to the rules. *)
Lemma left_wildcards h d outs : polite_history h -> N.of_nat (length h) <= two53 ->
  drun new_dealer h = Ret d outs -> (forall x, ~ present (dtrace_of h outs) x) -> d_wild d = ∅.
Proof.
  intros Hp Hb H Hn. destruct (left_registrations h d outs Hb H Hn) as (_ & _ & P).
  destruct (run_drep h Hp Hb) as (d1 & o1 & s & H1 & _ & R). assert (d1 = d) as -> by congruence.
  apply map_empty. intros p. destruct (d_wild d !! p) as [l|] eqn:W; [|done].
  apply (dc_wild _ _ _ _ (dp_core _ _ _ R)) in W as [W _]. by rewrite P, lookup_empty in W.
Qed.

(** The table of pending calls is empty when every invocation was answered. *)
Lemma left_pending h d outs : N.of_nat (length h) <= two53 -> drun new_dealer h = Ret d outs ->
  d_pending d = ∅ <-> forall i c r rp, ~ open_inv (dtrace_of h outs) i c r rp.
Proof.
  intros Hb H. destruct (run_cinv h d outs Hb H) as [C _]. split.
  - intros E i c r rp (p & P & _)%(ci_open _ _ C). by rewrite E, lookup_empty in P.
  - intros Hn. apply map_empty. intros i. destruct (d_pending d !! i) as [p|] eqn:P; [|done]. exfalso.
    eapply (Hn i). apply (ci_open _ _ C). eauto.
Qed.

(** One entry for every call ever taken on. *)
Lemma left_calls h d outs : N.of_nat (length h) <= two53 -> drun new_dealer h = Ret d outs ->
  (forall c r, called (dtrace_of h outs) c r = true <-> is_Some (d_inv d !! (c, r))).
Proof.
  intros Hb H c r. destruct (run_cinv h d outs Hb H) as [C _]. by rewrite (ci_inv _ _ C), called_invocation.
Qed.
Lemma left_calls_size h d outs (ks : list (N * N)) : N.of_nat (length h) <= two53 -> drun new_dealer h = Ret d outs ->
  NoDup ks -> (forall c r, (c, r) ∈ ks -> called (dtrace_of h outs) c r = true) -> (length ks <= size (d_inv d))%nat.
Proof.
  intros Hb H Nd Hk. rewrite <- size_dom. rewrite <- (size_list_to_set (C := gset (N * N)) ks Nd).
  apply subseteq_size. intros [c r]. rewrite elem_of_list_to_set. intros Hin.
  apply elem_of_dom. apply (left_calls h d outs Hb H). by apply Hk.
Qed.
Lemma left_procedures h d outs : N.of_nat (length h) <= two53 ->
  drun new_dealer h = Ret d outs -> (forall x, ~ present (dtrace_of h outs) x) ->
  d_sessions d = ∅ /\ d_by_session d = ∅ /\ d_by_proc d = ∅
  /\ forall o p, dstep o d (DHasProc p) = Ret d (DHas false).
Proof.
  intros Hb H Hn. destruct (left_registrations h d outs Hb H Hn) as (S & B & P). do 3 (split; [done|]).
  intros o p. cbn [dstep]. unfold d_has_procedure. by rewrite P, lookup_empty.
Qed.
