(** The dealer's bookkeeping of sessions and calls agrees with the trace, in
    every history. *)
From Verif Require Import Prelude Value Msg IdGen Types PathMatch Dealer DealerSpec.
From Verif Require Import BaseSpec BaseFacts TypesFacts DealerFacts.

Record cinv (tr : dtrace) (d : dealer) : Prop := CInv {
  ci_ids : d_idgen d = used tr;
  ci_open : forall i c r rp, open_inv tr i c r rp <->
      exists p, d_pending d !! i = Some p /\ pe_caller p = c /\ pe_request p = r /\ pe_receive p = rp;
  ci_bound : forall i p, d_pending d !! i = Some p -> i <= d_idgen d;
  ci_inv : forall c r, d_inv d !! (c, r) = invocation_of tr c r;
  ci_inv_bound : forall c r i, d_inv d !! (c, r) = Some i -> i <= d_idgen d;
  ci_heap_bound : forall l g, d_heap d !! l = Some g -> g_id g <= d_idgen d;
  ci_sess : forall sid s, d_sessions d !! sid = Some s <-> present_as tr sid s;
  ci_dom : forall sid, is_Some (d_by_session d !! sid) <-> is_Some (d_sessions d !! sid);
  ci_details : d_details d = disclosing_caller tr;
  ci_len : used tr <= N.of_nat (length tr) }.

Lemma called_invocation tr c r : called tr c r = true <-> is_Some (invocation_of tr c r).
Proof.
  induction tr as [|[op out] tr IH].
  { cbn. split; [discriminate|]. intros [x Hx]; discriminate. }
  destruct op as [s|x|p|x|sid m]; try exact IH.
  destruct m as [m|m|m|m|m|m|m|m|m|m|m|m|m|m|m|m|m|m|m|m|m|m|m|m]; try exact IH.
  destruct out as [e| |b|m' to]; try exact IH.
  - cbn [called invocation_of]. destruct ((sid =? c) && (ca_request m =? r)) eqn:E; cbn [orb andb].
    + split; [intros _|done]. apply andb_prop in E as [E1 E2].
      apply N.eqb_eq in E1, E2. subst c r.
      destruct (continues tr sid m) eqn:C; cbn [negb]; [|by eexists].
      apply IH. unfold continues in C. by apply andb_prop in C as [_ C].
    + exact IH.
  - destruct m' as [m'|m'|m'|m'|m'|m'|m'|m'|m'|m'|m'|m'|m'|m'|m'|m'|m'|m'|m'|m'|m'|m'|m'|m']; try exact IH.
    cbn [called invocation_of]. destruct ((sid =? c) && (ca_request m =? r)) eqn:E; cbn [orb].
    + split; [intros _; by eexists|done].
    + exact IH.
Qed.

Lemma present_as_present tr sid : present tr sid <-> exists s, present_as tr sid s.
Proof.
  induction tr as [|[op out] tr IH]; [cbn; naive_solver|].
  destruct op as [s|x|p|x|sid' m]; try exact IH.
  - destruct out as [e| |b|m' to]; try exact IH. cbn [present present_as]. split.
    + intros H. destruct (decide (se_id s = sid)) as [E|n]; [exists s; by left|].
      destruct H as [?|H]; [done|]. apply IH in H as [s' H]. exists s'. by right.
    + intros [s' [[H ->]|[n H]]]; [by left|right]. apply IH. eauto.
  - destruct out as [e| |b|m' to]; try exact IH. cbn [present present_as]. split.
    + intros [n H]. apply IH in H as [s' H]. eauto.
    + intros (s' & n & H). split; [done|]. apply IH. eauto.
Qed.

Lemma cinv_init : cinv [] new_dealer.
Proof.
  constructor; cbn; try done; try reflexivity.
  - intros i c r rp. split; [done|]. by intros (p & H & _).
  - intros sid. rewrite !lookup_empty. split; intros [? ?]; discriminate.
Qed.

(** Steps that touch neither calls nor sessions. *)
Lemma cinv_quiet tr d d' e :
  cinv tr d ->
  d_idgen d' = d_idgen d -> d_pending d' = d_pending d -> d_inv d' = d_inv d ->
  d_sessions d' = d_sessions d -> d_details d' = d_details d ->
  (forall sid, is_Some (d_by_session d' !! sid) <-> is_Some (d_by_session d !! sid)) ->
  (forall l g, d_heap d' !! l = Some g -> g_id g <= d_idgen d) ->
  used (e :: tr) = used tr ->
  (forall c r, invocation_of (e :: tr) c r = invocation_of tr c r) ->
  (forall i c r rp, ~ opens e tr i c r rp) ->
  (forall i rp, ~ closes e i rp) ->
  (forall sid s, present_as (e :: tr) sid s <-> present_as tr sid s) ->
  disclosing_caller (e :: tr) = disclosing_caller tr ->
  cinv (e :: tr) d'.
Proof.
  intros C H1 H2 H3 H4 H5 H6 H7 H8 H9 H10 H11 H12 H13.
  constructor.
  - rewrite H1, H8. apply C.
  - intros i c r rp. rewrite H2. cbn [open_inv]. rewrite <- (ci_open _ _ C). split.
    + intros [H|[H _]]; [by apply H10 in H|done].
    + intros H. right. split; [done|]. apply H11.
  - intros i p. rewrite H1, H2. apply C.
  - intros c r. rewrite H3, H9. apply C.
  - intros c r i. rewrite H1, H3. apply C.
  - rewrite H1. exact H7.
  - intros sid s. rewrite H4, H12. apply C.
  - intros sid. rewrite H4, H6. apply C.
  - rewrite H5, H13. apply C.
  - rewrite H8. cbn [length]. pose proof (ci_len _ _ C). lia.
Qed.

(** The removal loop touches only the heap and the procedure maps. *)
Definition same_calls (d d' : dealer) : Prop :=
  d_idgen d' = d_idgen d /\ d_pending d' = d_pending d /\ d_inv d' = d_inv d
  /\ d_sessions d' = d_sessions d /\ d_details d' = d_details d /\ d_by_session d' = d_by_session d
  /\ d_prefix d' = d_prefix d /\ d_fresh d' = d_fresh d.

Lemma remove_body_same id d l d' u : d_remove_body id d l = Ret d' u ->
  same_calls d d' /\ (forall l g, d_heap d' !! l = Some g -> exists g0, d_heap d !! l = Some g0
      /\ g_id g = g_id g0).
Proof.
  unfold d_remove_body. destruct (d_heap d !! l) as [reg|]; [|discriminate].
  destruct (d_by_proc d !! g_proc reg) as [l'|].
  2:{ intros H; injection H as <-. split; [done|]. eauto. }
  destruct (d_heap d !! l') as [g|] eqn:G; [|discriminate].
  destruct (drop_callee id _) as [cs|]; [|discriminate].
  intros H; injection H as <-. split.
  - unfold same_calls. destruct (decide _), (String.eqb _ _); done.
  - intros l0 g0. destruct (decide _), (String.eqb _ _);
      cbn [d_heap dset_heap dset_wild dset_by_proc];
      (destruct (decide (l0 = l')) as [->|nl];
       [rewrite lookup_insert; intros HH; injection HH as <-; by exists g
       |rewrite lookup_insert_ne by done; eauto]).
Qed.

Lemma remove_loop_same id ls : forall d d' u, d_remove_loop id d ls = Ret d' u ->
  same_calls d d' /\ (forall l g, d_heap d' !! l = Some g -> exists g0, d_heap d !! l = Some g0
      /\ g_id g = g_id g0).
Proof.
  induction ls as [|l ls IH]; intros d d' u; cbn [d_remove_loop].
  { intros H; injection H as <-. split; [done|]. eauto. }
  destruct (d_remove_body id d l) as [d1 u1|w] eqn:B; [|discriminate].
  intros H. destruct (IH _ _ _ H) as [S2 H2]. destruct (remove_body_same _ _ _ _ _ B) as [S1 H1].
  split.
  - unfold same_calls in *. intuition congruence.
  - intros l0 g0 HH. destruct (H2 _ _ HH) as (g1 & Hg1 & E1).
    destruct (H1 _ _ Hg1) as (g2 & Hg2 & E2). exists g2. split; [done|congruence].
Qed.

(** ** Each method *)

Local Ltac quiet C := eapply cinv_quiet; try done; try apply C; try (intros; cbn; tauto).


Lemma cinv_add tr d s d' out : cinv tr d -> d_add_session d s = Ret d' out ->
  cinv ((DAdd s, out) :: tr) d'.
Proof.
  intros C. unfold d_add_session. destruct (d_sessions d !! se_id s) as [s0|] eqn:E.
  - intros H; injection H as <- <-. quiet C. 
  - intros H; injection H as <- <-. constructor; cbn [d_idgen d_pending d_inv d_heap d_sessions
      d_by_session d_details dset_sessions dset_by_session]; try apply C.
    + intros i c r rp. cbn [open_inv opens closes]. rewrite <- (ci_open _ _ C). tauto.
    + intros sid s'. cbn [present_as]. destruct (decide (se_id s = sid)) as [<-|n].
      * rewrite lookup_insert. split.
        -- intros H; injection H as <-. by left.
        -- intros [[_ ->]|[n _]]; done.
      * rewrite lookup_insert_ne by done. rewrite (ci_sess _ _ C). naive_solver.
    + intros sid. destruct (decide (se_id s = sid)) as [<-|n].
      * rewrite !lookup_insert. split; intros _; by eexists.
      * rewrite !lookup_insert_ne by done. apply C.
    + cbn [used length]. pose proof (ci_len _ _ C). lia.
Qed.

Lemma cinv_remove tr o d id d' out : cinv tr d -> d_remove_session o d id = Ret d' out ->
  cinv ((DRemove id, out) :: tr) d'.
Proof.
  intros C. unfold d_remove_session. destruct (d_sessions d !! id) as [s0|] eqn:E.
  2:{ intros H; injection H as <- <-. quiet C. }
  destruct (d_remove_loop id d _) as [d1 u|w] eqn:L; [|discriminate].
  intros H; injection H as <- <-.
  destruct (remove_loop_same _ _ _ _ _ L) as [(S1 & S2 & S3 & S4 & S5 & S6 & _) Sh].
  constructor; cbn [d_idgen d_pending d_inv d_heap d_sessions d_by_session d_details
      dset_sessions dset_by_session]; rewrite ?S1, ?S2, ?S3, ?S4, ?S5, ?S6; try apply C.
  - intros i c r rp. cbn [open_inv opens closes]. rewrite <- (ci_open _ _ C). tauto.
  - intros l g Hg. destruct (Sh _ _ Hg) as (g0 & Hg0 & ->). by apply (ci_heap_bound _ _ C) in Hg0.
  - intros sid s'. cbn [present_as]. destruct (decide (id = sid)) as [<-|n].
    + rewrite lookup_delete. naive_solver.
    + rewrite lookup_delete_ne by done. rewrite (ci_sess _ _ C). naive_solver.
  - intros sid. destruct (decide (id = sid)) as [<-|n].
    + rewrite !lookup_delete. split; intros [? ?]; discriminate.
    + rewrite !lookup_delete_ne by done. apply C.
  - cbn [used length]. pose proof (ci_len _ _ C). lia.
Qed.

Lemma next_le c : c < two53 -> next_id c = c + 1.
Proof. apply next_id_small. Qed.

Lemma continues_inv tr d sid c : cinv tr d ->
  continues tr sid c = true <-> says (ca_options c) "progress" = true /\ is_Some (d_inv d !! (sid, ca_request c)).
Proof.
  intros C. unfold continues. rewrite (ci_inv _ _ C), <- called_invocation.
  by rewrite andb_true_iff.
Qed.

Lemma cinv_call tr o d sid c d' out : cinv tr d -> N.of_nat (length tr) < two53 ->
  d_call o d sid c = Ret d' out -> cinv ((DReceive sid (MCall c), out) :: tr) d'.
Proof.
  intros C Hb H. destruct (call_cases _ _ _ _ _ _ H) as
    [(-> & -> & _)|(l & g & callee & nx & i & who & F & G & E & P & A & W & O)].
  { quiet C. }
  assert (Hused : used tr < two53) by (pose proof (ci_len _ _ C); lia).
  assert (Hw : cinv tr (with_next d l nx g)).
  { destruct C. constructor; try done. intros l0 g0. cbn [d_heap with_next dset_heap d_idgen].
    destruct (decide (l0 = l)) as [->|n].
    - rewrite lookup_insert. intros HH; injection HH as <-. cbn. eauto.
    - rewrite lookup_insert_ne by done. eauto. }
  clear H C. set (dn := with_next d l nx g) in *.
  assert (Hout : (exists x, out = DErr x) \/
     exists v, out = DMsg (MInvocation v) callee /\ in_request v = i).
  { destruct O as [[_ ->]|(s & _ & ->)]; [by left; eexists|right]. eexists. split; [done|].
    unfold invocation_for. by destruct (_ && _). }
  clear O W F G E P.
  destruct (allocate_cases _ _ _ _ _ _ A) as [(-> & Hi & Hp)|(-> & Hi & Hp)]; clear A.
  - (* a further chunk *)
    assert (Hc : continues tr sid c = true).
    { apply (continues_inv _ _ _ _ Hw). split; [done|]. by eexists. }
    assert (Hle : i <= used tr) by (rewrite <- (ci_ids _ _ Hw); by eapply ci_inv_bound).
    assert (Hio : invocation_of tr sid (ca_request c) = Some i) by (by rewrite <- (ci_inv _ _ Hw)).
    quiet Hw.
    + destruct Hout as [[x ->]|(v & -> & Hv)]; cbn [used].
      * by rewrite Hc.
      * rewrite Hv. lia.
    + intros c' r'. destruct Hout as [[x ->]|(v & -> & Hv)]; cbn [invocation_of].
      * rewrite Hc. cbn [negb]. by rewrite andb_false_r.
      * destruct ((sid =? c') && (ca_request c =? r')) eqn:E; [|done].
        apply andb_prop in E as [E1 E2]. apply N.eqb_eq in E1, E2. by subst.
    + intros i' c' r' rp. destruct Hout as [[x ->]|(v & -> & Hv)]; cbn [opens]; rewrite Hc; naive_solver.
  - (* a new invocation *)
    assert (Hc : continues tr sid c = false).
    { destruct (continues tr sid c) eqn:Hc; [|done].
      apply (continues_inv _ _ _ _ Hw) in Hc as [H1 [x H2]]. destruct Hp; congruence. }
    assert (Hid : next_id (d_idgen dn) = used tr + 1).
    { rewrite (ci_ids _ _ Hw). by apply next_id_small. }
    assert (Hio : i = used tr + 1) by congruence.
    set (e := (DReceive sid (MCall c), out)).
    assert (Hu : used (e :: tr) = used tr + 1).
    { destruct Hout as [[x ->]|(v & -> & Hv)]; cbn [used e].
      - by rewrite Hc.
      - rewrite Hv. lia. }
    assert (Hop : forall i' c' r' rp, opens e tr i' c' r' rp <->
       i' = i /\ c' = sid /\ r' = ca_request c /\ rp = says (ca_options c) "receive_progress").
    { intros i' c' r' rp. unfold e. destruct Hout as [[x ->]|(v & -> & Hv)]; cbn [opens].
      - rewrite Hio. split; [intros (-> & <- & <- & _ & <-); done|intros (-> & -> & -> & ->); done].
      - rewrite <- Hv. split; [intros (-> & <- & <- & _ & <-); done|intros (-> & -> & -> & ->); done]. }
    assert (Hcl : forall i' rp, ~ closes e i' rp).
    { unfold e. by intros i' rp []. }
    unfold alloc_new. rewrite Hid.
    constructor; cbn [d_idgen d_pending d_inv d_heap d_sessions d_by_session d_details
        dset_inv dset_pending dset_idgen].
    + by rewrite Hu.
    + intros i' c' r' rp. cbn [open_inv]. rewrite Hop, (ci_open _ _ Hw).
      destruct (decide (i' = used tr + 1)) as [->|n].
      * rewrite lookup_insert. split.
        -- intros [(_ & -> & -> & ->)|[(p & HH & _) _]].
           ++ eexists. split; [done|]. done.
           ++ apply (ci_bound _ _ Hw) in HH. rewrite (ci_ids _ _ Hw) in HH. lia.
        -- intros (p & HH & <- & <- & <-). injection HH as <-. left. by rewrite Hio.
      * rewrite lookup_insert_ne by done. split.
        -- intros [(HH & _)|[HH _]]; [congruence|done].
        -- intros HH. right. split; [done|]. apply Hcl.
    + intros i' p. destruct (decide (i' = used tr + 1)) as [->|n].
      * lia.
      * rewrite lookup_insert_ne by done. intros HH. apply (ci_bound _ _ Hw) in HH.
        rewrite (ci_ids _ _ Hw) in HH. lia.
    + intros c' r'. 
      assert (He : invocation_of (e :: tr) c' r' =
        if (sid =? c') && (ca_request c =? r') then Some i else invocation_of tr c' r').
      { unfold e. destruct Hout as [[x ->]|(v & -> & Hv)]; cbn [invocation_of].
        - rewrite Hc. cbn [negb]. rewrite andb_true_r, Hio. done.
        - by rewrite Hv. }
      rewrite He. destruct ((sid =? c') && (ca_request c =? r')) eqn:E.
      * apply andb_prop in E as [E1 E2]. apply N.eqb_eq in E1, E2. subst c' r'.
        rewrite lookup_insert. by rewrite Hio.
      * rewrite lookup_insert_ne.
        -- apply Hw.
        -- intros HH; injection HH as <- <-. by rewrite !N.eqb_refl in E.
    + intros c' r' i'. destruct (decide ((sid, ca_request c) = (c', r'))) as [<-|n].
      * rewrite lookup_insert. intros HH; injection HH as <-. lia.
      * rewrite lookup_insert_ne by done. intros HH. apply (ci_inv_bound _ _ Hw) in HH.
        rewrite (ci_ids _ _ Hw) in HH. lia.
    + intros l' g' HH. apply (ci_heap_bound _ _ Hw) in HH. rewrite (ci_ids _ _ Hw) in HH. lia.
    + intros s' x'. unfold e. destruct Hout as [[x ->]|(v & -> & Hv)]; cbn [present_as]; apply Hw.
    + apply Hw.
    + unfold e. destruct Hout as [[x ->]|(v & -> & Hv)]; cbn [disclosing_caller]; apply Hw.
    + rewrite Hu. cbn [length]. pose proof (ci_len _ _ Hw). lia.
Qed.

Lemma cinv_yield tr d sid y d' out : cinv tr d ->
  d_yield d y = Ret d' out -> cinv ((DReceive sid (MYield y), out) :: tr) d'.
Proof.
  intros C H. destruct (yield_cases _ _ _ _ H) as [(Hn & -> & ->)|(p & Hp & -> & O)].
  - constructor; try apply C.
    + intros i c r rp. cbn [open_inv opens closes]. rewrite (ci_open _ _ C). split.
      * by intros [[]|[HH _]].
      * intros HH. right. split; [done|]. intros [Hy _]. subst i.
        destruct HH as (p & HH & _). congruence.
    + cbn [used length]. pose proof (ci_len _ _ C). lia.
  - assert (Ho : used ((DReceive sid (MYield y), out) :: tr) = used tr
       /\ (forall c r, invocation_of ((DReceive sid (MYield y), out) :: tr) c r = invocation_of tr c r)
       /\ (forall i c r rp, ~ opens (DReceive sid (MYield y), out) tr i c r rp)).
    { destruct O as [[_ ->]|(s & _ & ->)]; (split; [done|]); (split; [done|]); by intros ? ? ? ? []. }
    destruct Ho as (Hu & Hi & Hop).
    assert (Hcl : forall i rp, closes (DReceive sid (MYield y), out) i rp <->
       yi_request y = i /\ rp && says (yi_options y) "progress" = false) by done.
    destruct (pe_receive p && says (yi_options y) "progress") eqn:M.
    + constructor; try apply C.
      * rewrite Hu. apply C.
      * intros i c r rp. cbn [open_inv]. rewrite Hcl, (ci_open _ _ C). split.
        -- by intros [HH|[HH _]]; [apply Hop in HH|].
        -- intros HH. right. split; [done|]. intros [<- Hf].
           destruct HH as (p' & HH & _ & _ & <-). rewrite Hp in HH. injection HH as <-. congruence.
      * rewrite Hu. cbn [length]. pose proof (ci_len _ _ C). lia.
    + constructor; cbn [d_idgen d_pending d_inv d_heap d_sessions d_by_session d_details
         dset_pending]; try apply C.
      * rewrite Hu. apply C.
      * intros i c r rp. cbn [open_inv]. rewrite Hcl, (ci_open _ _ C).
        destruct (decide (yi_request y = i)) as [<-|n].
        -- rewrite lookup_delete. split; [|by intros (? & ? & _)].
           intros [HH|[HH Hf]]; [by apply Hop in HH|]. exfalso. apply Hf. split; [done|].
           destruct HH as (p' & HH & _ & _ & <-). rewrite Hp in HH. by injection HH as <-.
        -- rewrite lookup_delete_ne by done. split.
           ++ by intros [HH|[HH _]]; [apply Hop in HH|].
           ++ intros HH. right. split; [done|]. by intros [? _].
      * intros i p'. intros HH. apply lookup_delete_Some in HH as [_ HH]. by eapply ci_bound.
      * rewrite Hu. cbn [length]. pose proof (ci_len _ _ C). lia.
Qed.

Lemma cinv_error tr d sid x d' out : cinv tr d ->
  d_error d x = Ret d' out -> cinv ((DReceive sid (MError x), out) :: tr) d'.
Proof.
  intros C H. destruct (error_cases _ _ _ _ H) as
    [(Hn & -> & e & ->)|[(Ht & Hn & -> & e & ->)|(p & Ht & Hp & -> & ->)]].
  - quiet C.
  - constructor; try apply C.
    + intros i c r rp. cbn [open_inv opens closes]. rewrite (ci_open _ _ C). split.
      * by intros [[]|[HH _]].
      * intros HH. right. split; [done|]. intros [Hy _]. subst i.
        destruct HH as (p & HH & _). congruence.
    + cbn [used length]. pose proof (ci_len _ _ C). lia.
  - constructor; cbn [d_idgen d_pending d_inv d_heap d_sessions d_by_session d_details
       dset_pending]; try apply C.
    + intros i c r rp. cbn [open_inv opens closes]. rewrite (ci_open _ _ C).
      destruct (decide (er_request x = i)) as [<-|n].
      * rewrite lookup_delete. split; [|by intros (? & ? & _)].
        intros [[]|[HH Hf]]. exfalso. by apply Hf.
      * rewrite lookup_delete_ne by done. split.
        -- by intros [[]|[HH _]].
        -- intros HH. right. split; [done|]. by intros [? _].
    + intros i p'. intros HH. apply lookup_delete_Some in HH as [_ HH]. by eapply ci_bound.
    + cbn [used length]. pose proof (ci_len _ _ C). lia.
Qed.

Lemma cinv_register tr d sid m d' out : cinv tr d -> N.of_nat (length tr) < two53 ->
  d_register d sid m = Ret d' out -> cinv ((DReceive sid (MRegister m), out) :: tr) d'.
Proof.
  intros C Hb. assert (Hused : used tr < two53) by (pose proof (ci_len _ _ C); lia).
  unfold d_register. destruct (d_by_session d !! sid) as [mine|] eqn:M.
  2:{ intros H; injection H as <- <-. quiet C. }
  assert (Hdom : forall sid0 X, is_Some ((<[sid := X]> (d_by_session d)) !! sid0)
      <-> is_Some (d_by_session d !! sid0)).
  { intros sid0 X. destruct (decide (sid = sid0)) as [<-|n].
    - rewrite lookup_insert, M. split; intros _; by eexists.
    - by rewrite lookup_insert_ne. }
  destruct (d_by_proc d !! rg_procedure m) as [l|] eqn:B.
  - destruct (d_heap d !! l) as [g|] eqn:G; [|discriminate].
    destruct (_ || _) eqn:X.
    { intros H; injection H as <- <-. quiet C. }
    pose proof (ci_heap_bound _ _ C _ _ G) as Hg.
    intros H; injection H as <- <-. quiet C.
    + intros sid0. apply Hdom.
    + intros l0 g0. cbn [d_heap dset_by_session dset_by_proc dset_heap].
      destruct (decide (l0 = l)) as [->|n].
      * rewrite lookup_insert. intros HH; injection HH as <-. done.
      * rewrite lookup_insert_ne by done. apply C.
    + cbn [used rd_registration g_id set_callees set_regs]. rewrite (ci_ids _ _ C) in Hg. lia.
  - assert (Hid : next_id (d_idgen d) = used tr + 1).
    { rewrite (ci_ids _ _ C). by apply next_id_small. }
    rewrite Hid. intros H; injection H as <- <-.
    match goal with |- cinv _ (dset_by_session _ (dset_by_proc _ ?x)) => set (dd := x) end.
    assert (Hdd : d_idgen dd = used tr + 1 /\ d_pending dd = d_pending d /\ d_inv dd = d_inv d
      /\ d_sessions dd = d_sessions d /\ d_details dd = d_details d /\ d_by_session dd = d_by_session d
      /\ (forall l g, d_heap dd !! l = Some g -> g_id g <= used tr + 1)).
    { unfold dd. generalize (to_string (mget (rg_options m) o_match)); intros mt.
      destruct (String.eqb mt m_prefix), (String.eqb mt m_wildcard);
        cbn [d_idgen d_pending d_inv d_sessions d_details d_by_session d_heap dset_heap dset_fresh
             dset_idgen dset_prefix dset_wild d_fresh];
        (repeat (split; [done|])); intros l0 g0;
        (destruct (decide (l0 = d_fresh d)) as [->|n];
         [rewrite lookup_insert; intros HH; injection HH as <-; cbn; lia
         |rewrite lookup_insert_ne by done; intros HH; apply (ci_heap_bound _ _ C) in HH;
          rewrite (ci_ids _ _ C) in HH; lia]). }
    destruct Hdd as (D1 & D2 & D3 & D4 & D5 & D6 & D7).
    constructor; cbn [d_idgen d_pending d_inv d_heap d_sessions d_by_session d_details
        dset_by_session dset_by_proc]; rewrite ?D1, ?D2, ?D3, ?D4, ?D5, ?D6; try apply C.
    + cbn [used rd_registration]. lia.
    + intros i c r rp. cbn [open_inv opens closes]. rewrite <- (ci_open _ _ C). tauto.
    + intros i p HH. apply (ci_bound _ _ C) in HH. rewrite (ci_ids _ _ C) in HH. lia.
    + intros c r i HH. apply (ci_inv_bound _ _ C) in HH. rewrite (ci_ids _ _ C) in HH. lia.
    + exact D7.
    + intros sid0. rewrite Hdom. apply C.
    + cbn [used rd_registration length]. pose proof (ci_len _ _ C). lia.
Qed.

Lemma cinv_unregister tr d sid m d' out : cinv tr d ->
  d_unregister d sid m = Ret d' out -> cinv ((DReceive sid (MUnregister m), out) :: tr) d'.
Proof.
  intros C. unfold d_unregister. destruct (d_by_session d !! sid) as [mine|] eqn:M.
  2:{ intros H; injection H as <- <-. quiet C. }
  destruct (decide (mine = ∅)).
  { intros H; injection H as <- <-. quiet C. }
  destruct (mine !! ur_registration m) as [l|]; [|discriminate].
  destruct (d_heap d !! l) as [g|] eqn:G; [|discriminate].
  intros H; injection H as <- <-.
  pose proof (ci_heap_bound _ _ C _ _ G) as Hg.
  assert (Hdom : forall sid0 X, is_Some ((<[sid := X]> (d_by_session d)) !! sid0)
      <-> is_Some (d_by_session d !! sid0)).
  { intros sid0 X. destruct (decide (sid = sid0)) as [<-|n0].
    - rewrite lookup_insert, M. split; intros _; by eexists.
    - by rewrite lookup_insert_ne. }
  assert (Hheap : forall l0 g0, (<[l := set_regs (delete sid (g_regs g)) g]> (d_heap d)) !! l0 = Some g0 ->
     g_id g0 <= d_idgen d).
  { intros l0 g0. destruct (decide (l0 = l)) as [->|n0].
    - rewrite lookup_insert. intros HH; injection HH as <-. done.
    - rewrite lookup_insert_ne by done. apply C. }
  destruct (decide (delete sid (g_regs g) = ∅)); [destruct (String.eqb (g_match g) m_wildcard)|];
    (eapply cinv_quiet; [exact C|..]; try done; try (intros; cbn; tauto);
     try (intros sid0; apply Hdom); try (intros l0 g0; apply Hheap); try apply C).
Qed.

Lemma cinv_step tr d o op d' out : cinv tr d -> N.of_nat (length tr) < two53 ->
  dstep o d op = Ret d' out -> cinv ((op, out) :: tr) d'.
Proof.
  intros C Hb. destruct op as [s|id|p|x|sid m]; cbn [dstep].
  - by apply cinv_add.
  - by apply cinv_remove.
  - unfold d_has_procedure. destruct (d_by_proc d !! p) as [l|].
    + destruct (d_heap d !! l); [|discriminate].
      intros H; injection H as <- <-. quiet C.
    + intros H; injection H as <- <-. quiet C.
  - unfold d_auto_disclose. intros H; injection H as <- <-.
    constructor; cbn [d_idgen d_pending d_inv d_heap d_sessions d_by_session d_details dset_details];
      try apply C; try done.
    + intros i c r rp. cbn [open_inv opens closes]. rewrite <- (ci_open _ _ C). tauto.
    + cbn [used length]. pose proof (ci_len _ _ C). lia.
  - assert (Hother : forall e, (forall i rp, ~ closes (DReceive sid m, DErr e) i rp) ->
       (match m with MCall _ => False | _ => True end) ->
       Ret d (DErr e) = Ret d' out -> cinv ((DReceive sid m, out) :: tr) d').
    { intros e Hcl Hm H; injection H as <- <-. eapply cinv_quiet; try done; try apply C;
        destruct m; try done; cbn; try (intros; tauto). }
    destruct m; cbn [d_receive_message]; try (apply Hother; [by intros ? ? []|done]).
    + by apply cinv_error.
    + by apply cinv_call.
    + by apply cinv_register.
    + by apply cinv_unregister.
    + by apply cinv_yield.
Qed.

Lemma run_cinv h d outs : N.of_nat (length h) <= two53 -> drun new_dealer h = Ret d outs ->
  cinv (dtrace_of h outs) d /\ length (dtrace_of h outs) = length h.
Proof. apply (run_invariant cinv); [apply cinv_init|apply cinv_step]. Qed.
