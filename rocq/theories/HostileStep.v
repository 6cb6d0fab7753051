(** Every event keeps the invariant of HostileProofs.v. *)
From Verif Require Import Prelude Value Msg IdGen Types PathMatch Mutex Broker Dealer Session Network.
From Verif Require Import BrokerSpec BrokerFacts BrokerSim BrokerTrace BrokerProofs.
From Verif Require Import DealerSpec DealerFacts DealerCases DealerCalls DealerRegs DealerSim DealerStep DealerProofs DealerPolite DealerShare.
From Verif Require Import NetworkSpec NetworkClient NetworkSync NetworkProofs NetworkCalls NetworkLocal.
From Verif Require Import Hostile HostileDealer HostileProofs.

(** ** Panics stay *)

Definition crashes (n n' : net) : Prop := exists ws, n_crashed n' = ws ++ n_crashed n.
Lemma crashes_same n n' : n_crashed n' = n_crashed n -> crashes n n'.
Proof. intros H. exists []. exact H. Qed.
Lemma crashes_trans a b c : crashes a b -> crashes b c -> crashes a c.
Proof. intros [x Hx] [y Hy]. exists (y ++ x). by rewrite Hy, Hx, app_assoc. Qed.
Lemma crashes_nil n n' : crashes n n' -> n_crashed n' = [] -> n_crashed n = [].
Proof. intros [ws ->] H. by apply app_eq_nil in H as [_ ?]. Qed.
Lemma crashes_broker o op n : crashes n (fst (call_broker o op n)).
Proof. unfold call_broker. destruct (bstep _ _ _); [by apply crashes_same|]. by exists [why]. Qed.
Lemma crashes_dealer o op n : crashes n (fst (call_dealer o op n)).
Proof. unfold call_dealer. destruct (dstep _ _ _); [by apply crashes_same|]. by exists [why]. Qed.
Lemma crashes_post n m to : crashes n (post n m to).
Proof. unfold post. case_match; by apply crashes_same. Qed.
Lemma crashes_post_all m tos : forall n, crashes n (post_all n m tos).
Proof.
  induction tos as [|to tos IH]; intros n; [by apply crashes_same|]. cbn. eapply crashes_trans; [apply crashes_post|apply IH].
Qed.
Lemma crashes_handle o c m n : crashes n (handle o c m n).
Proof.
  assert (D : crashes n (match call_dealer o (DReceive c m) n with (n, Some (DMsg a to)) => post n a to | (n, _) => n end)).
  { pose proof (crashes_dealer o (DReceive c m) n) as H. destruct (call_dealer _ _ _) as [n1 [[]|]]; cbn in *; try exact H.
    eapply crashes_trans; [done|apply crashes_post]. }
  assert (B : crashes n (match call_broker o (BReceive c m) n with (n, Some (BMsg a to)) => post n a to | (n, _) => n end)).
  { pose proof (crashes_broker o (BReceive c m) n) as H. destruct (call_broker _ _ _) as [n1 [[]|]]; cbn in *; try exact H.
    eapply crashes_trans; [done|apply crashes_post]. }
  destruct m; cbn [handle]; try exact D; try exact B; try by apply crashes_same.
  clear D B. pose proof (crashes_broker o (BPublish c m) n) as H.
  destruct (call_broker o (BPublish c m) n) as [n1 bo]. cbn in H. destruct bo as [[e| |b|a to|ev rs ack]|]; try exact H.
  assert (H1 : crashes n (match ev with Some e => post_all n1 (MEvent e) rs | None => n1 end)).
  { destruct ev; [|done]. eapply crashes_trans; [done|apply crashes_post_all]. }
  destruct ack as [[a to]|]; [|done]. eapply crashes_trans; [exact H1|apply crashes_post].
Qed.
Lemma crashes_hstep n e : crashes n (hstep n e).
Proof.
  destruct e as [e|o c m]; cbn [hstep].
  2:{ destruct (n_clients n !! c); [apply crashes_handle|by apply crashes_same]. }
  destruct e as [d|o c|c m|o c|c|p c]; cbn [nstep].
  - set (n1 := nset_clients _ _). eapply crashes_trans; [apply (crashes_same n n1 eq_refl)|].
    eapply crashes_trans; [apply crashes_broker|apply crashes_dealer].
  - set (n1 := nset_clients _ _). eapply crashes_trans; [apply (crashes_same n n1 eq_refl)|].
    eapply crashes_trans; [apply crashes_broker|apply crashes_dealer].
  - destruct (n_clients n !! c); [|by apply crashes_same]. destruct (sstep _ _) as [s [x|x|x]]; by apply crashes_same.
  - destruct (n_clients n !! c) as [[s [|m up] down used]|]; try by apply crashes_same.
    pose proof (crashes_handle o c m n) as H. set (n1 := handle o c m n) in *.
    destruct (n_clients n1 !! c); exact H.
  - destruct (n_clients n !! c) as [[s up [|m down] used]|]; try by apply crashes_same.
    destruct (sstep _ _) as [s' [x|x|x]]; by apply crashes_same.
  - eapply crashes_trans; [apply crashes_broker|apply crashes_dealer].
Qed.
Lemma crashes_hrun es : forall n, crashes n (hrun n es).
Proof.
  induction es as [|e es IH]; intros n; [by apply crashes_same|]. cbn. eapply crashes_trans; [apply crashes_hstep|apply IH].
Qed.

Section Hostile.
Context (honest : N -> Prop).

Lemma hlocal_quiet (cls cls' : gmap N client) (tr tr' : dtrace) : hlocal honest cls tr ->
  (forall c cl', honest c -> cls' !! c = Some cl' ->
     (cl_up cl' = [] /\ forall r, called tr' c r = false)
     \/ exists cl, cls !! c = Some cl /\ cl_up cl' = cl_up cl /\ cl_used cl' = cl_used cl) ->
  (forall c g, is_Some (cls' !! c) -> regs tr c g -> regs tr' c g) ->
  (forall c r, called tr' c r = true -> called tr c r = true) -> hlocal honest cls' tr'.
Proof.
  intros [L1 L2 L3 L4] Hc Hr Hca. constructor.
  - intros c cl' m Hh Hx. destruct (Hc _ _ Hh Hx) as [[-> _]|(cl & E & -> & _)]; [by intros ?%elem_of_nil|by eapply L1].
  - intros c cl' m Hh Hx. destruct (Hc _ _ Hh Hx) as [[-> _]|(cl & E & -> & _)]; [by intros ?%elem_of_nil|].
    intros Hm. apply Hr; [by rewrite Hx|]. by eapply L2.
  - intros c cl' Hh Hx. destruct (Hc _ _ Hh Hx) as [[-> _]|(cl & E & -> & _)]; [constructor|by eapply L3].
  - intros c cl' r Hh Hx H. destruct (Hc _ _ Hh Hx) as [[-> X]|(cl & E & -> & ->)]; [by rewrite X in H|].
    eapply L4; [done|done|]. by apply Hca.
Qed.

Lemma present_sessions n k c : hninv honest n k -> (is_Some (n_clients n !! c) <-> is_Some (d_sessions (n_dealer n) !! c)).
Proof.
  intros Hn. rewrite <- (hd_pres _ _ _ _ _ _ _ (hv_d _ _ _ Hn)). symmetry.
  apply (sinv_present _ _ _ (run_sinv _ _ _ (hd_run _ _ _ _ _ _ _ (hv_d _ _ _ Hn)))).
Qed.

Lemma hstep_join n k d : hninv honest n k -> N.of_nat k < two53 -> careful n (NJoin d) ->
  hninv honest (nstep n (NJoin d)) (S k).
Proof.
  intros Hn Hk Hrules. cbn in Hrules. cbn [nstep].
  destruct (broker_call _ _ _ _ _ any_oracle (BAdd d) (hv_b _ _ _ Hn) Hk)
    as (b' & bo & s & s' & E & Hr & Ht & I & T & I').
  assert (Hno : n_clients n !! se_id d = None).
  { destruct (n_clients n !! se_id d) eqn:X; [|done]. exfalso. by apply Hrules, (hv_ever _ _ _ Hn); rewrite X. }
  assert (exists d', dstep any_oracle (n_dealer n) (DAdd d) = Ret d' DOk) as [d' E2].
  { cbn. unfold d_add_session. destruct (d_sessions (n_dealer n) !! se_id d) eqn:X; [|by eexists].
    exfalso. apply Hrules, (hv_ever _ _ _ Hn), (present_sessions _ _ _ Hn). by rewrite X. }
  assert (Hup : upright honest (dtr n) (DAdd d)).
  { intros H. by apply Hrules, (hd_added _ _ _ _ _ _ _ (hv_d _ _ _ Hn)). }
  destruct (hdealer_call _ _ _ _ _ _ _ any_oracle _ _ _ (hv_d _ _ _ Hn) Hk Hup E2) as (Hr2 & Ht2 & Hv).
  assert (bo = BOk) as ->.
  { inversion T as [|d0 e He| | | | | | | | | | |]; subst; [done|].
    apply (ti_att _ _ I), (bp_att _ _ _ _ _ (hv_b _ _ _ Hn)) in He. rewrite Hno in He. by destruct He. }
  unfold call_broker, call_dealer, nset_ever, nset_clients. net_cbn. rewrite E. net_cbn. rewrite E2. net_cbn.
  destruct Hn as [B D Hev Hca Hsy Hlo Hrej].
  assert (HR : forall x g, regs ((DAdd d, DOk) :: dtr n) x g <-> regs (dtr n) x g).
  { intros x. apply regs_quiet; cbn; tauto. }
  constructor; net_cbn; try done.
  - constructor; [done| | |]; rewrite ?Ht.
    + rewrite app_length. cbn. pose proof (bp_len _ _ _ _ _ B). lia.
    + intros c. cbn [attached]. rewrite (bp_att _ _ _ _ _ B).
      destruct (decide (c = se_id d)) as [->|Hne]; [rewrite lookup_insert|rewrite lookup_insert_ne by done].
      * split; [by eexists|by left].
      * split; [intros [?|?]; [congruence|done]|by right].
    + intros c x g. cbn [holds is_subscribed is_ended]. intros [[]|[H _]].
      apply (bp_hold _ _ _ _ _ B) in H. destruct (decide (c = se_id d)) as [->|Hne]; [by rewrite lookup_insert|by rewrite lookup_insert_ne].
  - constructor; [done| | | | | |]; rewrite ?Ht2; [..|done].
    + rewrite app_length. cbn. pose proof (hd_len _ _ _ _ _ _ _ D). lia.
    + intros c. cbn [present]. rewrite (hd_pres _ _ _ _ _ _ _ D).
      destruct (decide (c = se_id d)) as [->|Hne]; [rewrite lookup_insert|rewrite lookup_insert_ne by done].
      * split; [by eexists|by left].
      * split; [intros [?|?]; [congruence|done]|by right].
    + intros c p g. cbn [owns is_registered is_unregistered]. intros [[pol []]|[H _]].
      apply (hd_own _ _ _ _ _ _ _ D) in H. destruct (decide (c = se_id d)) as [->|Hne]; [by rewrite lookup_insert|by rewrite lookup_insert_ne].
    + intros i c r rp. cbn [open_inv opens closes]. intros [[]|[H _]].
      apply (hd_open _ _ _ _ _ _ _ D) in H. by right.
    + intros c (x & y & H & <-). apply elem_of_cons in H as [[= -> ->]|H]; [by left|]. right.
      apply (hd_added _ _ _ _ _ _ _ D). by eexists _, _.
  - intros c. destruct (decide (c = se_id d)) as [->|Hne]; [by left|rewrite lookup_insert_ne by done].
    intros H. right. by apply Hev.
  - intros c r. unfold dtr. net_cbn. rewrite Ht2. cbn [called]. intros H. right. by eapply Hca.
  - unfold btr, dtr. net_cbn. rewrite Ht, Ht2.
    assert (HS : forall x g, subs ((BAdd d, BOk) :: trace_of (n_bh n) (n_bouts n)) x g <-> subs (btr n) x g).
    { intros x g. unfold subs, btr. cbn [holds is_subscribed is_ended]. split; intros [p H]; exists p; tauto. }
    assert (HO : forall x i r rp, opn ((DAdd d, DOk) :: dtr n) x i r rp <-> opn (dtr n) x i r rp).
    { intros x. apply opn_quiet; cbn; tauto. }
    fold (dtr n). intros x cl Hh Hx. destruct (decide (x = se_id d)) as [->|Hne].
    + rewrite lookup_insert in Hx. injection Hx as <-. eapply synced_iff; [apply synced_join|..].
      * intros g. rewrite HS. split; [|done]. intros [p H%(bp_hold _ _ _ _ _ B)]. rewrite Hno in H. by destruct H.
      * intros g. rewrite HR. split; [|done]. intros [p H%(hd_own _ _ _ _ _ _ _ D)]. rewrite Hno in H. by destruct H.
      * intros i r rp. rewrite HO. split; [|done]. intros H%(hd_open _ _ _ _ _ _ _ D). done.
    + rewrite lookup_insert_ne in Hx by done. eapply synced_iff; [by apply Hsy|by apply HS|by apply HR|by apply HO].
  - unfold dtr. net_cbn. rewrite Ht2. fold (dtr n). eapply hlocal_quiet; [exact Hlo| | |done].
    + intros c cl' Hh Hx. destruct (decide (c = se_id d)) as [->|Hne].
      * rewrite lookup_insert in Hx. injection Hx as <-. left. split; [done|]. intros r. cbn [called].
        destruct (called (dtr n) (se_id d) r) eqn:X; [|done]. exfalso. by eapply Hrules, Hca.
      * rewrite lookup_insert_ne in Hx by done. right. eauto.
    + intros c g _ H. by apply HR.
Qed.

Lemma hstep_leave n k o c : hninv honest n k -> N.of_nat k < two53 -> n_crashed (nstep n (NLeave o c)) = [] ->
  hninv honest (nstep n (NLeave o c)) (S k).
Proof.
  intros Hn Hk. cbn [nstep].
  destruct (broker_call _ _ _ _ _ o (BRemove c) (hv_b _ _ _ Hn) Hk)
    as (b' & bo & s & s' & E & Hr & Ht & I & T & I').
  assert (Hbo : bo = BOk \/ (exists e, bo = BErr e) /\ n_clients n !! c = None).
  { inversion T as [| | |sid e He| | | | | | | | |]; subst; [by left|]. right. split; [by eexists|].
    destruct (n_clients n !! c) eqn:X; [|done]. exfalso.
    assert (is_Some (tb_sessions s' !! c)) as H; [|rewrite He in H; by destruct H].
    apply (ti_att _ _ I), (bp_att _ _ _ _ _ (hv_b _ _ _ Hn)). by rewrite X. }
  unfold call_broker, call_dealer, nset_ever, nset_clients. net_cbn. rewrite E. net_cbn.
  destruct (dstep o (n_dealer n) (DRemove c)) as [d' do|w] eqn:E2; net_cbn; [|done]. intros _.
  assert (Hdo : do = DOk \/ (exists e, do = DErr e) /\ n_clients n !! c = None).
  { cbn in E2. unfold d_remove_session in E2. destruct (d_sessions (n_dealer n) !! c) eqn:X.
    - left. destruct (d_remove_loop _ _ _); [|done]. by injection E2 as <- <-.
    - right. injection E2 as <- <-. split; [by eexists|]. destruct (n_clients n !! c) eqn:Y; [|done]. exfalso.
      assert (is_Some (d_sessions (n_dealer n) !! c)) as H; [|rewrite X in H; by destruct H].
      apply (present_sessions _ _ _ Hn). by rewrite Y. }
  destruct (hdealer_call _ _ _ _ _ _ _ o (DRemove c) _ _ (hv_d _ _ _ Hn) Hk Logic.I E2) as (Hr2 & Ht2 & Hv).
  destruct Hn as [B D Hev Hca Hsy Hlo Hrej]. 
  assert (Hdel : forall x, is_Some (delete c (n_clients n) !! x) <-> x <> c /\ is_Some (n_clients n !! x)).
  { intros x. destruct (decide (x = c)) as [->|Hne].
    - rewrite lookup_delete. split; [by intros []|by intros [? _]].
    - rewrite lookup_delete_ne by done. tauto. }
  assert (HR : forall x, x <> c -> forall g, regs ((DRemove c, do) :: dtr n) x g <-> regs (dtr n) x g).
  { intros x Hx. apply regs_quiet; cbn [is_registered is_unregistered]; [tauto|]. intros g.
    destruct Hdo as [->|[[e ->] X]]; [congruence|tauto]. }
  constructor; net_cbn; try done.
  - constructor; [done| | |]; rewrite ?Ht.
    + rewrite app_length. cbn. pose proof (bp_len _ _ _ _ _ B). lia.
    + intros x. rewrite Hdel, <- (bp_att _ _ _ _ _ B). destruct Hbo as [->|[[e ->] X]]; cbn [attached].
      * split; intros [H1 H2]; split; auto.
      * split; [|tauto]. intros H. split; [|done]. intros ->. apply (bp_att _ _ _ _ _ B) in H. rewrite X in H. by destruct H.
    + intros x p g. rewrite Hdel. destruct Hbo as [->|[[e ->] X]]; cbn [holds is_subscribed is_ended].
      * intros [[]|[H Hc]]. split; [intros ->; by apply Hc|]. by eapply (bp_hold _ _ _ _ _ B).
      * intros [[]|[H _]]. apply (bp_hold _ _ _ _ _ B) in H. split; [|done]. intros ->. rewrite X in H. by destruct H.
  - constructor; [done| | | | | |]; rewrite ?Ht2; [..|done].
    + rewrite app_length. cbn. pose proof (hd_len _ _ _ _ _ _ _ D). lia.
    + intros x. rewrite Hdel, <- (hd_pres _ _ _ _ _ _ _ D). destruct Hdo as [->|[[e ->] X]]; cbn [present].
      * split; intros [H1 H2]; split; auto.
      * split; [|tauto]. intros H. split; [|done]. intros ->. apply (hd_pres _ _ _ _ _ _ _ D) in H. rewrite X in H. by destruct H.
    + intros x p g. rewrite Hdel. destruct Hdo as [->|[[e ->] X]]; cbn [owns is_registered is_unregistered].
      * intros [[pol []]|[H Hc]]. split; [intros ->; by apply Hc|]. by eapply (hd_own _ _ _ _ _ _ _ D).
      * intros [[pol []]|[H _]]. apply (hd_own _ _ _ _ _ _ _ D) in H. split; [|done]. intros ->. rewrite X in H. by destruct H.
    + intros i x r rp. cbn [open_inv opens closes]. intros [[]|[H _]]. by apply (hd_open _ _ _ _ _ _ _ D) in H.
    + intros x (y & z & H & <-). apply elem_of_cons in H as [[=]|H]. apply (hd_added _ _ _ _ _ _ _ D). by eexists _, _.
  - intros x [_ H]%Hdel. by apply Hev.
  - intros x r. unfold dtr. net_cbn. rewrite Ht2. cbn [called]. apply Hca.
  - unfold btr, dtr. net_cbn. rewrite Ht, Ht2. fold (dtr n). fold (btr n).
    intros x cl Hh Hx. destruct (decide (x = c)) as [->|Hne]; [by rewrite lookup_delete in Hx|].
    rewrite lookup_delete_ne in Hx by done. eapply synced_iff; [by apply Hsy| |by apply HR|].
    + intros g. unfold subs. cbn [holds is_subscribed]. destruct Hbo as [->|[[e ->] X]]; cbn [is_ended].
      * split; intros [p H]; exists p; [tauto|right; split; [done|]; congruence].
      * split; intros [p H]; exists p; tauto.
    + apply opn_quiet; cbn; tauto.
  - unfold dtr. net_cbn. rewrite Ht2. fold (dtr n). eapply hlocal_quiet; [exact Hlo| | |done].
    + intros x cl' Hh Hx. destruct (decide (x = c)) as [->|Hne]; [by rewrite lookup_delete in Hx|].
      rewrite lookup_delete_ne in Hx by done. right. eauto.
    + intros x g [Hx _]%Hdel H. by apply HR.
Qed.

Lemma hstep_disclose n k p c : hninv honest n k -> N.of_nat k < two53 ->
  hninv honest (nstep n (NDisclose p c)) (S k).
Proof.
  intros Hn Hk. cbn [nstep].
  destruct (broker_call _ _ _ _ _ any_oracle (BDisclose p) (hv_b _ _ _ Hn) Hk)
    as (b' & bo & s & s' & E & Hr & Ht & I & T & I').
  destruct (dstep any_oracle (n_dealer n) (DDisclose c)) as [d' do|w] eqn:E2; [|done].
  destruct (hdealer_call _ _ _ _ _ _ _ any_oracle (DDisclose c) _ _ (hv_d _ _ _ Hn) Hk Logic.I E2) as (Hr2 & Ht2 & Hv).
  unfold call_broker, call_dealer. rewrite E. net_cbn. rewrite E2. net_cbn.
  assert (HR : forall x g, regs ((DDisclose c, do) :: dtr n) x g <-> regs (dtr n) x g).
  { intros x. apply regs_quiet; cbn; destruct do; tauto. }
  destruct Hn as [B D Hev Hca Hsy Hlo Hrej]. constructor; net_cbn; try done.
  - by eapply bpart_quiet.
  - by eapply hdpart_quiet.
  - intros x r. unfold dtr. net_cbn. rewrite Ht2. cbn [called]. apply Hca.
  - unfold btr, dtr. net_cbn. rewrite Ht, Ht2. fold (dtr n). fold (btr n).
    intros x cl Hh Hx. eapply synced_iff; [by apply Hsy| |by apply HR|].
    + intros g. unfold subs. cbn [holds is_subscribed is_ended]. split; intros [q H]; exists q; tauto.
    + apply opn_quiet; cbn; tauto.
  - unfold dtr. net_cbn. rewrite Ht2. fold (dtr n). eapply hlocal_quiet; [exact Hlo| | |done].
    + intros x cl' Hh Hx. right. eauto.
    + intros x g _ H. by apply HR.
Qed.

Lemma hstep_clients n k cls : hninv honest n k -> (forall c, is_Some (cls !! c) <-> is_Some (n_clients n !! c)) ->
  hsync honest (subs (btr n)) (regs (dtr n)) (opn (dtr n)) cls -> hlocal honest cls (dtr n) ->
  hninv honest (nset_clients cls n) k.
Proof.
  intros [B D Hev Hca Hsy Hlo Hrej] Hdom Hs Hl. constructor; net_cbn; try done.
  - destruct B. constructor; try done; [intros c; by rewrite Hdom|]. intros c t g H. rewrite Hdom. by eapply bp_hold.
  - destruct D. constructor; try done; [intros c; by rewrite Hdom|]. intros c t g H. rewrite Hdom. by eapply hd_own.
  - intros x. rewrite Hdom. apply Hev.
Qed.

(** What [hlocal] says of one client. *)
Definition local_ok (tr : dtrace) (c : N) (cl : client) : Prop :=
  (forall m, MRegister m ∈ cl_up cl -> unshared (invoke_policy m))
  /\ (forall u, MUnregister u ∈ cl_up cl -> regs tr c (ur_registration u))
  /\ NoDup (unreg_ids (cl_up cl))
  /\ (forall r, called tr c r = true -> r ∈ cl_used cl /\ r ∉ call_ids (cl_up cl)).
Lemma hlocal_iff cls tr : hlocal honest cls tr <-> forall c cl, honest c -> cls !! c = Some cl -> local_ok tr c cl.
Proof.
  split.
  - intros [L1 L2 L3 L4] c cl Hh Hc. split; [intros m; by eapply L1|]. split; [intros u; by eapply L2|].
    split; [by eapply L3|]. intros r. by eapply L4.
  - intros H. constructor.
    + intros c cl m Hh Hc. by apply (H c cl Hh Hc).
    + intros c cl m Hh Hc. by apply (H c cl Hh Hc).
    + intros c cl Hh Hc. by apply (H c cl Hh Hc).
    + intros c cl r Hh Hc. by apply (H c cl Hh Hc).
Qed.

(** One client changes. *)
Lemma hstep_one n k c cl cl' : hninv honest n k -> n_clients n !! c = Some cl ->
  (honest c -> synced (subs (btr n) c) (regs (dtr n) c) (opn (dtr n) c) cl' /\ local_ok (dtr n) c cl') ->
  hninv honest (nset_clients (<[c := cl']> (n_clients n)) n) k.
Proof.
  intros Hn Hc H. apply hstep_clients; [done|by eapply insert_dom| |].
  - intros x clx Hh. destruct (decide (x = c)) as [->|Hne].
    + rewrite lookup_insert. intros [= <-]. by apply H.
    + rewrite lookup_insert_ne by done. by apply (hv_sync _ _ _ Hn).
  - apply hlocal_iff. intros x clx Hh. destruct (decide (x = c)) as [->|Hne].
    + rewrite lookup_insert. intros [= <-]. by apply H.
    + rewrite lookup_insert_ne by done. by apply (proj1 (hlocal_iff _ _) (hv_local _ _ _ Hn)).
Qed.

Lemma hstep_send n k c m : hninv honest n k -> (honest c -> careful n (NSend c m)) -> hninv honest (nstep n (NSend c m)) k.
Proof.
  intros Hn Hca. cbn [nstep]. destruct (n_clients n !! c) as [cl|] eqn:Hc; [|done].
  assert (Hold : honest c -> local_ok (dtr n) c cl) by (intros Hh; by apply (proj1 (hlocal_iff _ _) (hv_local _ _ _ Hn))).
  destruct (sstep (cl_session cl) (SSend (Ok "") m)) as [s' [x|e|e]] eqn:E.
  - eapply hstep_one; [done|done|]. intros Hh. destruct (Hca Hh cl Hc) as [Hf Hm].
    pose proof (hv_sync _ _ _ Hn _ _ Hh Hc) as Hs. split; [by eapply synced_send|].
    destruct (Hold Hh) as (L1 & L2 & L3 & L4). destruct Hs as [s1 I1].
    assert (Hheld : forall u, m = MUnregister u -> regs (dtr n) c (ur_registration u) /\ ur_registration u ∉ unreg_ids (cl_up cl)).
    { intros u ->. destruct Hm as [Hin Hno]. split.
      - apply (is_regs _ _ _ _ _ I1). by eapply replay_keeps; [apply (is_replay _ _ _ _ _ I1)|..].
      - unfold unreg_ids. rewrite elem_of_list_omap. intros (a & Ha & Ea). destruct a as [| | | | | | | | | | | | | | | | | | | | | | |]; try discriminate.
        injection Ea as Ea. apply (Hno (ur_request m)). rewrite <- Ea.
        eapply lookup_weaken; [by apply (is_unregs _ _ _ _ _ I1)|]. eapply replay_unregs, (is_replay _ _ _ _ _ I1). }
    unfold local_ok. cbn [cl_up cl_used]. split; [|split; [|split]].
    + intros r [Hr|<-%elem_of_list_singleton]%elem_of_app; [by apply L1|done].
    + intros r [Hr|<-%elem_of_list_singleton]%elem_of_app; [by apply L2|by apply Hheld].
    + unfold unreg_ids. rewrite omap_snoc. apply NoDup_app. split; [done|].
      destruct m; (split; [|first [apply NoDup_singleton|apply NoDup_nil; exact Logic.I]]); intros g Hg Hin; try (by apply elem_of_nil in Hin); try done.
      apply elem_of_list_singleton in Hin. subst g. by apply (proj2 (Hheld _ eq_refl)).
    + intros r H. destruct (L4 _ H) as [H1 H2]. split; [destruct (request_of m); [by right|done]|].
      unfold call_ids. rewrite omap_snoc, elem_of_app. intros [H3|H3]; [done|].
      destruct m; try (by apply elem_of_nil in H3). apply elem_of_list_singleton in H3. subst r.
      by apply (Hf _ eq_refl).
  - eapply hstep_one; [done|done|]. intros Hh. pose proof (hv_sync _ _ _ Hn _ _ Hh Hc) as Hs.
    rewrite (synced_send_err _ _ _ _ _ _ _ _ Hs E). split; [by destruct cl|]. exact (Hold Hh).
  - exfalso. by destruct (send_noted _ _ _ _ _ E) as [(? & ? & _)|[_ [? ?]]].
Qed.

Lemma hstep_deliver n k c : hninv honest n k -> hninv honest (nstep n (NDeliver c)) k.
Proof.
  intros Hn. cbn [nstep]. destruct (n_clients n !! c) as [[s up down used]|] eqn:Hc; [|done].
  destruct down as [|m down]; [done|]. destruct (sstep s (SReceiveMessage m)) as [s' r] eqn:E.
  assert (Hok : honest c -> exists x, r = Ok x /\ synced (subs (btr n) c) (regs (dtr n) c) (opn (dtr n) c) (Client s' up down used)).
  { intros Hh. destruct (synced_deliver _ _ _ _ _ _ _ _ (hv_sync _ _ _ Hn _ _ Hh Hc)) as (s1 & x & E1 & Hs).
    rewrite E in E1. injection E1 as -> ->. eauto. }
  assert (H1 : hninv honest (nset_clients (<[c := Client s' up down used]> (n_clients n)) n) k).
  { eapply hstep_one; [done|done|]. intros Hh. destruct (Hok Hh) as (x & _ & Hs). split; [done|].
    exact (proj1 (hlocal_iff _ _) (hv_local _ _ _ Hn) _ _ Hh Hc). }
  assert (Hrej : (forall x, r <> Ok x) ->
    hninv honest (nset_rejected ((c, m) :: n_rejected n) (nset_clients (<[c := Client s' up down used]> (n_clients n)) n)) k).
  { intros Hr. destruct H1 as [B D Hev Hca Hsy Hlo Hrj]. constructor; try done. cbn.
    intros x a [[= -> ->]|Ha]%elem_of_cons; [|by eapply Hrj]. intros Hh. destruct (Hok Hh) as (y & E1 & _). by eapply Hr. }
  destruct r; [exact H1|by apply Hrej|by apply Hrej].
Qed.

Lemma hstep_route n k o c : hninv honest n k -> N.of_nat k < two53 -> n_crashed (nstep n (NRoute o c)) = [] ->
  hninv honest (nstep n (NRoute o c)) (S k).
Proof.
  intros Hn Hk Hcr. destruct (n_clients n !! c) as [cl|] eqn:Hc.
  2:{ cbn [nstep] in *. rewrite Hc in *. eapply hninv_more; [|done]. lia. }
  destruct (cl_up cl) as [|m rest] eqn:Hu.
  { cbn [nstep] in *. rewrite Hc in *. destruct cl; cbn in Hu; subst. eapply hninv_more; [|done]. lia. }
  rewrite (route_step n o c cl m rest Hc Hu) in *. apply hroute; [done|done| |done].
  exists cl. split; [done|]. intros _. by exists rest.
Qed.
Lemma hstep_forge n k o c m : hninv honest n k -> N.of_nat k < two53 -> ~ honest c ->
  n_crashed (hstep n (HForge o c m)) = [] -> hninv honest (hstep n (HForge o c m)) (S k).
Proof.
  intros Hn Hk Hh. cbn [hstep]. destruct (n_clients n !! c) as [cl|] eqn:Hc; [|intros _; eapply hninv_more; [|done]; lia].
  intros Hcr. eapply (hninv_agree honest (routed o c m n) _ _ (n_clients (handle o c m n))).
  - apply hroute; [done|done| |done]. exists cl. split; [done|]. intros ?. done.
  - unfold routed. by destruct (handle o c m n).
  - intros x. cbn. symmetry. apply dom_taken.
  - intros x Hx. cbn. rewrite taken_lookup, decide_False; [done|]. by intros ->.
Qed.

Lemma hninv_step n k e : hninv honest n k -> N.of_nat k < two53 -> decent honest n e -> n_crashed (hstep n e) = [] ->
  hninv honest (hstep n e) (S k).
Proof.
  intros Hn Hk Hd Hcr. destruct e as [e|o c m]; [|by apply hstep_forge].
  destruct e as [d|o c|c m|o c|c|p c].
  - by apply hstep_join.
  - by apply hstep_leave.
  - eapply hninv_more; [|by apply hstep_send]. lia.
  - by apply hstep_route.
  - eapply hninv_more; [|by apply hstep_deliver]. lia.
  - by apply hstep_disclose.
Qed.
Lemma hninv_empty : hninv honest empty_net 0.
Proof.
  constructor; cbn; try done.
  - constructor; cbn; try done. intros c. rewrite lookup_empty. split; [done|by intros []].
  - constructor; cbn; try done.
    + intros c. rewrite lookup_empty. split; [done|by intros []].
    + intros c (s & x & H & _). by apply elem_of_nil in H.
  - intros c. rewrite lookup_empty. by intros [].
  - intros c a H. by apply elem_of_nil in H.
Qed.
Lemma hninv_run es : forall n k, hninv honest n k -> N.of_nat (k + length es) <= two53 -> decently honest n es ->
  n_crashed (hrun n es) = [] -> hninv honest (hrun n es) (k + length es)%nat.
Proof.
  induction es as [|e es IH]; intros n k Hn Hk Hd Hcr; [by rewrite Nat.add_0_r|].
  destruct Hd as [Hd1 Hd2]. cbn [length hrun] in *. replace (k + S (length es))%nat with (S k + length es)%nat by lia.
  apply IH; [|lia|done|done]. apply hninv_step; [done|lia|done|].
  eapply crashes_nil; [apply crashes_hrun|exact Hcr].
Qed.

End Hostile.
