From Verif Require Import Prelude Value Msg IdGen Types Auth Acceptor AuthSpec AcceptorProofs AuthProofs PathMatch
  Broker BrokerSpec BrokerFacts BrokerSim BrokerTrace BrokerProofs Dealer DealerSpec DealerFacts DealerCases DealerCalls DealerProofs DealerFinal
  Realm RealmSpec RealmProofs RealmTopics.

Local Open Scope list_scope.

Section topics.
Context {CR : Crypto}.
Implicit Types (r : realm) (log : list revent).

Definition gave (e : revent) : Prop := exists j a, e = RGave j a.
(** Nothing of broker or dealer. *)
Definition still (e : revent) : Prop :=
  match e with RTook _ _ | RGave _ _ | RDetached _ => False | _ => True end.

(** ** Reactions *)
Lemma given_first_stop l x l' : ~ gave x -> given_first (l ++ x :: l') = given_first l.
Proof.
  intros Hx. induction l as [|e l IH]; cbn [app].
  - destruct x; try done. destruct Hx. by do 2 eexists.
  - destruct e; try done. cbn. by rewrite IH.
Qed.
Lemma reaction_cons x new : ~ gave x -> reaction (x :: new) = reaction new.
Proof. intros Hx. unfold reaction. cbn [rev]. by apply given_first_stop. Qed.
Lemma reaction_app l x new : ~ gave x -> reaction (l ++ x :: new) = reaction new.
Proof.
  intros Hx. unfold reaction. rewrite rev_app_distr. cbn [rev]. rewrite <- app_assoc. cbn [app].
  by apply given_first_stop.
Qed.
Lemma reaction_still l new : Forall still l -> reaction (l ++ new) = reaction new.
Proof.
  induction 1 as [|x l Hx Hl IH]; [done|]. cbn [app]. rewrite reaction_cons; [done|].
  by intros (j & a & ->).
Qed.
Lemma given_map {A} (f : A -> nat * message) l : given_first (map (fun x => RGave (f x).1 (f x).2) l) = map f l.
Proof. induction l as [|x l IH]; [done|]. cbn. rewrite IH. by destruct (f x). Qed.
Lemma given_first_app l l' : Forall gave l -> given_first (l ++ l') = given_first l ++ given_first l'.
Proof. induction 1 as [|x l (j & a & ->) Hl IH]; [done|]. cbn. by rewrite IH. Qed.

(** ** Subscriptions in the log *)
Lemma has_still l log i t id : Forall still l -> has (l ++ log) i t id <-> has log i t id.
Proof.
  induction 1 as [|x l Hx Hl IH]; [done|]. cbn [app has]. rewrite IH.
  destruct x; try done; cbn; tauto.
Qed.
Lemma has_took k m log i t id : has (RTook k m :: log) i t id <-> has log i t id.
Proof. cbn. tauto. Qed.
(** Messages that neither start nor end a subscription. *)
Definition neutral (a : message) : Prop := match a with MSubscribed _ | MUnsubscribed _ => False | _ => True end.
Lemma has_neutral l log i t id : Forall (fun g => exists j a, g = RGave j a /\ neutral a) l ->
  has (l ++ log) i t id <-> has log i t id.
Proof.
  induction 1 as [|x l (j & a & -> & Ha) Hl IH]; [done|]. cbn [app has]. rewrite IH.
  destruct a; try done; cbn; tauto.
Qed.

(** ** The invariant *)
Record pinv (r : realm) : Prop := {
  pi_has : forall i t id, has (rl_log r) i t id <->
    exists d, rl_session r i = Some d /\ holds (btr r) (se_id d) t id;
  pi_took : forall sid m out, (BReceive sid m, out) ∈ btr r -> exists i, RTook i m ∈ rl_log r;
  pi_ans : forall new i m past, rl_log r = new ++ RTook i m :: past -> answered past i m (reaction new);
  pi_after : forall new j a past, rl_log r = new ++ RGave j a :: past ->
    exists gs i m old, past = gs ++ RTook i m :: old /\ Forall gave gs }.

Lemma pinv_new statics : pinv (new_realm statics).
Proof.
  constructor; cbn.
  - intros i t id. split; [done|]. by intros (d & ? & _).
  - intros sid m out H. by apply elem_of_nil in H.
  - by intros [|? ?].
  - by intros [|? ?].
Qed.

Lemma pinv_still r r' l : pinv r -> rl_log r' = l ++ rl_log r -> Forall still l ->
  (forall i t id, (exists d, rl_session r' i = Some d /\ holds (btr r') (se_id d) t id)
     <-> exists d, rl_session r i = Some d /\ holds (btr r) (se_id d) t id) ->
  (forall sid m out, (BReceive sid m, out) ∈ btr r' -> (BReceive sid m, out) ∈ btr r) ->
  pinv r'.
Proof.
  intros P El Hl Hh Hb. constructor.
  - intros i t id. rewrite El, has_still, Hh by done. apply (pi_has _ P).
  - intros sid m out Hin. rewrite El. destruct (pi_took _ P _ _ _ (Hb _ _ _ Hin)) as [i Hi].
    exists i. apply elem_of_app. by right.
  - rewrite El. intros new i m past E. apply app_eq_app in E as [l' [[-> E]|[-> E]]].
    + destruct l' as [|x l'].
      * cbn in E. rewrite app_nil_r in Hl. rewrite <- (app_nil_r new). rewrite reaction_still by done.
        by apply (pi_ans _ P []).
      * injection E as <- ->. apply Forall_app in Hl as [_ Hl]. by apply Forall_cons in Hl as [Hl _].
    + rewrite reaction_still by done. by apply (pi_ans _ P).
  - rewrite El. intros new j a past E. apply app_eq_app in E as [l' [[-> E]|[-> E]]].
    + destruct l' as [|x l'].
      * cbn in E. by apply (pi_after _ P [] j a).
      * injection E as <- ->. apply Forall_app in Hl as [_ Hl]. by apply Forall_cons in Hl as [Hl _].
    + by apply (pi_after _ P l' j a).
Qed.

Lemma pinv_took r r' i m l : pinv r -> rl_log r' = l ++ RTook i m :: rl_log r -> Forall gave l ->
  (forall k t id, has (l ++ RTook i m :: rl_log r) k t id <->
    exists d, rl_session r' k = Some d /\ holds (btr r') (se_id d) t id) ->
  (forall sid m' out, (BReceive sid m', out) ∈ btr r' -> m' = m \/ (BReceive sid m', out) ∈ btr r) ->
  answered (rl_log r) i m (reaction l) ->
  pinv r'.
Proof.
  intros P El Hl Hh Hb Ha. constructor.
  - intros k t id. rewrite El. apply Hh.
  - intros sid m' out Hin. rewrite El. destruct (Hb _ _ _ Hin) as [->|Hin'].
    + exists i. apply elem_of_app. right. by left.
    + destruct (pi_took _ P _ _ _ Hin') as [k Hk]. exists k. apply elem_of_app. right. by right.
  - rewrite El. intros new k m' past E. apply app_eq_app in E as [l' [[-> E]|[-> E]]].
    + destruct l' as [|x l'].
      * cbn in E. injection E as -> -> ->. by rewrite app_nil_r in Ha.
      * injection E as <- ->. apply Forall_app in Hl as [_ Hl]. apply Forall_cons in Hl as [Hl _].
        by destruct Hl as (? & ? & ?).
    + destruct l' as [|x l']; cbn in E.
      * injection E as <- <- <-. by rewrite app_nil_r.
      * injection E as <- E. rewrite reaction_app by (by intros (? & ? & ?)). by apply (pi_ans _ P).
  - rewrite El. intros new j a past E. apply app_eq_app in E as [l' [[-> E]|[-> E]]].
    + destruct l' as [|x l']; [done|].
      injection E as <- ->. apply Forall_app in Hl as [_ Hl]. apply Forall_cons in Hl as [_ Hl].
      exists l', i, m, (rl_log r). done.
    + destruct l' as [|x l']; cbn in E; [done|]. injection E as <- E. by apply (pi_after _ P l' j a).
Qed.

(** ** The broker *)
Lemma inv_step statics k r o op b out : rinv statics k r -> N.of_nat k < two53 ->
  bstep o (rl_broker r) op = Ret b out ->
  exists s s', tinv (btr r) s /\ tstep s op out s'
    /\ trace_of (rl_bh r ++ [(o, op)]) (rl_bouts r ++ [out]) = (op, out) :: btr r.
Proof.
  intros I Hk E. pose proof (ri_b _ _ _ I) as HRb. pose proof (ri_lb _ _ _ I) as HLb.
  pose proof (brun_snoc _ _ _ _ _ _ _ _ HRb E) as HSb.
  assert (L1 : N.of_nat (length (rl_bh r)) < two53) by lia.
  destruct (next_step _ _ _ _ _ _ L1 HSb) as (b0 & s & s' & _ & _ & _ & T & Ts & _).
  exists s, s'. split; [done|]. split; [done|]. by eapply btr_snoc.
Qed.

Lemma session_row statics k r i d s : rinv statics k r -> tinv (btr r) s -> rl_session r i = Some d ->
  tb_sessions s !! se_id d = Some d.
Proof. intros I T Hi. apply (ti_added _ _ T), (ri_added _ _ _ I). eauto. Qed.

(** Those who have a subscription are connections. *)
Lemma has_row statics k r s i t id : rinv statics k r -> pinv r -> tinv (btr r) s ->
  has (rl_log r) i t id <-> exists d row, rl_session r i = Some d /\ tb_rows s !! t = Some row /\ t_id row = id
     /\ se_id d ∈ t_subs row.
Proof.
  intros I P T. rewrite (pi_has _ P). setoid_rewrite (ti_hold _ _ T). split.
  - intros (d & Hd & row & Hr & He & Hin). eauto 10.
  - intros (d & row & Hd & Hr & He & Hin). eauto 10.
Qed.
Lemma row_has statics k r s t row sid : rinv statics k r -> pinv r -> tinv (btr r) s ->
  tb_rows s !! t = Some row -> sid ∈ t_subs row -> exists i, rl_by_id r !! sid = Some i /\ has (rl_log r) i t (t_id row).
Proof.
  intros I P T Hr Hin. destruct (ti_subs _ _ T _ _ _ Hr Hin) as [d Hd].
  apply (ti_added _ _ T), (ri_added _ _ _ I) in Hd as (i & Hi & <-).
  exists i. split; [apply (ri_ids _ _ _ I); eauto|]. eapply has_row; eauto 10.
Qed.

Lemma subscribe_step statics k r i d o m b out r' u : rinv statics k r -> pinv r -> N.of_nat k < two53 ->
  rl_session r i = Some d -> (match m with MSubscribe _ | MUnsubscribe _ => True | _ => False end) ->
  bstep o (rl_broker r) (BReceive (se_id d) m) = Ret b out ->
  match on_broker o (BReceive (se_id d) m) (rset_log (RTook i m :: rl_log r) r) with
      | Crash w => Crash w | Ret r (BMsg a to) => Ret (give a to r) tt | Ret r _ => Ret r tt end = Ret r' u ->
  pinv r'.
Proof.
  intros I P Hk Hi Hm E. unfold on_broker. cbn [rl_broker rset_log]. rewrite E.
  destruct (inv_step _ _ _ _ _ _ _ I Hk E) as (s & s' & T & Ts & Ht).
  pose proof (session_row _ _ _ _ _ _ I T Hi) as Hs.
  assert (Hid : rl_by_id r !! se_id d = Some i) by (apply (ri_ids _ _ _ I); eauto).
  assert (Hself : forall j dj, rl_session r j = Some dj -> se_id dj = se_id d -> j = i).
  { intros j dj Hj Ej. by eapply ids_distinct. }
  inversion Ts as [| | | | | |? ? row Hs' Hr|? ? Hs' Hr|? ? t row Hs' Hr Hid' Hin|? ? e0 He| | |]; subst; try done.
  - (* SUBSCRIBE, topic known *)
    unfold give. cbn [rl_by_id rset_log]. rewrite Hid. intros [= <- _].
    eapply (pinv_took r _ i (MSubscribe m0) [RGave i (MSubscribed (Subscribed (su_request m0) (t_id row)))] P); [done| | | |].
    + apply Forall_cons. split; [by do 2 eexists|done].
    + intros x t id. unfold btr. cbn [rset_log rl_bh rl_bouts rl_session]. cbn [app has starts ends holds is_subscribed is_ended].
      rewrite Ht. cbn [holds is_subscribed is_ended].
      rewrite (pi_has _ P). cbn [sd_subscription]. split.
      * intros [(<- & _ & <- & <-)|[[[]|[(dx & Hx & Hh) _]] _]]; [exists d; split; [done|by left]|].
        exists dx. split; [done|]. right. tauto.
      * intros (dx & Hx & [(E1 & <- & <- & _)|[Hh _]]).
        -- left. symmetry in E1. rewrite (Hself _ _ Hx E1). done.
        -- right. split; [|tauto]. right. split; [eauto|tauto].
    + intros sid m' out. unfold btr. cbn [rset_log rl_bh rl_bouts]. rewrite Ht. intros [[= -> -> ->]|Hin]%elem_of_cons; [by left|by right].
    + exists (t_id row). split; [done|]. split.
      * intros j id'. rewrite (has_row _ _ _ _ _ _ _ I P T). intros (dj & row' & _ & Hr' & <- & _). congruence.
      * intros j t. rewrite (has_row _ _ _ _ _ _ _ I P T). intros (dj & row' & _ & Hr' & Hi' & _).
        by eapply (ti_inj _ _ T).
  - (* SUBSCRIBE, topic new *)
    unfold give. cbn [rl_by_id rset_log]. rewrite Hid. intros [= <- _].
    eapply (pinv_took r _ i (MSubscribe m0) [RGave i (MSubscribed (Subscribed (su_request m0) (tb_ids s + 1)))] P); [done| | | |].
    + apply Forall_cons. split; [by do 2 eexists|done].
    + intros x t id. unfold btr. cbn [rset_log rl_bh rl_bouts rl_session]. cbn [app has starts ends holds is_subscribed is_ended].
      rewrite Ht. cbn [holds is_subscribed is_ended].
      rewrite (pi_has _ P). cbn [sd_subscription]. split.
      * intros [(<- & _ & <- & <-)|[[[]|[(dx & Hx & Hh) _]] _]]; [exists d; split; [done|by left]|].
        exists dx. split; [done|]. right. tauto.
      * intros (dx & Hx & [(E1 & <- & <- & _)|[Hh _]]).
        -- left. symmetry in E1. rewrite (Hself _ _ Hx E1). done.
        -- right. split; [|tauto]. right. split; [eauto|tauto].
    + intros sid m' out. unfold btr. cbn [rset_log rl_bh rl_bouts]. rewrite Ht. intros [[= -> -> ->]|Hin]%elem_of_cons; [by left|by right].
    + exists (tb_ids s + 1). split; [done|]. split.
      * intros j id'. rewrite (has_row _ _ _ _ _ _ _ I P T). intros (dj & row' & _ & Hr' & <- & _). congruence.
      * intros j t. rewrite (has_row _ _ _ _ _ _ _ I P T). intros (dj & row' & _ & Hr' & Hi' & _).
        destruct (ti_row _ _ T _ _ Hr'). lia.
  - (* UNSUBSCRIBE *)
    unfold give. cbn [rl_by_id rset_log]. rewrite Hid. intros [= <- _].
    eapply (pinv_took r _ i (MUnsubscribe m0) [RGave i (MUnsubscribed (Unsubscribed (us_request m0)))] P); [done| | | |].
    + apply Forall_cons. split; [by do 2 eexists|done].
    + intros x t' id. unfold btr. cbn [rset_log rl_bh rl_bouts rl_session]. cbn [app has starts ends holds is_subscribed is_ended].
      rewrite Ht. cbn [holds is_subscribed is_ended].
      rewrite (pi_has _ P). split.
      * intros [[]|[[[]|[(dx & Hx & Hh) _]] Hn]].
        exists dx. split; [done|]. right. split; [done|]. intros [E1 <-]. apply Hn. symmetry in E1.
        by rewrite (Hself _ _ Hx E1).
      * intros (dx & Hx & [[]|[Hh Hn]]). right. split; [right; split; [eauto|tauto]|].
        intros (<- & _ & <-). apply Hn. split; [congruence|done].
    + intros sid m' out. unfold btr. cbn [rset_log rl_bh rl_bouts]. rewrite Ht. intros [[= -> -> ->]|Hin']%elem_of_cons; [by left|by right].
    + left. split; [|done]. exists t. rewrite (has_row _ _ _ _ _ _ _ I P T). eauto 10.
  - (* refused *)
    intros [= <- _]. destruct m as [m|m|m|m|m|m|m|m|m|m|m|m|m|m|m|m|m|m|m|m|m|m|m|m]; try done; [cbn in He; congruence|].
    eapply (pinv_took r _ i (MUnsubscribe m) [] P); [done|done| | |].
    + intros x t' id. unfold btr. cbn [rset_log rl_bh rl_bouts rl_session app]. rewrite has_took, (pi_has _ P), Ht.
      cbn [holds is_subscribed is_ended]. split.
      * intros (dx & Hx & Hh). exists dx. split; [done|]. right. split; [done|tauto].
      * intros (dx & Hx & [[]|[Hh _]]). eauto.
    + intros sid m' out. unfold btr. cbn [rset_log rl_bh rl_bouts]. rewrite Ht. intros [[= -> -> ->]|Hin']%elem_of_cons; [by left|by right].
    + right. split; [|done]. intros t. rewrite (has_row _ _ _ _ _ _ _ I P T). intros (dx & row & Hx & Hr & Hid' & Hin).
      assert (dx = d) as -> by congruence. destruct He as [He|He]; [congruence|]. by eapply He.
Qed.

(** ** Events *)
Lemma give_all_exact m r tos js : Forall2 (fun to j => rl_by_id r !! to = Some j) tos js ->
  give_all m tos r = rset_log (rev (map (fun j => RGave j m) js) ++ rl_log r) r.
Proof.
  intros H. cut (forall log, give_all m tos (rset_log log r) = rset_log (rev (map (fun j => RGave j m) js) ++ log) r).
  { intros Hc. rewrite <- Hc. by destruct r. }
  induction H as [|to j tos js Hj Hr IH]; intros log; cbn [give_all map rev]; [done|].
  unfold give at 1. cbn [rl_by_id rset_log rl_log]. rewrite Hj.
  change (rset_log (RGave j m :: log) (rset_log log r)) with (rset_log (RGave j m :: log) r).
  rewrite IH. by rewrite <- app_assoc.
Qed.

Lemma by_id_inj statics k r a b j : rinv statics k r -> rl_by_id r !! a = Some j -> rl_by_id r !! b = Some j -> a = b.
Proof. intros I (d & H1 & <-)%(ri_ids _ _ _ I) (d' & H2 & <-)%(ri_ids _ _ _ I). congruence. Qed.

Lemma recipients_js statics k r s t row rs : rinv statics k r -> pinv r -> tinv (btr r) s ->
  tb_rows s !! t = Some row -> NoDup rs -> (forall x, x ∈ rs <-> x ∈ t_subs row) ->
  exists js, Forall2 (fun to j => rl_by_id r !! to = Some j) rs js /\ NoDup js
    /\ forall j, j ∈ js <-> has (rl_log r) j t (t_id row).
Proof.
  intros I P T Hrow Hnd Hrs.
  assert (Hx : forall x, x ∈ rs -> exists j, rl_by_id r !! x = Some j /\ has (rl_log r) j t (t_id row)).
  { intros x Hx. apply Hrs in Hx. by eapply row_has. }
  assert (exists js, Forall2 (fun to j => rl_by_id r !! to = Some j) rs js) as [js Hjs].
  { clear Hrs Hnd. induction rs as [|x rs IH]; [by exists []|].
    destruct IH as [js Hjs]; [intros y Hy; apply Hx; by right|].
    destruct (Hx x) as (j & Hj & _); [by left|]. exists (j :: js). by constructor. }
  exists js. split; [done|]. split.
  - clear Hx Hrs. induction Hjs as [|x j rs js Hj Hjs IH]; [constructor|].
    apply NoDup_cons in Hnd as [Hn Hnd]. constructor; [|by apply IH].
    intros Hin. apply Hn. apply elem_of_list_lookup in Hin as [n Hn'].
    destruct (Forall2_lookup_r _ _ _ _ _ Hjs Hn') as (y & Hy & Hyj).
    rewrite (by_id_inj _ _ _ _ _ _ I Hj Hyj). by eapply elem_of_list_lookup_2.
  - intros j. split.
    + intros Hin. apply elem_of_list_lookup in Hin as [n Hn'].
      destruct (Forall2_lookup_r _ _ _ _ _ Hjs Hn') as (y & Hy & Hyj).
      destruct (Hx y) as (j' & Hj' & Hh); [by eapply elem_of_list_lookup_2|]. congruence.
    + rewrite (has_row _ _ _ _ _ _ _ I P T). intros (d & row' & Hd & Hr' & _ & Hin).
      assert (row' = row) as -> by congruence. apply Hrs in Hin. apply elem_of_list_lookup in Hin as [n Hn'].
      destruct (Forall2_lookup_l _ _ _ _ _ Hjs Hn') as (j' & Hj' & Hid).
      assert (rl_by_id r !! se_id d = Some j) by (apply (ri_ids _ _ _ I); eauto).
      assert (j' = j) as -> by congruence. by eapply elem_of_list_lookup_2.
Qed.

Lemma publish_step statics k r i d o p r' u : rinv statics k r -> pinv r -> N.of_nat k < two53 ->
  rl_session r i = Some d ->
  serve o (se_id d) (MPublish p) (rset_log (RTook i (MPublish p) :: rl_log r) r) = Ret r' u -> pinv r'.
Proof.
  intros I P Hk Hi. cbn [serve]. unfold on_broker. cbn [rl_broker rset_log].
  destruct (bstep o (rl_broker r) (BPublish (se_id d) p)) as [b out|w] eqn:E; [|done].
  destruct (inv_step _ _ _ _ _ _ _ I Hk E) as (s & s' & T & Ts & Ht).
  pose proof (session_row _ _ _ _ _ _ I T Hi) as Hs.
  assert (Hid : rl_by_id r !! se_id d = Some i) by (apply (ri_ids _ _ _ I); eauto).
  set (ackl := match mget (pu_options p) "acknowledge" with
     | VBool true => [(i, MPublished (Published (pu_request p) (tb_ids s + 1)))] | _ => [] end).
  assert (Hack : forall log r1, rl_by_id r1 = rl_by_id r ->
    match ack_of p (se_id d) (tb_ids s + 1) with Some (a, to) => give a to (rset_log log r1) | None => rset_log log r1 end
    = rset_log (rev (map (fun x => RGave x.1 x.2) ackl) ++ log) r1).
  { intros log r1 Hr1. unfold ack_of, ackl. destruct (mget (pu_options p) "acknowledge") as [ |[]| | | | | | | | | ]; try done.
    unfold give. cbn [rl_by_id rset_log]. rewrite Hr1, Hid. done. }
  assert (Gackl : Forall gave (rev (map (fun x : nat * message => RGave x.1 x.2) ackl))).
  { apply Forall_rev, Forall_fmap, Forall_forall. intros x _. by do 2 eexists. }
  assert (Nackl : Forall (fun g => exists j a, g = RGave j a /\ neutral a) (rev (map (fun x : nat * message => RGave x.1 x.2) ackl))).
  { apply Forall_rev, Forall_fmap. unfold ackl. destruct (mget (pu_options p) "acknowledge") as [ |[]| | | | | | | | | ]; try done.
    apply Forall_cons. split; [|done]. by do 2 eexists. }
  assert (Rackl : given_first (map (fun x : nat * message => RGave x.1 x.2) ackl) = ackl).
  { by rewrite (given_map (fun x => x)), map_id. }
  assert (Hholds : forall x t id ev rs ack, holds ((BPublish (se_id d) p, BPubl ev rs ack) :: btr r) x t id <-> holds (btr r) x t id).
  { intros. cbn. tauto. }
  inversion Ts as [| | | | | | | | | | |? ? Hs' Hf|? ? pub t row rs Hs' Hsv Hnd Hrs]; subst; [congruence| |].
  - (* nobody *)
    match goal with |- context [Realm ?a ?b ?c ?d ?e ?f ?g ?h ?i ?j ?k] => set (r1 := Realm a b c d e f g h i j k) end.
    pose proof (Hack (rl_log r1) r1 eq_refl) as Ha. assert (Er : rset_log (rl_log r1) r1 = r1) by done.
    rewrite Er in Ha. cbn zeta. rewrite Ha. intros [= <- _].
    eapply (pinv_took r _ i (MPublish p) (rev (map (fun x => RGave x.1 x.2) ackl)) P); [done|done| | |].
    + intros x t id. rewrite has_neutral, has_took, (pi_has _ P) by done. unfold btr. cbn [rset_log rl_bh rl_bouts rl_session r1].
      rewrite Ht. setoid_rewrite Hholds. done.
    + intros sid m' out. unfold btr. cbn [rset_log rl_bh rl_bouts r1]. rewrite Ht. intros [[= ]|Hin]%elem_of_cons. by right.
    + cbn [answered]. exists (tb_ids s + 1), ackl. split; [done|]. left. unfold reaction. rewrite rev_involutive.
      split; [done|]. intros j id. rewrite (has_row _ _ _ _ _ _ _ I P T). intros (dj & row & _ & Hr & _).
      apply (Hf (pu_topic p) row). by constructor.
  - (* somebody *)
    assert (Hrow : tb_rows s !! t = Some row) by (by destruct Hsv as [|? ? ? []|? ? ? ? []]).
    destruct (recipients_js _ _ _ _ _ _ _ I P T Hrow Hnd Hrs) as (js & Hjs & Hndj & Hmem).
    match goal with |- context [Realm ?a ?b ?c ?d ?e ?f ?g ?h ?i ?j ?k] => set (r1 := Realm a b c d e f g h i j k) end.
    set (ev := Event _ _ _ _ _).
    rewrite (give_all_exact _ r1 rs js) by done. rewrite Hack by done. intros [= <- _].
    set (l := rev (map (fun x => RGave x.1 x.2) ackl) ++ rev (map (fun j => RGave j (MEvent ev)) js)).
    assert (Gl : Forall gave l).
    { apply Forall_app. split; [done|]. apply Forall_rev, Forall_fmap, Forall_forall. intros x _. by do 2 eexists. }
    eapply (pinv_took r _ i (MPublish p) l P); [unfold l; by rewrite <- app_assoc|done| | |].
    + intros x t' id. unfold l. rewrite has_neutral, has_took, (pi_has _ P).
      2:{ apply Forall_app. split; [done|]. apply Forall_rev, Forall_fmap, Forall_forall. intros y _. by do 2 eexists. }
      unfold btr. cbn [rset_log rl_bh rl_bouts rl_session r1].
      rewrite Ht. setoid_rewrite Hholds. done.
    + intros sid m' out. unfold btr. cbn [rset_log rl_bh rl_bouts r1]. rewrite Ht. intros [[= ]|Hin]%elem_of_cons. by right.
    + cbn [answered]. exists (tb_ids s + 1), ackl. split; [done|]. right. exists ev, js, t.
      unfold reaction, l. rewrite rev_app_distr, !rev_involutive, given_first_app, Rackl.
      2:{ apply Forall_fmap, Forall_forall. intros y _. by do 2 eexists. }
      split; [f_equal; exact (given_map (fun j => (j, MEvent ev)) js)|].
      split; [done|]. split; [done|]. split; [done|]. split.
      { destruct (ti_row _ _ T _ _ Hrow) as [Hne _]. destruct (set_choose_L _ Hne) as [x Hx].
        apply Hrs in Hx. intros ->. inversion Hjs; subst. by apply elem_of_nil in Hx. }
      split; [done|]. split; [done|].
      assert (Hno : tb_rows s !! pu_topic p = None -> forall j id, ~ has (rl_log r) j (pu_topic p) id).
      { intros Hn j id. rewrite (has_row _ _ _ _ _ _ _ I P T). intros (dj & row' & _ & Hr & _). congruence. }
      assert (Hasked : forall pol, t_policy row = pol -> t_indexed row = true ->
        exists x y, RTook x (MSubscribe y) ∈ rl_log r /\ su_topic y = t /\ requested_policy (su_options y) = pol).
      { intros pol Hp Hx. assert (searchable (btr r) t pol (t_id row)) as Hse by (apply (ti_search _ _ T); eauto).
        apply searchable_created in Hse as ([op out] & Hin & Hc).
        destruct op as [| | | |sid m|]; try done. destruct m; try done. destruct out as [| | |a to|]; try done. destruct a; try done.
        destruct Hc as (H1 & H2 & _). destruct (pi_took _ P _ _ _ Hin) as [x Hx']. eauto. }
      destruct Hsv as [row' Hr|t' row' Hn (H1 & H2 & H3 & H4) _|t' row' Hn _ (H1 & H2 & H3 & H4)]; [by left|right..].
      * split; [by apply Hno|]. destruct (Hasked _ H2 H3) as (x & y & H5 & <- & H6). exists x, y.
        split; [done|]. split; [done|]. unfold pattern_for. by rewrite H6.
      * split; [by apply Hno|]. destruct (Hasked _ H2 H3) as (x & y & H5 & <- & H6). exists x, y.
        split; [done|]. split; [done|]. unfold pattern_for. by rewrite H6.
Qed.

(** ** The dealer *)
Definition of_broker (m : message) : Prop :=
  match m with MSubscribe _ | MUnsubscribe _ | MPublish _ => True | _ => False end.

Lemma dealer_reaction statics k r i d m o dl out l : rinv statics k r -> rl_session r i = Some d ->
  N.of_nat k < two53 ->
  dstep o (rl_dealer r) (DReceive (se_id d) m) = Ret dl out ->
  match out with
  | DMsg a to => match rl_by_id r !! to with Some j => l = [RGave j a] | None => l = [] end
  | _ => l = []
  end ->
  ~ of_broker m -> answered (rl_log r) i m (reaction l) /\ Forall (fun g => exists j a, g = RGave j a /\ neutral a) l.
Proof.
  intros I Hi Hk Hs Hl Hm. pose proof (ri_d _ _ _ I) as HR. pose proof (ri_ld _ _ _ I) as HL.
  assert (L1 : N.of_nat (length (rl_dh r)) < two53) by lia.
  assert (L2 : N.of_nat (length (rl_dh r)) <= two53) by lia.
  assert (Hid : rl_by_id r !! se_id d = Some i) by (apply (ri_ids _ _ _ I); eauto).
  assert (One : forall j a, neutral a -> l = [RGave j a] ->
    reaction l = [(j, a)] /\ Forall (fun g => exists j a, g = RGave j a /\ neutral a) l).
  { intros j a Ha ->. split; [done|]. apply Forall_cons. split; [|done]. by do 2 eexists. }
  assert (Zero : l = [] -> reaction l = [] /\ Forall (fun g => exists j a, g = RGave j a /\ neutral a) l) by (by intros ->).
  assert (Self : forall a to, out = DMsg a to -> neutral a -> to = se_id d ->
    reaction l = [(i, a)] /\ Forall (fun g => exists j a, g = RGave j a /\ neutral a) l).
  { intros a to -> Ha ->. rewrite Hid in Hl. by apply One. }
  assert (Some_ : forall a to, out = DMsg a to -> neutral a ->
    (reaction l = [] \/ exists j, reaction l = [(j, a)]) /\ Forall (fun g => exists j a, g = RGave j a /\ neutral a) l).
  { intros a to -> Ha. destruct (rl_by_id r !! to) as [j|].
    - destruct (One j a Ha Hl) as [H1 H2]. eauto.
    - destruct (Zero Hl) as [H1 H2]. eauto. }
  assert (None_ : (exists e, out = DErr e) ->
    reaction l = [] /\ Forall (fun g => exists j a, g = RGave j a /\ neutral a) l).
  { intros [e ->]. by apply Zero. }
  clear Zero One Hl Hid.
  destruct m as [m|m|m|m|m|m|m|m|m|m|m|m|m|m|m|m|m|m|m|m|m|m|m|m]; cbn [answered];
    try (by destruct Hm); try (apply None_; cbn [dstep d_receive_message] in Hs; injection Hs as _ <-; by eexists).
  - (* ERROR *)
    destruct (error_answer _ _ _ _ _ _ _ _ L2 HR Hs) as [(_ & E & _)|(c & x & rp & T & Ho & E)].
    + destruct (None_ E) as [-> ?]. by split; [left|].
    + destruct (Some_ _ _ E Logic.I) as [[->|[j ->]] ?]; (split; [|done]); [by left|]. right. by do 2 eexists.
  - (* CALL *)
    destruct (call_answer _ _ _ _ _ _ _ _ L1 HR Hs) as [[E _]|[E|(iv & g & callee & s & who & E & Hc & Hw & _)]].
    + destruct (Self _ _ E Logic.I eq_refl) as [-> ?]. split; [|done]. right; right. by eexists.
    + destruct (None_ E) as [-> ?]. by split; [left|].
    + destruct (Some_ _ _ E Logic.I) as [[->|[j ->]] ?]; (split; [|done]); [by left|]. right; left. by do 2 eexists.
  - (* REGISTER *)
    cbn [dstep d_receive_message] in Hs.
    destruct (register_cases _ _ _ _ _ Hs) as [(Hn & _ & _)|(mine & _ & [(l' & g & _ & _ & _ & _ & E)|[(l' & g & _ & _ & _ & _ & _ & _ & E)|(_ & _ & E)]])].
    + exfalso. pose proof (run_sinv _ _ _ HR) as S.
      assert (is_Some (d_by_session (rl_dealer r) !! se_id d)) as [? ?]; [|congruence].
      apply (si_dom _ _ S). exists d. apply (si_sess _ _ S), (ri_present _ _ _ I). eauto.
    + destruct (Self _ _ E Logic.I eq_refl) as [-> ?]. split; [|done]. right. by eexists.
    + destruct (Self _ _ E Logic.I eq_refl) as [-> ?]. split; [|done]. left. by eexists.
    + destruct (Self _ _ E Logic.I eq_refl) as [-> ?]. split; [|done]. left. by eexists.
  - (* UNREGISTER *)
    cbn [dstep d_receive_message] in Hs.
    destruct (unregister_cases _ _ _ _ _ Hs) as [(_ & _ & E)|(mine & l' & g & _ & _ & _ & _ & E)].
    + destruct (None_ E) as [-> ?]. by split; [left|].
    + destruct (Self _ _ E Logic.I eq_refl) as [-> ?]. split; [by right|done].
  - (* YIELD *)
    destruct (yield_answer _ _ _ _ _ _ _ _ L2 HR Hs) as [(_ & E & _)|(c & x & rp & Ho & [(_ & E)|(s & Hp & E)])].
    + destruct (None_ E) as [-> ?]. by split; [left|].
    + destruct (None_ E) as [-> ?]. by split; [left|].
    + destruct (Some_ _ _ E Logic.I) as [[->|[j ->]] ?]; (split; [|done]); [by left|]. right. by do 2 eexists.
Qed.

Lemma serve_pinv statics k r i d m o r' u : rinv statics k r -> pinv r -> N.of_nat k < two53 ->
  rl_session r i = Some d ->
  serve o (se_id d) m (rset_log (RTook i m :: rl_log r) r) = Ret r' u -> pinv r'.
Proof.
  intros I P Hk Hi H.
  assert (Quiet : forall r1 l, rl_session r1 = rl_session r -> btr r1 = btr r ->
    rl_log r1 = l ++ RTook i m :: rl_log r ->
    answered (rl_log r) i m (reaction l) /\ Forall (fun g => exists j a, g = RGave j a /\ neutral a) l -> pinv r1).
  { intros r1 l Hs Hb Hlog [Ha Hl].
    eapply (pinv_took r r1 i m l P); [done| | | |done].
    - eapply Forall_impl; [exact Hl|]. intros g (j & a & -> & _). by do 2 eexists.
    - intros x t id. rewrite Hs, Hb, has_neutral, has_took by done. apply (pi_has _ P).
    - intros sid m' out. rewrite Hb. by right. }
  assert (Dealer : ~ of_broker m ->
    match on_dealer o (DReceive (se_id d) m) (rset_log (RTook i m :: rl_log r) r) with
      | Crash w => Crash w | Ret r (DMsg a to) => Ret (give a to r) tt | Ret r _ => Ret r tt end = Ret r' u -> pinv r').
  { intros Hm. unfold on_dealer. cbn [rl_dealer rset_log].
    destruct (dstep o (rl_dealer r) (DReceive (se_id d) m)) as [dl out|w] eqn:E; [|done].
    pose proof (fun l => dealer_reaction _ _ _ _ _ _ _ _ _ l I Hi Hk E) as Hr.
    destruct out as [e| |y|a to]; try (intros [= <- _]; apply (Quiet _ []); [done..|by apply Hr]).
    unfold give. cbn [rl_by_id rset_log]. destruct (rl_by_id r !! to) as [j|].
    - intros [= <- _]. apply (Quiet _ [RGave j a]); [done..|by apply Hr].
    - intros [= <- _]. apply (Quiet _ []); [done..|by apply Hr]. }
  assert (Sub : (match m with MSubscribe _ | MUnsubscribe _ => True | _ => False end) ->
    match on_broker o (BReceive (se_id d) m) (rset_log (RTook i m :: rl_log r) r) with
      | Crash w => Crash w | Ret r (BMsg a to) => Ret (give a to r) tt | Ret r _ => Ret r tt end = Ret r' u -> pinv r').
  { intros Hm H0. destruct (bstep o (rl_broker r) (BReceive (se_id d) m)) as [b out|w] eqn:E.
    - by eapply subscribe_step.
    - unfold on_broker in H0. cbn [rl_broker rset_log] in H0. by rewrite E in H0. }
  assert (Drop : answered (rl_log r) i m [] ->
    Ret (rset_log (RTook i m :: rl_log r) r) tt = Ret r' u -> pinv r').
  { intros Hm [= <- _]. by apply (Quiet _ []). }
  destruct m as [m|m|m|m|m|m|m|m|m|m|m|m|m|m|m|m|m|m|m|m|m|m|m|m];
    try exact (Drop eq_refl H); try exact (Dealer (fun x => x) H); try exact (Sub Logic.I H).
  by eapply publish_step.
Qed.

(** ** The other steps *)
Lemma detached_holds s tr sid t id : tinv tr s -> tb_sessions s !! sid = None -> ~ holds tr sid t id.
Proof.
  intros T Hn Hh. apply (ti_hold _ _ T) in Hh as (row & Hr & _ & Hin).
  destruct (ti_subs _ _ T _ _ _ Hr Hin). congruence.
Qed.

Lemma join_pinv statics k r i d r' u : rinv statics k r -> pinv r -> N.of_nat k < two53 -> rl_session r i = None ->
  acceptor_details (rl_acceptor r i) = Ok d -> join i (rl_acceptor r i) r = Ret r' u -> pinv r'.
Proof.
  intros I P Hk Hi Hd. unfold join. rewrite Hd. unfold on_broker.
  destruct (bstep (Oracle sh_id sh_id 0) (rl_broker r) (BAdd d)) as [b out|w] eqn:E; [|done].
  destruct (inv_step _ _ _ _ _ _ _ I Hk E) as (s & s' & T & Ts & Ht).
  assert (Refused : forall r1 out, rl_log r1 = rl_log r -> rl_session r1 = rl_session r ->
    btr r1 = (BAdd d, out) :: btr r -> pinv r1).
  { intros r1 out1 Hl Hs Hb. apply (pinv_still r r1 [] P); [done|done| |].
    - intros x t id. rewrite Hs, Hb. cbn. split.
      + intros (dx & Hx & [[]|[Hh _]]). eauto.
      + intros (dx & Hx & Hh). exists dx. split; [done|]. right. by split; [|tauto].
    - intros sid m o. rewrite Hb. by intros [[= ]|Hin]%elem_of_cons. }
  inversion Ts as [d0 Hn|d0 e0 Hs| | | | | | | | | | |]; subst; [|intros [= <- _]; by eapply Refused].
  unfold on_dealer. cbn [rl_dealer].
  destruct (dstep (Oracle sh_id sh_id 0) (rl_dealer r) (DAdd d)) as [dl out|w] eqn:Ed; [|done].
  destruct out as [e| |y|a to]; try (intros [= <- _]; by eapply Refused).
  intros [= <- _].
  apply (pinv_still r _ [RAttached i d] P); [done|by repeat constructor| |]; unfold btr;
    cbn [attach rl_bh rl_bouts rl_session]; rewrite Ht; fold (btr r).
  - intros x t id. cbn [holds is_subscribed is_ended]. destruct (decide (x = i)) as [->|n].
    + rewrite put_eq. split.
      * intros (dx & [= <-] & [[]|[Hh _]]). exfalso. by eapply detached_holds.
      * intros (dx & Hx & _). congruence.
    + rewrite put_ne by done. split.
      * intros (dx & Hx & [[]|[Hh _]]). eauto.
      * intros (dx & Hx & Hh). exists dx. split; [done|]. right. by split; [|tauto].
  - intros sid m o. by intros [[= ]|Hin]%elem_of_cons.
Qed.

Lemma close_pinv r i : pinv r -> pinv (close i r).
Proof. intros P. by apply (pinv_still r _ [] P). Qed.

Lemma detach_pinv statics k r i d o r' u : rinv statics k r -> pinv r -> N.of_nat k < two53 -> rl_session r i = Some d ->
  rstep (RClose i o) r = Ret r' u -> pinv r'.
Proof.
  intros I P Hk Hi. cbn [rstep]. rewrite Hi. unfold on_broker.
  destruct (bstep o (rl_broker r) (BRemove (se_id d))) as [b out|w] eqn:E; [|done].
  destruct (inv_step _ _ _ _ _ _ _ I Hk E) as (s & s' & T & Ts & Ht).
  pose proof (session_row _ _ _ _ _ _ I T Hi) as Hs.
  inversion Ts as [| |sid Hs'|sid e0 Hn| | | | | | | | |]; subst; [|congruence].
  unfold on_dealer. cbn [rl_dealer].
  destruct (dstep o (rl_dealer r) (DRemove (se_id d))) as [dl out|w] eqn:Ed; [|done].
  intros [= <- _]. apply close_pinv.
  match goal with |- pinv ?rr => set (r1 := rr) end.
  assert (El : rl_log r1 = RDetached i :: rl_log r) by done.
  assert (Eb : btr r1 = (BRemove (se_id d), BOk) :: btr r) by (unfold btr, r1; cbn [detach rl_bh rl_bouts]; by rewrite Ht).
  assert (Es : rl_session r1 = put (rl_session r) i None) by done. clearbody r1.
  constructor.
  - intros x t id. rewrite El, Es, Eb. cbn [has starts ends holds is_subscribed is_ended].
    destruct (decide (x = i)) as [->|n].
    + rewrite put_eq. split; [intros [[]|[_ []]]; done|]. by intros (dx & ? & _).
    + rewrite put_ne by done. rewrite (pi_has _ P). split.
      * intros [[]|[(dx & Hx & Hh) _]]. exists dx. split; [done|]. right. split; [done|]. intros Eq. apply n.
        by eapply ids_distinct.
      * intros (dx & Hx & [[]|[Hh _]]). right. split; [eauto|congruence].
  - intros sid m o'. rewrite Eb, El. intros [[= ]|Hin]%elem_of_cons. destruct (pi_took _ P _ _ _ Hin) as [x Hx].
    exists x. by right.
  - intros new x m past. rewrite El. destruct new as [|e new]; cbn [app]; [done|]. intros [= <- Hl].
    rewrite reaction_cons by (by intros (? & ? & ?)). by apply (pi_ans _ P).
  - intros new x m past. rewrite El. destruct new as [|e new]; cbn [app]; [done|]. intros [= <- Hl].
    by apply (pi_after _ P new x m).
Qed.

Lemma disclose_pinv statics k r p c r' u : rinv statics k r -> pinv r -> N.of_nat k < two53 ->
  rstep (RDisclose p c) r = Ret r' u -> pinv r'.
Proof.
  intros I P Hk. cbn [rstep]. unfold on_broker, on_dealer.
  destruct (bstep _ _ (BDisclose p)) as [b out|w] eqn:E; [|done]. cbn [rl_dealer].
  destruct (inv_step _ _ _ _ _ _ _ I Hk E) as (s & s' & T & Ts & Ht).
  destruct (dstep _ _ (DDisclose c)) as [dl out'|w] eqn:Ed; [|done]. intros [= <- _].
  apply (pinv_still r _ [RSet p c] P); [done|by repeat constructor| |]; unfold btr;
    cbn [rset_log rl_bh rl_bouts rl_session]; rewrite Ht; fold (btr r).
  - intros x t id. cbn [holds is_subscribed is_ended]. split.
    + intros (dx & Hx & [[]|[Hh _]]). eauto.
    + intros (dx & Hx & Hh). exists dx. split; [done|]. right. by split; [|tauto].
  - intros sid m o. by intros [[= ]|Hin]%elem_of_cons.
Qed.

Lemma still_shakes i t : Forall still (map (RShake i) t).
Proof. induction t; by constructor. Qed.

Lemma rstep_pinv statics k r op r' u : rinv statics k r -> pinv r -> N.of_nat k < two53 -> rstep op r = Ret r' u -> pinv r'.
Proof.
  intros I P Hk. destruct op as [i e o m|i o|p c].
  - cbn [rstep]. destruct (rl_closed r i); [by intros [= <- _]|].
    destruct (rl_session r i) as [d|] eqn:Hi; [by eapply serve_pinv|].
    destruct (acceptor_receive e (rl_acceptor r i) m) as [a [calls reply]|w] eqn:E; [|done].
    pose proof (shake_inv _ _ _ _ _ _ _ _ _ I Hi E) as I1. cbn zeta in I1.
    match type of I1 with rinv _ _ ?rr => set (r1 := rr) in * end.
    assert (P1 : pinv r1).
    { eapply (pinv_still r r1 _ P); [reflexivity|apply still_shakes|done|done]. }
    assert (Done : Ret r1 tt = Ret r' u -> pinv r') by (by intros [= <- _]).
    destruct reply as [[ |w| | | | | | | | | | | | | | | | | | | | | | ]|e'|w]; try exact Done.
    replace a with (rl_acceptor r1 i) at 1 by (unfold r1; cbn; by rewrite put_eq).
    assert (S1 : rl_session r1 i = None) by exact Hi.
    destruct (acceptor_details (rl_acceptor r1 i)) as [d|e'|w'] eqn:Ed.
    + by apply (join_pinv statics k r1 i d).
    + unfold join. rewrite Ed. intros [= <- _]. by apply close_pinv.
    + unfold join. rewrite Ed. intros [= <- _]. by apply close_pinv.
  - destruct (rl_session r i) as [d|] eqn:Hi; [by eapply detach_pinv|].
    cbn [rstep]. rewrite Hi. intros [= <- _]. by apply close_pinv.
  - by eapply disclose_pinv.
Qed.
Lemma rrun_pinv statics ops : forall k r r' u, rinv statics k r -> pinv r -> N.of_nat (k + length ops) <= two53 ->
  rrun ops r = Ret r' u -> pinv r'.
Proof.
  induction ops as [|op ops IH]; intros k r r' u I P Hk; cbn [rrun].
  - by intros [= <- _].
  - cbn [length] in Hk. destruct (rstep op r) as [r1 u1|w] eqn:E; [|done].
    assert (N.of_nat k < two53) by lia. apply (IH (S k)); [by eapply rstep_inv|by eapply rstep_pinv|lia].
Qed.
Lemma run_pinv statics ops r u : N.of_nat (length ops) <= two53 -> rrun ops (new_realm statics) = Ret r u -> pinv r.
Proof. intros Hl. apply (rrun_pinv statics ops 0%nat); [apply rinv_new|apply pinv_new|lia]. Qed.

(** ** What follows *)
Lemma all_answered statics ops r u new i m past : N.of_nat (length ops) <= two53 ->
  rrun ops (new_realm statics) = Ret r u -> rl_log r = new ++ RTook i m :: past -> answered past i m (reaction new).
Proof. intros Hl H. apply (pi_ans _ (run_pinv _ _ _ _ Hl H)). Qed.

Lemma reaction_in gs j a new : Forall gave gs -> ((j, a) : nat * message) ∈ reaction (new ++ RGave j a :: gs).
Proof.
  intros Hg. unfold reaction. rewrite rev_app_distr. cbn [rev]. rewrite <- app_assoc.
  rewrite given_first_app by (by apply Forall_rev). apply elem_of_app. right. cbn. left.
Qed.
Lemma nothing_unasked statics ops r u new j a past : N.of_nat (length ops) <= two53 ->
  rrun ops (new_realm statics) = Ret r u -> rl_log r = new ++ RGave j a :: past ->
  exists new' i m old, rl_log r = new' ++ RTook i m :: old /\ (j, a) ∈ reaction new' /\ answered old i m (reaction new').
Proof.
  intros Hl H E. pose proof (run_pinv _ _ _ _ Hl H) as P.
  destruct (pi_after _ P _ _ _ _ E) as (gs & i & m & old & -> & Hg).
  exists (new ++ RGave j a :: gs), i, m, old. rewrite E. rewrite <- app_assoc.
  assert (El : rl_log r = (new ++ RGave j a :: gs) ++ RTook i m :: old) by (rewrite E; by rewrite <- app_assoc).
  split; [done|]. split; [by apply (reaction_in gs j a)|]. by apply (pi_ans _ P).
Qed.

(** Every event is for somebody who has the subscription, and comes from a
    publication. *)
Lemma event_wanted statics ops r u new j e past : N.of_nat (length ops) <= two53 ->
  rrun ops (new_realm statics) = Ret r u -> rl_log r = new ++ RGave j (MEvent e) :: past ->
  exists gs i p old t, past = gs ++ RTook i (MPublish p) :: old /\ Forall (fun g => exists k, g = RGave k (MEvent e)) gs
    /\ ev_args e = pu_args p /\ ev_kwargs e = pu_kwargs p /\ has old j t (ev_subscription e)
    /\ (t = pu_topic p \/ exists k s, RTook k (MSubscribe s) ∈ old /\ su_topic s = t /\ pattern_for s (pu_topic p)).
Proof.
  intros Hl H E. pose proof (run_pinv _ _ _ _ Hl H) as P.
  destruct (publisher_shown _ _ _ _ _ _ _ _ Hl H E) as (i & _ & p & gs & old & -> & Hg & _).
  assert (El : rl_log r = (new ++ RGave j (MEvent e) :: gs) ++ RTook i (MPublish p) :: old) by (rewrite E; by rewrite <- app_assoc).
  assert (Hgs : Forall gave gs) by (eapply Forall_impl; [exact Hg|]; intros g [k ->]; by do 2 eexists).
  pose proof (pi_ans _ P _ _ _ _ El) as Ha. pose proof (reaction_in gs j (MEvent e) new Hgs) as Hin.
  set (out := reaction (new ++ RGave j (MEvent e) :: gs)) in *. clearbody out.
  destruct Ha as (pid & ack & Hack & Ha).
  assert (Hno : (j, MEvent e) ∉ ack).
  { rewrite Hack. intros Hin'. destruct (mget (pu_options p) "acknowledge") as [ |[]| | | | | | | | | ];
      try (by apply elem_of_nil in Hin'); by apply elem_of_list_singleton in Hin'. }
  destruct Ha as [[-> _]|(e' & js & t & -> & _ & H1 & H2 & _ & _ & H3 & H4)]; [done|].
  apply elem_of_app in Hin as [Hin|Hin]; [|done].
  apply elem_of_list_fmap in Hin as (j' & [= -> ->] & Hj).
  exists gs, i, p, old, t. split; [done|]. split; [done|]. split; [done|]. split; [done|]. split; [by apply H3|].
  destruct H4 as [H4|[_ H4]]; first [by left|by right].
Qed.
End topics.
