From Verif Require Import Prelude Value Msg IdGen Types Auth Acceptor AuthSpec AcceptorProofs AuthProofs PathMatch
  Broker BrokerSpec BrokerFacts BrokerSim BrokerTrace BrokerProofs Dealer DealerSpec DealerFacts DealerCases DealerCalls DealerProofs DealerFinal
  Realm RealmSpec.

Local Open Scope list_scope.

Section realm.
Context {CR : Crypto}.
Implicit Types (r : realm) (log : list revent).

Definition btr r := trace_of (rl_bh r) (rl_bouts r).
Definition dtr r := dtrace_of (rl_dh r) (rl_douts r).

(** ** Logs *)
Definition quiet (e : revent) : Prop :=
  match e with RTook _ _ | RGave _ _ | RSet _ _ => True | _ => False end.
Lemma on_quiet l log i : Forall quiet l -> on (l ++ log) i = on log i.
Proof. induction 1 as [|e l He Hl IH]; [done|]. by destruct e. Qed.
Lemma shakes_quiet l log i : Forall quiet l -> shakes i (l ++ log) = shakes i log.
Proof. induction 1 as [|e l He Hl IH]; [done|]. by destruct e. Qed.
Lemma shakes_app l log i : shakes i (l ++ log) = shakes i l ++ shakes i log.
Proof. apply omap_app. Qed.
Lemma shakes_own i t : shakes i (map (RShake i) t) = t.
Proof. induction t as [|e t IH]; [done|]. unfold shakes in *. cbn. by rewrite Nat.eqb_refl, IH. Qed.
Lemma shakes_other i k t : k <> i -> shakes i (map (RShake k) t) = [].
Proof.
  intros H. induction t as [|e t IH]; [done|]. unfold shakes in *. cbn.
  rewrite (proj2 (Nat.eqb_neq k i)) by done. exact IH.
Qed.
Lemma on_shakes i k t log : on (map (RShake k) t ++ log) i = on log i.
Proof. by induction t. Qed.

(** ** The invariant *)
(** A call with request id [q] was made under the session id that [j] has. *)
Definition answers past j q : Prop :=
  exists i c mid old d d', past = mid ++ RTook i (MCall c) :: old /\ ca_request c = q
    /\ on old i = Some d /\ on past j = Some d' /\ se_id d = se_id d'.
(** What was given to [j] after [past]. *)
Definition given past j m : Prop :=
  (exists d, on past j = Some d /\ authenticated past j d) /\
  match m with
  | MInvocation v => exists i d c past', past = RTook i (MCall c) :: past' /\ on past' i = Some d /\ authenticated past' i d
      /\ shows (in_details v) "caller" (if snd (disclosure past') then Some d else None)
  | MEvent e => exists i d p gs past', past = gs ++ RTook i (MPublish p) :: past'
      /\ Forall (fun g => exists k, g = RGave k (MEvent e)) gs
      /\ on past' i = Some d /\ authenticated past' i d
      /\ shows (ev_details e) "publisher" (if fst (disclosure past') then Some d else None)
  | MResult x => answers past j (re_request x)
  | MError x => er_type x = 48 -> answers past j (er_request x)
  | _ => True
  end.

Record rinv (statics : nat -> bool) (k : nat) (r : realm) : Prop := {
  ri_b : brun new_broker (rl_bh r) = Ret (rl_broker r) (rl_bouts r);
  ri_d : drun new_dealer (rl_dh r) = Ret (rl_dealer r) (rl_douts r);
  ri_lb : (length (rl_bh r) <= k)%nat;
  ri_ld : (length (rl_dh r) <= k)%nat;
  ri_acc : forall i, exists ins,
    acceptor_run ins (new_acceptor (statics i), []) = Ret (rl_acceptor r i, shakes i (rl_log r)) tt;
  ri_on : forall i, on (rl_log r) i = rl_session r i;
  ri_auth : forall i d, rl_session r i = Some d -> acceptor_details (rl_acceptor r i) = Ok d;
  ri_ids : forall id i, rl_by_id r !! id = Some i <-> exists d, rl_session r i = Some d /\ se_id d = id;
  ri_present : forall sid d, present_as (dtr r) sid d <-> exists i, rl_session r i = Some d /\ se_id d = sid;
  ri_added : forall sid d, added (btr r) sid d <-> exists i, rl_session r i = Some d /\ se_id d = sid;
  ri_disc : disclosing_caller (dtr r) = snd (disclosure (rl_log r));
  ri_bdisc : disclosing (btr r) = fst (disclosure (rl_log r));
  ri_took : forall sid m out, (DReceive sid m, out) ∈ dtr r -> exists i d new past,
    rl_log r = new ++ RTook i m :: past /\ on past i = Some d /\ se_id d = sid;
  ri_gave : forall new j m past, rl_log r = new ++ RGave j m :: past -> given past j m }.

Lemma rinv_new statics : rinv statics 0 (new_realm statics).
Proof.
  constructor; cbn; try done; try lia.
  - intros i. by exists [].
  - intros id i. split; [by rewrite lookup_empty|]. by intros (d & ? & _).
  - intros sid d. split; [done|]. by intros (i & ? & _).
  - intros sid d. split; [done|]. by intros (i & ? & _).
  - intros sid m out H. by apply elem_of_nil in H.
  - intros [|? ?] j m past; done.
Qed.

(** An attached connection is authenticated. *)
Lemma attached_authenticated statics k r i d : rinv statics k r -> rl_session r i = Some d ->
  authenticated (rl_log r) i d.
Proof.
  intros I H. destruct (ri_acc _ _ _ I i) as [ins E]. pose proof (ri_auth _ _ _ I _ _ H) as Hd.
  destruct (details_after_welcome _ _ _ _ _ E) as [H1 H2].
  destruct (H2 _ Hd) as [w Hw]. destruct (H1 w Hw) as (d' & Hd' & Ha).
  rewrite Hd in Hd'. injection Hd' as <-.
  apply elem_of_list_split in Hw as (new & past & Hs). exists new, w, past. split; [done|]. split; [|done].
  rewrite Hs in E. by eapply welcome_warranted.
Qed.
Lemma authenticated_quiet l log i d : Forall quiet l -> authenticated log i d -> authenticated (l ++ log) i d.
Proof. intros Hl (new & w & past & H & ?). exists new, w, past. by rewrite shakes_quiet. Qed.

(** New log entries at the front. *)
Lemma gave_ext l log : (forall new j m past, log = new ++ RGave j m :: past -> given past j m) ->
  (forall l1 j m l2, l = l1 ++ RGave j m :: l2 -> given (l2 ++ log) j m) ->
  forall new j m past, l ++ log = new ++ RGave j m :: past -> given past j m.
Proof.
  intros H1 H2 new j m past E. apply app_eq_app in E as [l' [[-> E]|[-> E]]].
  - destruct l' as [|x l'].
    + cbn in E. apply (H1 [] j). by rewrite <- E.
    + cbn in E. injection E as <- ->. by apply (H2 new j m l').
  - by apply (H1 l' j).
Qed.

(** ** Calls on broker and dealer *)
Lemma dtr_snoc statics k r o op out : rinv statics k r ->
  dtrace_of (rl_dh r ++ [(o, op)]) (rl_douts r ++ [out]) = (op, out) :: dtr r.
Proof. intros I. apply dtrace_snoc. eapply drun_length, (ri_d _ _ _ I). Qed.
Lemma btr_snoc statics k r o op out : rinv statics k r ->
  trace_of (rl_bh r ++ [(o, op)]) (rl_bouts r ++ [out]) = (op, out) :: btr r.
Proof. intros I. rewrite trace_of_app; [done|]. eapply brun_length, (ri_b _ _ _ I). Qed.
Lemma brun_snoc b h o op b' outs out b'' : brun b h = Ret b' outs -> bstep o b' op = Ret b'' out ->
  brun b (h ++ [(o, op)]) = Ret b'' (outs ++ [out]).
Proof. intros H1 H2. rewrite brun_app, H1. cbn [brun]. by rewrite H2. Qed.

Lemma present_ids statics k r sid d : rinv statics k r -> present_as (dtr r) sid d -> se_id d = sid.
Proof. intros I H. apply (ri_present _ _ _ I) in H as (i & _ & ?). done. Qed.
(** Session ids of attached connections are distinct. *)
Lemma ids_distinct statics k r i j d d' : rinv statics k r -> rl_session r i = Some d -> rl_session r j = Some d' ->
  se_id d = se_id d' -> i = j.
Proof.
  intros I H1 H2 E.
  assert (A1 : rl_by_id r !! se_id d = Some i) by (apply (ri_ids _ _ _ I); eauto).
  assert (A2 : rl_by_id r !! se_id d = Some j) by (apply (ri_ids _ _ _ I); eauto).
  congruence.
Qed.

(** ** Giving messages *)
Lemma give_spec m to r : exists l, give m to r = rset_log (l ++ rl_log r) r
  /\ (l = [] \/ exists j, l = [RGave j m] /\ rl_by_id r !! to = Some j).
Proof.
  unfold give. destruct (rl_by_id r !! to) as [j|].
  - exists [RGave j m]. split; [done|]. right. eauto.
  - exists []. split; [by destruct r|]. by left.
Qed.
Lemma give_all_spec m tos : forall r, exists l, give_all m tos r = rset_log (l ++ rl_log r) r
  /\ Forall (fun g => exists j to, g = RGave j m /\ rl_by_id r !! to = Some j) l.
Proof.
  induction tos as [|to tos IH]; intros r; cbn [give_all].
  { exists []. by destruct r. }
  destruct (give_spec m to r) as (l1 & -> & H1). destruct (IH (rset_log (l1 ++ rl_log r) r)) as (l2 & -> & H2).
  exists (l2 ++ l1). cbn [rl_log rset_log]. rewrite <- app_assoc. split; [done|].
  apply Forall_app. split; [exact H2|]. destruct H1 as [->|(j & -> & ?)]; [done|].
  apply Forall_cons. split; [|done]. eauto.
Qed.

(** A step that takes a message of an attached connection and gives others. *)
Lemma rinv_took statics k r i d m l b bh bouts dl dh douts : rinv statics k r -> rl_session r i = Some d ->
  brun new_broker bh = Ret b bouts -> drun new_dealer dh = Ret dl douts ->
  (length bh <= S k)%nat -> (length dh <= S k)%nat ->
  (forall sid x, added (trace_of bh bouts) sid x <-> added (btr r) sid x) ->
  disclosing (trace_of bh bouts) = disclosing (btr r) ->
  (dtrace_of dh douts = dtr r \/ exists out, dtrace_of dh douts = (DReceive (se_id d) m, out) :: dtr r) ->
  (forall l1 j a l2, l = l1 ++ RGave j a :: l2 -> given (l2 ++ RTook i m :: rl_log r) j a) ->
  Forall (fun g => exists j a, g = RGave j a) l ->
  rinv statics (S k) (Realm (rl_acceptor r) (rl_session r) (rl_closed r) (rl_by_id r) b dl
                        (l ++ RTook i m :: rl_log r) bh bouts dh douts).
Proof.
  intros I Hi Hb Hd Lb Ld Ha Hdis Htr Hg Hl.
  assert (Hq : Forall quiet (l ++ [RTook i m])).
  { apply Forall_app. split; [|by repeat constructor]. eapply Forall_impl; [exact Hl|]. by intros ? (? & ? & ->). }
  assert (El : l ++ RTook i m :: rl_log r = (l ++ [RTook i m]) ++ rl_log r) by (by rewrite <- app_assoc).
  assert (Hds : disclosure (l ++ RTook i m :: rl_log r) = disclosure (rl_log r)).
  { clear -Hl. induction Hl as [|g l (j & a & ->) Hl IH]; [done|]. exact IH. }
  constructor; cbn [rl_acceptor rl_session rl_closed rl_by_id rl_broker rl_dealer rl_log rl_bh rl_bouts rl_dh rl_douts];
    unfold btr, dtr; cbn [rl_bh rl_bouts rl_dh rl_douts]; try done.
  - intros x. rewrite El, shakes_quiet by done. apply (ri_acc _ _ _ I).
  - intros x. rewrite El, on_quiet by done. apply (ri_on _ _ _ I).
  - apply (ri_auth _ _ _ I).
  - apply (ri_ids _ _ _ I).
  - intros sid x. rewrite <- (ri_present _ _ _ I). by destruct Htr as [->|[out ->]].
  - intros sid x. rewrite Ha. apply (ri_added _ _ _ I).
  - rewrite Hds, <- (ri_disc _ _ _ I). by destruct Htr as [->|[out ->]].
  - rewrite Hds, <- (ri_bdisc _ _ _ I). done.
  - intros sid m' out' Hin.
    assert (Hc : (DReceive sid m', out') ∈ dtr r \/ (sid = se_id d /\ m' = m)).
    { destruct Htr as [E|[out E]]; rewrite E in Hin; [by left|].
      apply elem_of_cons in Hin as [[= -> -> _]|Hin]; [by right|by left]. }
    destruct Hc as [Hin'|[-> ->]].
    + destruct (ri_took _ _ _ I _ _ _ Hin') as (x & dx & new & past & E & H1 & H2).
      exists x, dx, (l ++ RTook i m :: new), past. rewrite E. split; [|done]. by rewrite <- app_assoc.
    + exists i, d, l, (rl_log r). split; [done|]. split; [|done]. by rewrite (ri_on _ _ _ I).
  - rewrite El. apply gave_ext; [apply (ri_gave _ _ _ I)|].
    intros l1 j a l2 E. apply app_eq_app in E as [l' [[-> E]|[-> E]]].
    + destruct l' as [|x l']; [done|]. injection E as <- ->.
      specialize (Hg l1 j a l' eq_refl). by rewrite <- app_assoc.
    + destruct l' as [|x l']; [done|]. injection E as _ E. by destruct l'.
Qed.

Lemma recipient statics k r j to l : rinv statics k r -> rl_by_id r !! to = Some j -> Forall quiet l ->
  exists d, on (l ++ rl_log r) j = Some d /\ authenticated (l ++ rl_log r) j d /\ se_id d = to.
Proof.
  intros I H Hq. apply (ri_ids _ _ _ I) in H as (d & Hd & <-). exists d.
  rewrite on_quiet, (ri_on _ _ _ I) by done. split; [done|]. split; [|done].
  apply authenticated_quiet; [done|]. by eapply attached_authenticated.
Qed.
Lemma one_given l1 l2 j a j' m : l1 ++ RGave j a :: l2 = [RGave j' m] -> l1 = [] /\ l2 = [] /\ j = j' /\ a = m.
Proof. destruct l1 as [|x l1]; [by intros [= -> -> ->]|]. intros [= _ E]. by destruct l1. Qed.
Lemma single_given statics k r i m l a to :
  rinv statics k r -> (l = [] \/ exists j, l = [RGave j a] /\ rl_by_id r !! to = Some j) ->
  (forall j, rl_by_id r !! to = Some j -> given (RTook i m :: rl_log r) j a) ->
  (forall l1 j x l2, l = l1 ++ RGave j x :: l2 -> given (l2 ++ RTook i m :: rl_log r) j x)
  /\ Forall (fun g => exists j x, g = RGave j x) l.
Proof.
  intros I [->|(j & -> & Hj)] Hg.
  - split; [|done]. by intros [|? ?] ? ? ?.
  - split; [|apply Forall_cons; split; [by eauto|done]]. intros l1 j' x l2 E. symmetry in E.
    apply one_given in E as (-> & -> & -> & ->). by apply Hg.
Qed.

(** An ordinary reply. *)
Definition plain (a : message) : Prop :=
  match a with MInvocation _ | MEvent _ | MResult _ => False | MError x => er_type x <> 48 | _ => True end.
Lemma plain_given statics k r i m j a to : rinv statics k r -> rl_by_id r !! to = Some j -> plain a ->
  given (RTook i m :: rl_log r) j a.
Proof.
  intros I Hj Hp. destruct (recipient _ _ _ _ _ [RTook i m] I Hj) as (d & H1 & H2 & _); [by repeat constructor|].
  split; [by exists d|]. destruct a as [ | | | | | |x| | | | | | | | | | | | | | | | | ]; try done.
Qed.

Lemma shows_caller c sid d b (v : invocation) i g s : se_id d = sid ->
  v = invocation_for c i g (invocation_details c sid (if b : bool then Some d else None)) s ->
  shows (in_details v) "caller" (if b then Some d else None).
Proof.
  intros <- ->. unfold invocation_for, invocation_details, shows.
  destruct (bp_binary (ca_bin c) && se_static s), b, (says (ca_options c) "receive_progress"), (says (ca_options c) "progress");
    vm_compute; by repeat split.
Qed.

Lemma dealer_given statics k r i d m o dl out a to j : rinv statics k r -> rl_session r i = Some d ->
  N.of_nat k < two53 ->
  dstep o (rl_dealer r) (DReceive (se_id d) m) = Ret dl out -> out = DMsg a to ->
  rl_by_id r !! to = Some j -> given (RTook i m :: rl_log r) j a.
Proof.
  intros I Hi Hk Hs -> Hj. pose proof (ri_d _ _ _ I) as HR. pose proof (ri_ld _ _ _ I) as HL.
  assert (L1 : N.of_nat (length (rl_dh r)) < two53) by lia.
  assert (L2 : N.of_nat (length (rl_dh r)) <= two53) by lia.
  destruct (recipient _ _ _ _ _ [RTook i m] I Hj) as (dj & Oj & Aj & Ej); [by repeat constructor|].
  cbn [app] in Oj, Aj.
  assert (Own : on (rl_log r) i = Some d) by (by rewrite (ri_on _ _ _ I)).
  destruct m as [m|m|m|m|m|m|m|m|m|m|m|m|m|m|m|m|m|m|m|m|m|m|m|m]; try discriminate Hs.
  - (* ERROR *)
    destruct (error_origin _ _ _ _ _ _ _ _ _ L2 HR Hs) as (c & out & Hin & _ & _ & ->).
    split; [by exists dj|]. intros _. cbn [er_request].
    destruct (ri_took _ _ _ I _ _ _ Hin) as (x & dx & new & past & E & H1 & H2).
    exists x, c, (RTook i (MError m) :: new), past, dx, dj. rewrite E at 1.
    split; [done|]. split; [done|]. split; [done|]. split; [done|]. congruence.
  - (* CALL *)
    destruct (call_answer _ _ _ _ _ _ _ _ L1 HR Hs) as [[E _]|[[e E]|(iv & g & callee & s & who & E & Hc & Hw & _)]];
      [|discriminate E|].
    + injection E as -> ->. split; [by exists dj|]. intros _. cbn.
      exists i, m, [], (rl_log r), d, dj. by repeat split.
    + injection E as -> ->. split; [by exists dj|]. exists i, d, m, (rl_log r).
      split; [done|]. split; [done|]. split; [by eapply attached_authenticated|].
      rewrite <- (ri_disc _ _ _ I). fold (dtr r) in Hw.
      assert (Ew : who = if disclosing_caller (dtr r) then Some d else None).
      { destruct (disclosing_caller (dtr r)); [|done]. destruct Hw as (w & -> & Hw).
        apply (ri_present _ _ _ I) in Hw as (i' & Hi' & Ei). f_equal.
        assert (i' = i) as -> by (by eapply ids_distinct). congruence. }
      eapply (shows_caller m (se_id d) d); [done|]. rewrite Ew. reflexivity.
  - (* REGISTER *)
    cbn [dstep d_receive_message] in Hs.
    destruct (register_cases _ _ _ _ _ Hs) as [(_ & _ & e & E)|(mine & _ & [(l & g & _ & _ & _ & _ & E)|[(l & g & _ & _ & _ & _ & _ & _ & E)|(_ & _ & E)]])];
      [discriminate E| | |]; injection E as -> _; by eapply plain_given.
  - (* UNREGISTER *)
    cbn [dstep d_receive_message] in Hs.
    destruct (unregister_cases _ _ _ _ _ Hs) as [(_ & _ & e & E)|(mine & l & g & _ & _ & _ & _ & E)];
      [discriminate E|]; injection E as -> _; by eapply plain_given.
  - (* YIELD *)
    destruct (result_origin _ _ _ _ _ _ _ _ _ L2 HR Hs) as (c & out & s & Hin & _ & _ & ->).
    split; [by exists dj|].
    destruct (ri_took _ _ _ I _ _ _ Hin) as (x & dx & new & past & E & H1 & H2).
    exists x, c, (RTook i (MYield m) :: new), past, dx, dj. rewrite E at 1.
    split; [done|]. split; [unfold result_for; by destruct (bp_binary (yi_bin m) && se_static s)|].
    split; [done|]. split; [done|]. congruence.
Qed.

Lemma shows_publisher topic d b : shows (Some (event_details b topic d (se_id d))) "publisher" (if b then Some d else None).
Proof. unfold event_details, shows. destruct b; vm_compute; by repeat split. Qed.

Lemma ack_plain p sid pid a to : ack_of p sid pid = Some (a, to) -> plain a.
Proof. intros H. apply ack_of_some in H as [-> _]. exact I. Qed.

Lemma publish_given statics k r i d p o b ev rs ack l1 l2 : rinv statics k r -> rl_session r i = Some d ->
  N.of_nat k < two53 ->
  bstep o (rl_broker r) (BPublish (se_id d) p) = Ret b (BPubl ev rs ack) ->
  match ev with
  | Some e => Forall (fun g => exists j to, g = RGave j (MEvent e) /\ rl_by_id r !! to = Some j) l2
  | None => l2 = [] end ->
  match ack with
  | Some (a, to) => l1 = [] \/ exists j, l1 = [RGave j a] /\ rl_by_id r !! to = Some j
  | None => l1 = [] end ->
  (forall x j a y, l1 ++ l2 = x ++ RGave j a :: y -> given (y ++ RTook i (MPublish p) :: rl_log r) j a)
  /\ Forall (fun g => exists j x, g = RGave j x) (l1 ++ l2).
Proof.
  intros I Hi Hk Hs H2 H1. pose proof (ri_b _ _ _ I) as HR. pose proof (ri_lb _ _ _ I) as HL.
  assert (L1 : N.of_nat (length (rl_bh r)) < two53) by lia.
  pose proof (brun_snoc _ _ _ _ _ _ _ _ HR Hs) as HS.
  assert (Own : on (rl_log r) i = Some d) by (by rewrite (ri_on _ _ _ I)).
  assert (Fg1 : Forall (fun g => exists j x, g = RGave j x) l1).
  { destruct ack as [[a to]|]; [destruct H1 as [->|(j & -> & _)]|subst l1]; try done.
    apply Forall_cons. split; [eauto|done]. }
  assert (Fg2 : Forall (fun g => exists j x, g = RGave j x) l2).
  { destruct ev as [e|]; [|subst l2; done]. eapply Forall_impl; [exact H2|]. intros g (j & to & -> & _). eauto. }
  assert (Q2 : Forall quiet l2).
  { eapply Forall_impl; [exact Fg2|]. by intros g (j & x & ->). }
  split; [|by apply Forall_app].
  assert (Tail : forall x j a y, l2 = x ++ RGave j a :: y -> given (y ++ RTook i (MPublish p) :: rl_log r) j a).
  { intros x j a y ->. destruct ev as [e|]; [|by destruct x].
    apply Forall_app in H2 as [_ H2]. apply Forall_cons in H2 as [(j' & to & [= <- ->] & Hj) Hy].
    apply Forall_app in Q2 as [_ Q2]. apply Forall_cons in Q2 as [_ Qy].
    destruct (recipient _ _ _ _ _ (y ++ [RTook i (MPublish p)]) I Hj) as (dj & Oj & Aj & Ej).
    { apply Forall_app. split; [done|]. by repeat constructor. }
    rewrite <- app_assoc in Oj, Aj. cbn [app] in Oj, Aj.
    split; [by exists dj|]. exists i, d, p, y, (rl_log r). split; [done|].
    split. { eapply Forall_impl; [exact Hy|]. intros g (j' & to' & -> & _). eauto. }
    split; [done|]. split; [by eapply attached_authenticated|].
    destruct (pub_payload _ _ _ _ _ _ _ _ _ L1 HS e eq_refl) as (_ & _ & dd & Hadd & ->).
    fold (btr r) in Hadd |- *. apply (ri_added _ _ _ I) in Hadd as (i' & Hi' & Ei).
    assert (i' = i) as -> by (by eapply ids_distinct). assert (dd = d) as -> by congruence.
    rewrite (ri_bdisc _ _ _ I). apply shows_publisher. }
  intros x j a y E. apply app_eq_app in E as [l' [[-> E]|[-> E]]].
  - destruct l' as [|g l'].
    + cbn in E. apply (Tail []). by rewrite <- E.
    + injection E as <- ->. destruct ack as [[a' to]|]; [|by destruct x].
      destruct H1 as [E1|(j' & E1 & Hj)]; [by destruct x|].
      apply one_given in E1 as (-> & -> & -> & ->). cbn [app].
      assert (Pl : plain a').
      { destruct (next_step _ _ _ _ _ _ L1 HS) as (b0 & s & s' & _ & _ & _ & _ & T & _). inversion T; subst; eapply ack_plain; eauto. }
      destruct (recipient _ _ _ _ _ (l2 ++ [RTook i (MPublish p)]) I Hj) as (dj & Oj & Aj & Ej).
      { apply Forall_app. split; [done|]. by repeat constructor. }
      rewrite <- app_assoc in Oj, Aj. split; [by exists dj|].
      by destruct a' as [ | | | | | |x| | | | | | | | | | | | | | | | | ].
  - by apply (Tail l').
Qed.

(** ** The steps *)
Lemma serve_inv statics k r i d m o r' x : rinv statics k r -> rl_session r i = Some d -> N.of_nat k < two53 ->
  serve o (se_id d) m (rset_log (RTook i m :: rl_log r) r) = Ret r' x -> rinv statics (S k) r'.
Proof.
  intros I Hi Hk H. pose proof (ri_b _ _ _ I) as HRb. pose proof (ri_lb _ _ _ I) as HLb.
  pose proof (ri_d _ _ _ I) as HRd. pose proof (ri_ld _ _ _ I) as HLd.
  assert (Drop : Ret (rset_log (RTook i m :: rl_log r) r) tt = Ret r' x -> rinv statics (S k) r').
  { intros [= <- _]. eapply (rinv_took statics k r i d m []); eauto; try lia; try done. by intros [|? ?] ? ? ?. }
  assert (Dealer : match on_dealer o (DReceive (se_id d) m) (rset_log (RTook i m :: rl_log r) r) with
      | Crash w => Crash w | Ret r (DMsg a to) => Ret (give a to r) tt | Ret r _ => Ret r tt end = Ret r' x ->
      rinv statics (S k) r').
  { unfold on_dealer. cbn [rl_dealer rset_log].
    destruct (dstep o (rl_dealer r) (DReceive (se_id d) m)) as [dl out|w] eqn:E; [|done].
    pose proof (drun_snoc _ _ _ _ _ _ _ _ HRd E) as HS.
    assert (Hlen : (length (rl_dh r ++ [(o, DReceive (se_id d) m)]) <= S k)%nat) by (rewrite app_length; cbn; lia).
    pose proof (dtr_snoc _ _ _ o (DReceive (se_id d) m) out I) as Ht.
    intros H0.
    assert (exists l, r' = Realm (rl_acceptor r) (rl_session r) (rl_closed r) (rl_by_id r) (rl_broker r) dl
                        (l ++ RTook i m :: rl_log r) (rl_bh r) (rl_bouts r)
                        (rl_dh r ++ [(o, DReceive (se_id d) m)]) (rl_douts r ++ [out])
      /\ (forall l1 j a l2, l = l1 ++ RGave j a :: l2 -> given (l2 ++ RTook i m :: rl_log r) j a)
      /\ Forall (fun g => exists j a, g = RGave j a) l) as (l & -> & Hl1 & Hl2).
    { destruct out as [e| |y|a to]; try (injection H0 as <- _; exists []; split; [done|]; split; [by intros [|? ?] ? ? ?|done]).
      injection H0 as <- _. match goal with |- context [give a to ?rr] => destruct (give_spec a to rr) as (l & -> & Hl) end.
      exists l. split; [done|]. eapply single_given; [done|exact Hl|]. intros j Hj. by eapply dealer_given. }
    eapply (rinv_took statics k r i d m l); eauto; lia. }
  assert (Sub : match on_broker o (BReceive (se_id d) m) (rset_log (RTook i m :: rl_log r) r) with
      | Crash w => Crash w | Ret r (BMsg a to) => Ret (give a to r) tt | Ret r _ => Ret r tt end = Ret r' x ->
      rinv statics (S k) r').
  { unfold on_broker. cbn [rl_broker rset_log].
    destruct (bstep o (rl_broker r) (BReceive (se_id d) m)) as [b out|w] eqn:E; [|done].
    pose proof (brun_snoc _ _ _ _ _ _ _ _ HRb E) as HS.
    assert (Hlen : (length (rl_bh r ++ [(o, BReceive (se_id d) m)]) <= S k)%nat) by (rewrite app_length; cbn; lia).
    pose proof (btr_snoc _ _ _ o (BReceive (se_id d) m) out I) as Ht.
    intros H0.
    assert (exists l, r' = Realm (rl_acceptor r) (rl_session r) (rl_closed r) (rl_by_id r) b (rl_dealer r)
                        (l ++ RTook i m :: rl_log r) (rl_bh r ++ [(o, BReceive (se_id d) m)]) (rl_bouts r ++ [out])
                        (rl_dh r) (rl_douts r)
      /\ (forall l1 j a l2, l = l1 ++ RGave j a :: l2 -> given (l2 ++ RTook i m :: rl_log r) j a)
      /\ Forall (fun g => exists j a, g = RGave j a) l) as (l & -> & Hl1 & Hl2).
    { destruct out as [e| |y|a to|ev rs ack]; try (injection H0 as <- _; exists []; split; [done|]; split; [by intros [|? ?] ? ? ?|done]).
      injection H0 as <- _. match goal with |- context [give a to ?rr] => destruct (give_spec a to rr) as (l & -> & Hl) end.
      exists l. split; [done|]. eapply single_given; [done|exact Hl|]. intros j Hj. eapply plain_given; [done|exact Hj|].
      assert (L1 : N.of_nat (length (rl_bh r)) < two53) by lia.
      destruct (next_step _ _ _ _ _ _ L1 HS) as (b0 & s & s' & _ & _ & _ & _ & T & _). by inversion T; subst. }
    eapply (rinv_took statics k r i d m l); eauto; try lia.
    - intros sid y. rewrite Ht. by destruct out.
    - rewrite Ht. by destruct out. }
  destruct m as [m|m|m|m|m|m|m|m|m|m|m|m|m|m|m|m|m|m|m|m|m|m|m|m]; cbn [serve] in H;
    try exact (Drop H); try exact (Dealer H); try exact (Sub H).
  clear Drop Dealer Sub. unfold on_broker in H. cbn [rl_broker rset_log] in H.
  destruct (bstep o (rl_broker r) (BPublish (se_id d) m)) as [b out|w] eqn:E; [|done].
  pose proof (brun_snoc _ _ _ _ _ _ _ _ HRb E) as HS.
  assert (Hlen : (length (rl_bh r ++ [(o, BPublish (se_id d) m)]) <= S k)%nat) by (rewrite app_length; cbn; lia).
  pose proof (btr_snoc _ _ _ o (BPublish (se_id d) m) out I) as Ht.
  assert (exists l, r' = Realm (rl_acceptor r) (rl_session r) (rl_closed r) (rl_by_id r) b (rl_dealer r)
                      (l ++ RTook i (MPublish m) :: rl_log r) (rl_bh r ++ [(o, BPublish (se_id d) m)]) (rl_bouts r ++ [out])
                      (rl_dh r) (rl_douts r)
    /\ (forall l1 j a l2, l = l1 ++ RGave j a :: l2 -> given (l2 ++ RTook i (MPublish m) :: rl_log r) j a)
    /\ Forall (fun g => exists j a, g = RGave j a) l) as (l & -> & Hl1 & Hl2).
  { destruct out as [e| |y|a to|ev rs ack]; try (injection H as <- _; exists []; split; [done|]; split; [by intros [|? ?] ? ? ?|done]).
    match type of H with context [Realm ?a ?b ?c ?d ?e ?f ?g ?h ?i ?j ?k] => set (r1 := Realm a b c d e f g h i j k) in H end.
    assert (exists l2, match ev with Some e => give_all (MEvent e) rs r1 | None => r1 end = rset_log (l2 ++ rl_log r1) r1
      /\ match ev with
         | Some e => Forall (fun g => exists j to, g = RGave j (MEvent e) /\ rl_by_id r !! to = Some j) l2
         | None => l2 = [] end) as (l2 & E2 & H2).
    { destruct ev as [e|]; [apply (give_all_spec (MEvent e) rs r1)|]. by exists []. }
    rewrite E2 in H. injection H as <- _.
    assert (exists l1, match ack with Some (a, to) => give a to (rset_log (l2 ++ rl_log r1) r1) | None => rset_log (l2 ++ rl_log r1) r1 end
        = rset_log (l1 ++ (l2 ++ rl_log r1)) r1
      /\ match ack with
         | Some (a, to) => l1 = [] \/ exists j, l1 = [RGave j a] /\ rl_by_id r !! to = Some j
         | None => l1 = [] end) as (l1 & E1 & H1).
    { destruct ack as [[a to]|]; [|by exists []]. destruct (give_spec a to (rset_log (l2 ++ rl_log r1) r1)) as (l1 & -> & H1).
      exists l1. by split. }
    exists (l1 ++ l2). rewrite <- (app_assoc l1 l2). split; [exact E1|]. eapply publish_given; eauto. }
  eapply (rinv_took statics k r i d (MPublish m) l); eauto; try lia.
  - intros sid y. rewrite Ht. by destruct out.
  - rewrite Ht. by destruct out.
Qed.

Lemma acceptor_run_snoc ins e m s a tr a' calls reply :
  acceptor_run ins s = Ret (a, tr) tt -> acceptor_receive e a m = Ret a' (calls, reply) ->
  acceptor_run (ins ++ [(e, m)]) s = Ret (a', AMade reply :: map ACalled calls ++ AGot m :: tr) tt.
Proof.
  revert s. induction ins as [|[e0 m0] ins IH]; intros s; cbn [acceptor_run app].
  - intros [= ->] H. unfold acceptor_step. cbn [fst snd]. by rewrite H.
  - destruct (acceptor_step e0 m0 s) as [s1 u|w]; [|done]. apply IH.
Qed.
Lemma put_eq {A} (f : nat -> A) i x : put f i x i = x.
Proof. unfold put. by rewrite Nat.eqb_refl. Qed.
Lemma put_ne {A} (f : nat -> A) i j x : j <> i -> put f i x j = f j.
Proof. intros H. unfold put. by rewrite (proj2 (Nat.eqb_neq j i)). Qed.

Lemma no_gave_shakes i t l1 j m l2 : map (RShake i) t <> l1 ++ RGave j m :: l2.
Proof.
  revert l1. induction t as [|e t IH]; intros [|x l1]; cbn; try done. intros [= _ E]. by apply IH in E.
Qed.
Lemma disclosure_shakes i t log : disclosure (map (RShake i) t ++ log) = disclosure log.
Proof. by induction t. Qed.

Lemma shake_inv statics k r i e m a calls reply : rinv statics k r -> rl_session r i = None ->
  acceptor_receive e (rl_acceptor r i) m = Ret a (calls, reply) ->
  let r1 := rset_acceptor i a r in
  rinv statics k (rset_log (map (RShake i) (AMade reply :: map ACalled calls ++ [AGot m]) ++ rl_log r1) r1).
Proof.
  intros I Hi E. cbn zeta. set (t := AMade reply :: map ACalled calls ++ [AGot m]).
  constructor; cbn [rl_acceptor rl_session rl_closed rl_by_id rl_broker rl_dealer rl_log rl_bh rl_bouts rl_dh rl_douts
    rset_acceptor rset_log]; unfold btr, dtr;
    cbn [rl_bh rl_bouts rl_dh rl_douts rset_acceptor rset_log]; try apply I.
  - intros x. rewrite shakes_app. destruct (decide (x = i)) as [->|n].
    + destruct (ri_acc _ _ _ I i) as [ins Hins]. exists (ins ++ [(e, m)]).
      rewrite shakes_own, put_eq, (acceptor_run_snoc _ _ _ _ _ _ _ _ _ Hins E). unfold t. cbn [app]. by rewrite <- app_assoc.
    + rewrite put_ne by done. rewrite shakes_other by done. apply (ri_acc _ _ _ I).
  - intros x. rewrite on_shakes. apply (ri_on _ _ _ I).
  - intros x d Hx. rewrite put_ne by congruence. by apply (ri_auth _ _ _ I).
  - rewrite disclosure_shakes. apply (ri_disc _ _ _ I).
  - rewrite disclosure_shakes. apply (ri_bdisc _ _ _ I).
  - intros sid m' out Hin. destruct (ri_took _ _ _ I _ _ _ Hin) as (x & dx & new & past & El & H1 & H2).
    exists x, dx, (map (RShake i) t ++ new), past. rewrite El. split; [|done]. by rewrite <- app_assoc.
  - apply gave_ext; [apply (ri_gave _ _ _ I)|]. intros l1 j x l2 El. by apply no_gave_shakes in El.
Qed.

Lemma join_inv statics k r i d r' x : rinv statics k r -> N.of_nat k < two53 -> rl_session r i = None ->
  acceptor_details (rl_acceptor r i) = Ok d -> join i (rl_acceptor r i) r = Ret r' x -> rinv statics (S k) r'.
Proof.
  intros I Hk Hi Hd. unfold join. rewrite Hd. unfold on_broker.
  destruct (bstep (Oracle sh_id sh_id 0) (rl_broker r) (BAdd d)) as [b out|w] eqn:E; [|done].
  pose proof (ri_b _ _ _ I) as HRb. pose proof (ri_lb _ _ _ I) as HLb.
  pose proof (ri_d _ _ _ I) as HRd. pose proof (ri_ld _ _ _ I) as HLd.
  pose proof (brun_snoc _ _ _ _ _ _ _ _ HRb E) as HSb.
  assert (L1 : N.of_nat (length (rl_bh r)) < two53) by lia.
  pose proof (btr_snoc _ _ _ (Oracle sh_id sh_id 0) (BAdd d) out I) as Htb.
  destruct (next_step _ _ _ _ _ _ L1 HSb) as (b0 & s & s' & _ & _ & _ & T & Ts & _). fold (btr r) in T.
  inversion Ts as [d0 Hn|d0 e0 Hs| | | | | | | | | | |]; subst.
  2:{ (* refused *) intros [= <- _]. constructor; cbn [rl_acceptor rl_session rl_closed rl_by_id rl_broker rl_dealer rl_log rl_bh rl_bouts rl_dh rl_douts
    close]; unfold btr, dtr; cbn [rl_bh rl_bouts rl_dh rl_douts close]; try apply I; try done.
    - rewrite app_length. cbn. lia.
    - lia.
    - intros sid y. rewrite Htb. cbn [added]. apply (ri_added _ _ _ I).
    - rewrite Htb. cbn [disclosing]. apply (ri_bdisc _ _ _ I). }
  assert (Free : forall j dj, rl_session r j = Some dj -> se_id dj <> se_id d).
  { intros j dj Hj Ej. assert (added (btr r) (se_id d) dj) as Ha by (apply (ri_added _ _ _ I); eauto).
    apply (ti_added _ _ T) in Ha. congruence. }
  unfold on_dealer. cbn [rl_dealer].
  destruct (dstep (Oracle sh_id sh_id 0) (rl_dealer r) (DAdd d)) as [dl out|w] eqn:Ed; [|done].
  pose proof (drun_snoc _ _ _ _ _ _ _ _ HRd Ed) as HSd.
  pose proof (dtr_snoc _ _ _ (Oracle sh_id sh_id 0) (DAdd d) out I) as Htd.
  destruct (add_answer _ _ _ _ _ _ _ HRd Ed) as [(Hp & _ & _)|(_ & ->)].
  { exfalso. apply present_as_present in Hp as [y Hy]. apply (ri_present _ _ _ I) in Hy as (j & Hj & Ej).
    by apply (Free j y). }
  intros [= <- _].
  constructor; cbn [rl_acceptor rl_session rl_closed rl_by_id rl_broker rl_dealer rl_log rl_bh rl_bouts rl_dh rl_douts
    attach]; unfold btr, dtr; cbn [rl_bh rl_bouts rl_dh rl_douts attach]; try apply I; try done.
  - rewrite app_length. cbn. lia.
  - rewrite app_length. cbn. lia.
  - intros y. cbn [on]. destruct (Nat.eqb_spec i y) as [<-|n]; [by rewrite put_eq|].
    rewrite put_ne by done. apply (ri_on _ _ _ I).
  - intros y dy. destruct (decide (y = i)) as [->|n]; [rewrite put_eq; by intros [= <-]|].
    rewrite put_ne by done. apply (ri_auth _ _ _ I).
  - intros id y. rewrite lookup_insert_Some, (ri_ids _ _ _ I). split.
    + intros [[<- <-]|[n (dy & Hy & Ey)]].
      * exists d. by rewrite put_eq.
      * exists dy. rewrite put_ne by congruence. done.
    + intros (dy & Hy & Ey). destruct (decide (y = i)) as [->|n].
      * rewrite put_eq in Hy. injection Hy as <-. by left.
      * rewrite put_ne in Hy by done. right. split; [|eauto]. intros <-. by eapply Free.
  - intros sid y. rewrite Htd. cbn [present_as]. rewrite (ri_present _ _ _ I). split.
    + intros [[<- <-]|[n (j & Hj & Ej)]].
      * exists i. by rewrite put_eq.
      * exists j. rewrite put_ne by congruence. done.
    + intros (j & Hj & Ej). destruct (decide (j = i)) as [->|n].
      * rewrite put_eq in Hj. injection Hj as <-. by left.
      * rewrite put_ne in Hj by done. right. split; [|eauto]. intros <-. by eapply Free.
  - intros sid y. rewrite Htb. cbn [added]. rewrite (ri_added _ _ _ I). split.
    + intros [[<- <-]|[n (j & Hj & Ej)]].
      * exists i. by rewrite put_eq.
      * exists j. rewrite put_ne by congruence. done.
    + intros (j & Hj & Ej). destruct (decide (j = i)) as [->|n].
      * rewrite put_eq in Hj. injection Hj as <-. by left.
      * rewrite put_ne in Hj by done. right. split; [|eauto]. intros <-. by eapply Free.
  - rewrite Htd. cbn. apply (ri_disc _ _ _ I).
  - rewrite Htb. cbn. apply (ri_bdisc _ _ _ I).
  - intros sid m out. rewrite Htd. intros [[= ]|Hin]%elem_of_cons.
    destruct (ri_took _ _ _ I _ _ _ Hin) as (y & dy & new & past & El & H1 & H2).
    exists y, dy, (RAttached i d :: new), past. by rewrite El.
  - change (RAttached i d :: rl_log r) with ([RAttached i d] ++ rl_log r).
    apply gave_ext; [apply (ri_gave _ _ _ I)|]. intros [|? l1] j y l2 El; [done|]. injection El as _ El. by destruct l1.
Qed.

Lemma close_inv statics k r i : rinv statics k r -> rinv statics (S k) (close i r).
Proof. intros I. constructor; try apply I; [pose proof (ri_lb _ _ _ I)|pose proof (ri_ld _ _ _ I)]; cbn; lia. Qed.

Lemma detach_inv statics k r i d o r' x : rinv statics k r -> N.of_nat k < two53 -> rl_session r i = Some d ->
  rstep (RClose i o) r = Ret r' x -> rinv statics (S k) r'.
Proof.
  intros I Hk Hi. cbn [rstep]. rewrite Hi. unfold on_broker.
  destruct (bstep o (rl_broker r) (BRemove (se_id d))) as [b out|w] eqn:E; [|done].
  pose proof (ri_b _ _ _ I) as HRb. pose proof (ri_lb _ _ _ I) as HLb.
  pose proof (ri_d _ _ _ I) as HRd. pose proof (ri_ld _ _ _ I) as HLd.
  pose proof (brun_snoc _ _ _ _ _ _ _ _ HRb E) as HSb.
  assert (L1 : N.of_nat (length (rl_bh r)) < two53) by lia.
  pose proof (btr_snoc _ _ _ o (BRemove (se_id d)) out I) as Htb.
  destruct (next_step _ _ _ _ _ _ L1 HSb) as (b0 & s & s' & _ & _ & _ & T & Ts & _). fold (btr r) in T.
  assert (Ha : added (btr r) (se_id d) d) by (apply (ri_added _ _ _ I); eauto).
  apply (ti_added _ _ T) in Ha.
  inversion Ts as [| |sid Hs|sid e0 Hn| | | | | | | | |]; subst; [|congruence].
  unfold on_dealer. cbn [rl_dealer].
  destruct (dstep o (rl_dealer r) (DRemove (se_id d))) as [dl out|w] eqn:Ed; [|done].
  pose proof (drun_snoc _ _ _ _ _ _ _ _ HRd Ed) as HSd.
  pose proof (dtr_snoc _ _ _ o (DRemove (se_id d)) out I) as Htd.
  destruct (remove_answer _ _ _ _ _ _ _ HRd Ed) as [(Hp & _ & _)|(_ & ->)].
  { exfalso. apply Hp, present_as_present. exists d. fold (dtr r). apply (ri_present _ _ _ I). eauto. }
  intros [= <- _].
  assert (Only : forall j dj, j <> i -> rl_session r j = Some dj -> se_id dj <> se_id d).
  { intros j dj n Hj Ej. apply n. by eapply ids_distinct. }
  constructor; cbn [rl_acceptor rl_session rl_closed rl_by_id rl_broker rl_dealer rl_log rl_bh rl_bouts rl_dh rl_douts
    close detach]; unfold btr, dtr; cbn [rl_bh rl_bouts rl_dh rl_douts close detach]; try apply I; try done.
  - rewrite app_length. cbn. lia.
  - rewrite app_length. cbn. lia.
  - intros y. cbn [on]. destruct (Nat.eqb_spec i y) as [<-|n]; [by rewrite put_eq|].
    rewrite put_ne by done. apply (ri_on _ _ _ I).
  - intros y dy. destruct (decide (y = i)) as [->|n]; [by rewrite put_eq|].
    rewrite put_ne by done. apply (ri_auth _ _ _ I).
  - intros id y. rewrite lookup_delete_Some, (ri_ids _ _ _ I). split.
    + intros [n (dy & Hy & Ey)]. exists dy. rewrite put_ne by congruence. done.
    + intros (dy & Hy & Ey). destruct (decide (y = i)) as [->|n]; [by rewrite put_eq in Hy|].
      rewrite put_ne in Hy by done. split; [|eauto]. intros <-. by eapply Only.
  - intros sid y. rewrite Htd. cbn [present_as]. rewrite (ri_present _ _ _ I). split.
    + intros [n (j & Hj & Ej)]. exists j. rewrite put_ne by congruence. done.
    + intros (j & Hj & Ej). destruct (decide (j = i)) as [->|n]; [by rewrite put_eq in Hj|].
      rewrite put_ne in Hj by done. split; [|eauto]. intros <-. by eapply Only.
  - intros sid' y. rewrite Htb. cbn [added]. rewrite (ri_added _ _ _ I). split.
    + intros [n (j & Hj & Ej)]. exists j. rewrite put_ne by congruence. done.
    + intros (j & Hj & Ej). destruct (decide (j = i)) as [->|n]; [by rewrite put_eq in Hj|].
      rewrite put_ne in Hj by done. split; [|eauto]. intros <-. by eapply Only.
  - rewrite Htd. cbn. apply (ri_disc _ _ _ I).
  - rewrite Htb. cbn. apply (ri_bdisc _ _ _ I).
  - intros sid' m out. rewrite Htd. intros [[= ]|Hin]%elem_of_cons.
    destruct (ri_took _ _ _ I _ _ _ Hin) as (y & dy & new & past & El & H1 & H2).
    exists y, dy, (RDetached i :: new), past. by rewrite El.
  - change (RDetached i :: rl_log r) with ([RDetached i] ++ rl_log r).
    apply gave_ext; [apply (ri_gave _ _ _ I)|]. intros [|? l1] j y l2 El; [done|]. injection El as _ El. by destruct l1.
Qed.

Lemma disclose_inv statics k r p c r' x : rinv statics k r -> rstep (RDisclose p c) r = Ret r' x ->
  rinv statics (S k) r'.
Proof.
  intros I. cbn [rstep]. unfold on_broker, on_dealer.
  destruct (bstep _ _ (BDisclose p)) as [b out|w] eqn:E; [|done]. cbn [rl_dealer].
  destruct (dstep _ _ (DDisclose c)) as [dl out'|w] eqn:Ed; [|done]. intros [= <- _].
  pose proof (ri_b _ _ _ I) as HRb. pose proof (ri_lb _ _ _ I) as HLb.
  pose proof (ri_d _ _ _ I) as HRd. pose proof (ri_ld _ _ _ I) as HLd.
  pose proof (brun_snoc _ _ _ _ _ _ _ _ HRb E) as HSb. pose proof (drun_snoc _ _ _ _ _ _ _ _ HRd Ed) as HSd.
  pose proof (btr_snoc _ _ _ (Oracle sh_id sh_id 0) (BDisclose p) out I) as Htb.
  pose proof (dtr_snoc _ _ _ (Oracle sh_id sh_id 0) (DDisclose c) out' I) as Htd.
  constructor; cbn [rl_acceptor rl_session rl_closed rl_by_id rl_broker rl_dealer rl_log rl_bh rl_bouts rl_dh rl_douts
    rset_log]; unfold btr, dtr; cbn [rl_bh rl_bouts rl_dh rl_douts rset_log]; try apply I; try done.
  - rewrite app_length. cbn. lia.
  - rewrite app_length. cbn. lia.
  - intros sid y. rewrite Htd. cbn [present_as]. apply (ri_present _ _ _ I).
  - intros sid y. rewrite Htb. cbn [added]. apply (ri_added _ _ _ I).
  - by rewrite Htd.
  - by rewrite Htb.
  - intros sid' m out0. rewrite Htd. intros [[= ]|Hin]%elem_of_cons.
    destruct (ri_took _ _ _ I _ _ _ Hin) as (y & dy & new & past & El & H1 & H2).
    exists y, dy, (RSet p c :: new), past. by rewrite El.
  - change (RSet p c :: rl_log r) with ([RSet p c] ++ rl_log r).
    apply gave_ext; [apply (ri_gave _ _ _ I)|]. intros [|? l1] j y l2 El; [done|]. injection El as _ El. by destruct l1.
Qed.

Lemma rinv_more statics k r : rinv statics k r -> rinv statics (S k) r.
Proof. intros I. constructor; try apply I; [pose proof (ri_lb _ _ _ I)|pose proof (ri_ld _ _ _ I)]; lia. Qed.

Lemma rstep_inv statics k r op r' x : rinv statics k r -> N.of_nat k < two53 -> rstep op r = Ret r' x ->
  rinv statics (S k) r'.
Proof.
  intros I Hk. destruct op as [i e o m|i o|p c].
  - cbn [rstep]. destruct (rl_closed r i); [intros [= <- _]; by apply rinv_more|].
    destruct (rl_session r i) as [d|] eqn:Hi; [by eapply serve_inv|].
    destruct (acceptor_receive e (rl_acceptor r i) m) as [a [calls reply]|w] eqn:E; [|done].
    pose proof (shake_inv _ _ _ _ _ _ _ _ _ I Hi E) as I1. cbn zeta in I1.
    match type of I1 with rinv _ _ ?rr => set (r1 := rr) in * end.
    assert (Done : Ret r1 tt = Ret r' x -> rinv statics (S k) r') by (intros [= <- _]; by apply rinv_more).
    destruct reply as [[ |w| | | | | | | | | | | | | | | | | | | | | | ]|e'|w]; try exact Done.
    replace a with (rl_acceptor r1 i) at 1 by (unfold r1; cbn; by rewrite put_eq).
    assert (S1 : rl_session r1 i = None) by exact Hi.
    destruct (acceptor_details (rl_acceptor r1 i)) as [d|e'|w'] eqn:Ed.
    + by apply (join_inv statics k r1 i d).
    + unfold join. rewrite Ed. intros [= <- _]. by apply close_inv.
    + unfold join. rewrite Ed. intros [= <- _]. by apply close_inv.
  - destruct (rl_session r i) as [d|] eqn:Hi; [by eapply detach_inv|].
    cbn [rstep]. rewrite Hi. intros [= <- _]. by apply close_inv.
  - by eapply disclose_inv.
Qed.
Lemma rrun_inv statics ops : forall k r r' x, rinv statics k r -> N.of_nat (k + length ops) <= two53 ->
  rrun ops r = Ret r' x -> exists k', rinv statics k' r'.
Proof.
  induction ops as [|op ops IH]; intros k r r' x I Hk; cbn [rrun].
  - intros [= <- _]. by exists k.
  - cbn [length] in Hk. destruct (rstep op r) as [r1 u|w] eqn:E; [|done]. apply (IH (S k)); [|lia].
    eapply rstep_inv; [done| |done]. lia.
Qed.
Lemma run_inv statics ops r x : N.of_nat (length ops) <= two53 -> rrun ops (new_realm statics) = Ret r x ->
  exists k, rinv statics k r.
Proof. intros Hl. apply rrun_inv with (k := 0%nat); [apply rinv_new|lia]. Qed.

(** ** What follows *)
Lemma gives_to_welcomed statics ops r x new j m past : N.of_nat (length ops) <= two53 ->
  rrun ops (new_realm statics) = Ret r x -> rl_log r = new ++ RGave j m :: past ->
  exists d, on past j = Some d /\ authenticated past j d.
Proof. intros Hl H E. destruct (run_inv _ _ _ _ Hl H) as [k I]. by destruct (ri_gave _ _ _ I _ _ _ _ E). Qed.
Lemma caller_shown statics ops r x new j v past : N.of_nat (length ops) <= two53 ->
  rrun ops (new_realm statics) = Ret r x -> rl_log r = new ++ RGave j (MInvocation v) :: past ->
  exists i d c past', past = RTook i (MCall c) :: past' /\ on past' i = Some d /\ authenticated past' i d
    /\ shows (in_details v) "caller" (if snd (disclosure past') then Some d else None).
Proof. intros Hl H E. destruct (run_inv _ _ _ _ Hl H) as [k I]. by destruct (ri_gave _ _ _ I _ _ _ _ E). Qed.
Lemma publisher_shown statics ops r x new j e past : N.of_nat (length ops) <= two53 ->
  rrun ops (new_realm statics) = Ret r x -> rl_log r = new ++ RGave j (MEvent e) :: past ->
  exists i d p gs past', past = gs ++ RTook i (MPublish p) :: past'
    /\ Forall (fun g => exists k, g = RGave k (MEvent e)) gs /\ on past' i = Some d /\ authenticated past' i d
    /\ shows (ev_details e) "publisher" (if fst (disclosure past') then Some d else None).
Proof. intros Hl H E. destruct (run_inv _ _ _ _ Hl H) as [k I]. by destruct (ri_gave _ _ _ I _ _ _ _ E). Qed.
Lemma one_connection statics ops r x i j d d' : N.of_nat (length ops) <= two53 ->
  rrun ops (new_realm statics) = Ret r x -> on (rl_log r) i = Some d -> on (rl_log r) j = Some d' ->
  se_id d = se_id d' -> i = j.
Proof.
  intros Hl H. destruct (run_inv _ _ _ _ Hl H) as [k I]. rewrite !(ri_on _ _ _ I). by apply (ids_distinct _ _ _ _ _ _ _ I).
Qed.

Lemma on_attached log i d : on log i = Some d -> RAttached i d ∈ log.
Proof.
  induction log as [|e log IH]; [done|]. destruct e as [k a|k d'|k|k m|k m|p c]; cbn [on]; intros H;
    try (apply elem_of_cons; right; by apply IH).
  - destruct (Nat.eqb_spec k i) as [->|_]; [injection H as ->; by left|]. right. by apply IH.
  - destruct (Nat.eqb_spec k i) as [->|_]; [done|]. right. by apply IH.
Qed.
Lemma unique_ids log i j d d' : NoDup (session_ids log) -> RAttached i d ∈ log -> RAttached j d' ∈ log ->
  se_id d = se_id d' -> i = j.
Proof.
  intros Hn. induction log as [|e log IH]; [by intros H%elem_of_nil|].
  assert (Hin : forall y dy, RAttached y dy ∈ log -> se_id dy ∈ session_ids log).
  { intros y dy Hy. apply elem_of_list_omap. by exists (RAttached y dy). }
  intros [He|Hi]%elem_of_cons [He'|Hj]%elem_of_cons E.
  - congruence.
  - subst e. cbn in Hn. apply NoDup_cons in Hn as [Hn _]. exfalso. apply Hn. rewrite E. by eapply Hin.
  - subst e. cbn in Hn. apply NoDup_cons in Hn as [Hn _]. exfalso. apply Hn. rewrite <- E. by eapply Hin.
  - apply IH; try done. by destruct e; try exact Hn; cbn in Hn; apply NoDup_cons in Hn as [_ Hn].
Qed.
Lemma answers_own log past j q : (exists new, log = new ++ past) -> NoDup (session_ids log) -> answers past j q ->
  exists c, RTook j (MCall c) ∈ past /\ ca_request c = q.
Proof.
  intros [new ->] Hn (i & c & mid & old & d & d' & E & Hq & H1 & H2 & He). exists c. split; [|done].
  assert (i = j) as <-.
  { apply (unique_ids (new ++ past) i j d d'); try done.
    - apply elem_of_app. right. rewrite E. apply elem_of_app. right. apply elem_of_cons. right. by apply on_attached.
    - apply elem_of_app. right. by apply on_attached. }
  rewrite E. apply elem_of_app. right. by left.
Qed.
Lemma result_own statics ops r u new j x past : N.of_nat (length ops) <= two53 ->
  rrun ops (new_realm statics) = Ret r u -> NoDup (session_ids (rl_log r)) ->
  rl_log r = new ++ RGave j (MResult x) :: past -> exists c, RTook j (MCall c) ∈ past /\ ca_request c = re_request x.
Proof.
  intros Hl H Hn E. destruct (run_inv _ _ _ _ Hl H) as [k I]. destruct (ri_gave _ _ _ I _ _ _ _ E) as [_ Ha].
  apply (answers_own (rl_log r)); [|done..]. exists (new ++ [RGave j (MResult x)]). by rewrite <- app_assoc.
Qed.
Lemma error_own statics ops r u new j x past : N.of_nat (length ops) <= two53 ->
  rrun ops (new_realm statics) = Ret r u -> NoDup (session_ids (rl_log r)) ->
  rl_log r = new ++ RGave j (MError x) :: past -> er_type x = 48 ->
  exists c, RTook j (MCall c) ∈ past /\ ca_request c = er_request x.
Proof.
  intros Hl H Hn E He. destruct (run_inv _ _ _ _ Hl H) as [k I]. destruct (ri_gave _ _ _ I _ _ _ _ E) as [_ Ha].
  apply (answers_own (rl_log r)); [|done|by apply Ha]. exists (new ++ [RGave j (MError x)]). by rewrite <- app_assoc.
Qed.
End realm.
