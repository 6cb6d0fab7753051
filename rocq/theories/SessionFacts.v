From Verif Require Import Prelude Value Msg Mutex Session SessionSpec.

Lemma flag_yes m k : flag m k = true <-> yes m k.
Proof.
  unfold flag, yes, to_bool, as_bool.
  destruct (mget m k) as [|[]| | | | | | | | |]; cbn; split; congruence.
Qed.
Lemma flag_no m k : flag m k = false <-> ~ yes m k.
Proof. rewrite <- flag_yes. by destruct (flag m k). Qed.

Record stracks (s : session) (tr : list sevent) : Prop := STracks {
  k_calls : forall r, r ∈ cs_calls s <-> call_open tr r;
  k_registers : forall r, r ∈ cs_registers s <-> register_open tr r;
  k_publishes : forall r, r ∈ cs_publishes s <-> publish_open tr r;
  k_subscribes : forall r, r ∈ cs_subscribes s <-> subscribe_asked tr r;
  k_unregisters : forall r g, cs_unregisters s !! r = Some g <-> unregister_asked tr r g;
  k_unsubscribes : forall r g, cs_unsubscribes s !! r = Some g <-> unsubscribe_asked tr r g;
  k_registrations : forall g, g ∈ cs_registrations s <-> registered_at tr g;
  k_subscriptions : forall g, g ∈ cs_subscriptions s <-> subscribed_at tr g }.

Lemma tracks_new : stracks new_session [].
Proof.
  split; intros; (split; [|intros []]); cbn; try set_solver.
  all: intros H; by rewrite lookup_empty in H.
Qed.

(** An event that neither starts nor ends anything. *)
Definition inert (e : sevent) : Prop :=
  match e with
  | Sent (MCall _) | Sent (MRegister _) | Sent (MSubscribe _) | Sent (MUnregister _)
  | Sent (MUnsubscribe _) | Got (MRegistered _) | Got (MPublished _) | Got (MSubscribed _)
  | Got (MUnregistered _) | Got (MUnsubscribed _) | Got (MError _) => False
  | Sent (MPublish p) => ~ yes (pu_options p) "acknowledge"
  | Got (MResult m) => yes (re_details m) "progress"
  | _ => True
  end.

Ltac ev := unfold call_open, register_open, publish_open, subscribe_asked, unregister_asked,
  unsubscribe_asked, registered_at, subscribed_at, got_error; cbn [since].
Ltac noev := repeat match goal with
  | H : exists _, _ |- _ => destruct H
  | H : _ /\ _ |- _ => destruct H
  | H : _ \/ _ |- _ => destruct H
  | H : Sent _ = Sent _ |- _ => injection H as ?; subst
  | H : Got _ = Got _ |- _ => injection H as ?; subst
  | H : ?e = Sent _ |- _ => is_var e; subst e
  | H : ?e = Got _ |- _ => is_var e; subst e
  | H : Sent _ = Got _ |- _ => discriminate H
  | H : Got _ = Sent _ |- _ => discriminate H
  | H : ?f _ = ?f _ :> message |- _ => injection H as ?; subst
  | H : @eq message _ _ |- _ => discriminate H
  end.

Lemma since_skip st en e tr : ~ st e -> ~ en tr e -> since st en (e :: tr) <-> since st en tr.
Proof. cbn [since]. tauto. Qed.

Lemma tracks_inert s tr e : inert e -> stracks s tr -> stracks s (e :: tr).
Proof.
  intros He [K1 K2 K3 K4 K5 K6 K7 K8].
  split; intros; [rewrite K1|rewrite K2|rewrite K3|rewrite K4|rewrite K5|rewrite K6|rewrite K7|rewrite K8];
    symmetry; apply since_skip; unfold got_error; intros X; noev; cbn in He; try contradiction; auto.
Qed.

Ltac skip K := solve [rewrite K; symmetry; apply since_skip; unfold got_error; intros X; noev;
  try contradiction; try congruence; auto].

(** [x] joins a set, [x] leaves it. *)
Lemma since_join (X X' : gset N) x tr e (st : N -> sevent -> Prop) en :
  (forall y, y ∈ X <-> since (st y) (en y) tr) ->
  (forall y, st y e <-> y = x) -> (forall y, y <> x -> ~ en y tr e) ->
  X' = {[x]} ∪ X -> forall y, y ∈ X' <-> since (st y) (en y) (e :: tr).
Proof.
  intros K H1 H2 -> y. cbn [since]. rewrite <- K, H1, elem_of_union, elem_of_singleton.
  destruct (decide (y = x)); naive_solver.
Qed.
Lemma since_leave (X X' : gset N) x tr e (st : N -> sevent -> Prop) en :
  (forall y, y ∈ X <-> since (st y) (en y) tr) ->
  (forall y, ~ st y e) -> (forall y, en y tr e <-> y = x) ->
  X' = X ∖ {[x]} -> forall y, y ∈ X' <-> since (st y) (en y) (e :: tr).
Proof.
  intros K H1 H2 -> y. cbn [since]. rewrite <- K, H2, elem_of_difference, elem_of_singleton.
  naive_solver.
Qed.
Lemma since_put (X X' : gmap N N) x v tr e (st : N -> N -> sevent -> Prop) en :
  (forall y g, X !! y = Some g <-> since (st y g) (en y g) tr) ->
  (forall y g, st y g e <-> y = x /\ g = v) -> (forall y g, en y g tr e <-> y = x /\ g <> v) ->
  X' = <[x := v]> X -> forall y g, X' !! y = Some g <-> since (st y g) (en y g) (e :: tr).
Proof.
  intros K H1 H2 -> y g. cbn [since]. rewrite <- K, H1, H2, lookup_insert_Some.
  destruct (decide (y = x)), (decide (g = v)); naive_solver.
Qed.
Lemma since_del (X X' : gmap N N) x tr e (st : N -> N -> sevent -> Prop) en :
  (forall y g, X !! y = Some g <-> since (st y g) (en y g) tr) ->
  (forall y g, ~ st y g e) -> (forall y g, en y g tr e <-> y = x) ->
  X' = delete x X -> forall y g, X' !! y = Some g <-> since (st y g) (en y g) (e :: tr).
Proof.
  intros K H1 H2 -> y g. cbn [since]. rewrite <- K, H2, lookup_delete_Some. naive_solver.
Qed.
Lemma unregister_fun s tr : stracks s tr -> forall r g g',
  unregister_asked tr r g -> unregister_asked tr r g' -> g = g'.
Proof. intros K r g g' A B. apply (k_unregisters _ _ K) in A. apply (k_unregisters _ _ K) in B. congruence. Qed.
Lemma unsubscribe_fun s tr : stracks s tr -> forall r g g',
  unsubscribe_asked tr r g -> unsubscribe_asked tr r g' -> g = g'.
Proof. intros K r g g' A B. apply (k_unsubscribes _ _ K) in A. apply (k_unsubscribes _ _ K) in B. congruence. Qed.

Ltac field := intros; unfold got_error;
  match goal with |- _ <-> _ => split; intros ? | |- ~ _ => intros ? end;
  noev; subst; try contradiction; eauto 8; try congruence.
Ltac tr1 K := destruct K as [K1 K2 K3 K4 K5 K6 K7 K8]; split;
  cbn [cs_calls cs_registers cs_registrations cs_invocations cs_unregisters cs_publishes cs_subscribes cs_subscriptions cs_unsubscribes
       cset_calls cset_registers cset_registrations cset_invocations cset_unregisters cset_publishes cset_subscribes cset_subscriptions cset_unsubscribes];
  [try (intros ?; skip K1)|try (intros ?; skip K2)|try (intros ?; skip K3)|try (intros ?; skip K4)
  |try (intros ? ?; skip K5)|try (intros ? ?; skip K6)|try (intros ?; skip K7)|try (intros ?; skip K8)].

Ltac upd L K := unfold call_open, register_open, publish_open, subscribe_asked, registered_at, subscribed_at in *;
  eapply L; [exact K|..|reflexivity]; field;
  try (intros X; unfold got_error in X; noev; congruence).

Ltac upd2 L K := unfold unregister_asked, unsubscribe_asked in *; upd L K.

Lemma tracks_call s tr c : stracks s tr ->
  stracks (cset_calls ({[ca_request c]} ∪ cs_calls s) s) (Sent (MCall c) :: tr).
Proof. intros K. tr1 K. upd since_join K1. Qed.
Lemma tracks_register s tr c : stracks s tr ->
  stracks (cset_registers ({[rg_request c]} ∪ cs_registers s) s) (Sent (MRegister c) :: tr).
Proof. intros K. tr1 K. upd since_join K2. Qed.
Lemma tracks_publish s tr c : yes (pu_options c) "acknowledge" -> stracks s tr ->
  stracks (cset_publishes ({[pu_request c]} ∪ cs_publishes s) s) (Sent (MPublish c) :: tr).
Proof. intros Hy K. tr1 K. upd since_join K3. Qed.
Lemma tracks_subscribe s tr c : stracks s tr ->
  stracks (cset_subscribes ({[su_request c]} ∪ cs_subscribes s) s) (Sent (MSubscribe c) :: tr).
Proof. intros K. tr1 K. upd since_join K4. Qed.
Lemma tracks_unregister s tr u : stracks s tr ->
  stracks (cset_unregisters (<[ur_request u := ur_registration u]> (cs_unregisters s)) s) (Sent (MUnregister u) :: tr).
Proof. intros K. tr1 K. upd2 since_put K5. Qed.
Lemma tracks_unsubscribe s tr u : stracks s tr ->
  stracks (cset_unsubscribes (<[us_request u := us_subscription u]> (cs_unsubscribes s)) s) (Sent (MUnsubscribe u) :: tr).
Proof. intros K. tr1 K. upd2 since_put K6. Qed.
Lemma tracks_result s tr m : ~ yes (re_details m) "progress" -> stracks s tr ->
  stracks (cset_calls (cs_calls s ∖ {[re_request m]}) s) (Got (MResult m) :: tr).
Proof. intros Hy K. tr1 K. upd since_leave K1. Qed.
Lemma tracks_registered s tr m : stracks s tr ->
  let s := cset_registers (cs_registers s ∖ {[rd_request m]}) s in
  stracks (cset_registrations ({[rd_registration m]} ∪ cs_registrations s) s) (Got (MRegistered m) :: tr).
Proof. intros K. tr1 K; [upd since_leave K2|upd since_join K7]. Qed.
Lemma tracks_published s tr m : stracks s tr ->
  stracks (cset_publishes (cs_publishes s ∖ {[pd_request m]}) s) (Got (MPublished m) :: tr).
Proof. intros K. tr1 K. upd since_leave K3. Qed.
Lemma tracks_subscribed s tr m : stracks s tr ->
  stracks (cset_subscriptions ({[sd_subscription m]} ∪ cs_subscriptions s) s) (Got (MSubscribed m) :: tr).
Proof. intros K. tr1 K. upd since_join K8. Qed.
Lemma tracks_unregistered s tr m g : unregister_asked tr (un_request m) g -> stracks s tr ->
  stracks (cset_registrations (cs_registrations s ∖ {[g]}) s) (Got (MUnregistered m) :: tr).
Proof.
  intros Hg K. pose proof (unregister_fun _ _ K) as F. tr1 K. upd since_leave K7.
Qed.
Lemma tracks_unsubscribed s tr m g : unsubscribe_asked tr (ud_request m) g -> stracks s tr ->
  stracks (cset_subscriptions (cs_subscriptions s ∖ {[g]}) s) (Got (MUnsubscribed m) :: tr).
Proof.
  intros Hg K. pose proof (unsubscribe_fun _ _ K) as F. tr1 K. upd since_leave K8.
Qed.
Lemma tracks_error s tr m : stracks s tr ->
  stracks (if er_type m =? tCall then cset_calls (cs_calls s ∖ {[er_request m]}) s
           else if er_type m =? tRegister then cset_registers (cs_registers s ∖ {[er_request m]}) s
           else if er_type m =? tUnregister then cset_unregisters (delete (er_request m) (cs_unregisters s)) s
           else if er_type m =? tSubscribe then cset_subscribes (cs_subscribes s ∖ {[er_request m]}) s
           else if er_type m =? tUnsubscribe then cset_unsubscribes (delete (er_request m) (cs_unsubscribes s)) s
           else if er_type m =? tPublish then cset_publishes (cs_publishes s ∖ {[er_request m]}) s
           else s) (Got (MError m) :: tr).
Proof.
  intros K. unfold tCall, tRegister, tUnregister, tSubscribe, tUnsubscribe, tPublish.
  repeat match goal with |- context [er_type m =? ?x] => destruct (N.eqb_spec (er_type m) x) end; tr1 K.
  - upd since_leave K1.
  - upd since_leave K2.
  - upd2 since_del K5.
  - upd since_leave K4.
  - upd2 since_del K6.
  - upd since_leave K3.
Qed.
