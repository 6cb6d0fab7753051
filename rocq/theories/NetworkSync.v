(** A client in step with the router, and what keeps it there. *)
From Verif Require Import Prelude Value Msg IdGen Types PathMatch Mutex Broker Dealer Session Network.
From Verif Require Import BrokerSpec DealerSpec NetworkSpec NetworkClient.

Definition reg_ids (q : list message) : list N :=
  omap (fun m => match m with MRegister x => Some (rg_request x) | _ => None end) q.
Definition ack_ids (q : list message) : list N :=
  omap (fun m => match m with
                 | MPublish x => if flag (pu_options x) "acknowledge" then Some (pu_request x) else None
                 | _ => None end) q.

(** [S], [R]: the subscriptions, registrations the router has the client down
    for; [O i r rp]: the dealer waits for the answer to invocation [i], made for
    the client's call [r]. *)
Record in_step (S R : N -> Prop) (O : N -> N -> bool -> Prop) (cl : client) (s : session) : Prop := InStep {
  is_replay : replay (cl_session cl) (cl_down cl) = Some s;
  is_subs : forall g, g ∈ cs_subscriptions s <-> S g;
  is_regs : forall g, g ∈ cs_registrations s <-> R g;
  is_calls : forall r, r ∈ cs_calls s <-> r ∈ call_ids (cl_up cl) \/ exists i rp, O i r rp;
  is_new : forall r i rp, r ∈ call_ids (cl_up cl) -> ~ O i r rp;
  is_one : forall i i' r rp rp', O i r rp -> O i' r rp' -> i = i';
  is_registers : forall r, r ∈ cs_registers s <-> r ∈ reg_ids (cl_up cl);
  is_publishes : forall r, r ∈ cs_publishes s <-> r ∈ ack_ids (cl_up cl);
  is_subscribes : forall m, MSubscribe m ∈ cl_up cl -> su_request m ∈ cs_subscribes s;
  is_unsubs : forall m, MUnsubscribe m ∈ cl_up cl -> cs_unsubscribes s !! us_request m = Some (us_subscription m);
  is_unregs : forall m, MUnregister m ∈ cl_up cl -> cs_unregisters s !! ur_request m = Some (ur_registration m);
  is_nodup : NoDup (omap request_of (cl_up cl));
  is_used_up : forall r, r ∈ omap request_of (cl_up cl) -> r ∈ cl_used cl;
  is_used_down : forall m r, m ∈ cl_down cl -> ans m = Some r -> r ∈ cl_used cl;
  is_used_open : forall i r rp, O i r rp -> r ∈ cl_used cl }.
Definition synced S R O cl := exists s, in_step S R O cl s.

Lemma synced_iff S R O S' R' O' cl : synced S R O cl ->
  (forall g, S' g <-> S g) -> (forall g, R' g <-> R g) -> (forall i r rp, O' i r rp <-> O i r rp) ->
  synced S' R' O' cl.
Proof.
  intros [s I] HS HR HO. exists s. destruct I. constructor; try done.
  - intros g. by rewrite HS.
  - intros g. by rewrite HR.
  - intros r. setoid_rewrite HO. done.
  - intros r i rp. rewrite HO. apply is_new0.
  - intros i i' r rp rp'. rewrite !HO. apply is_one0.
  - intros i r rp. rewrite HO. apply is_used_open0.
Qed.

Lemma synced_join : synced (fun _ => False) (fun _ => False) (fun _ _ _ => False) (Client new_session [] [] []).
Proof.
  exists new_session. constructor; cbn; try done; try set_solver.
  constructor.
Qed.

(** Reading the next message. *)
Lemma synced_deliver S R O s m up down used : synced S R O (Client s up (m :: down) used) ->
  exists s' x, sstep s (SReceiveMessage m) = (s', Ok x) /\ synced S R O (Client s' up down used).
Proof.
  intros [s1 I]. destruct I. cbn in *.
  destruct (replay_cons _ _ _ _ is_replay0) as (s2 & E & E').
  destruct (acc_ok _ _ _ E) as [x Ex]. exists s2, x. split; [done|].
  exists s1. constructor; cbn; try done. intros m' r Hm. apply is_used_down0. by right.
Qed.

(** Ids of a queue. *)
Lemma omap_snoc {A B} (f : A -> option B) l x :
  omap f (l ++ [x]) = omap f l ++ match f x with Some y => [y] | None => [] end.
Proof. rewrite omap_app. cbn. by destruct (f x). Qed.
Lemma call_req r q : r ∈ call_ids q -> r ∈ omap request_of q.
Proof.
  unfold call_ids. rewrite !elem_of_list_omap. intros (m & Hm & E). exists m. split; [done|].
  destruct m; try discriminate. done.
Qed.
Lemma reg_req r q : r ∈ reg_ids q -> r ∈ omap request_of q.
Proof.
  unfold reg_ids. rewrite !elem_of_list_omap. intros (m & Hm & E). exists m. split; [done|].
  destruct m; try discriminate. done.
Qed.
Lemma ack_req r q : r ∈ ack_ids q -> r ∈ omap request_of q.
Proof.
  unfold ack_ids. rewrite !elem_of_list_omap. intros (m & Hm & E). exists m. split; [done|].
  destruct m; try discriminate. cbn in *. destruct (flag _ _); [done|discriminate].
Qed.
Lemma msg_req m (q : list message) r : m ∈ q -> request_of m = Some r -> r ∈ omap request_of q.
Proof. rewrite elem_of_list_omap. eauto. Qed.

(** Sending. *)
Lemma synced_send S R O cl d m s' x : synced S R O cl ->
  sstep (cl_session cl) (SSend (Ok d) m) = (s', Ok x) ->
  (forall r, request_of m = Some r -> r ∉ cl_used cl) ->
  synced S R O (Client s' (cl_up cl ++ [m]) (cl_down cl)
                  (match request_of m with Some r => r :: cl_used cl | None => cl_used cl end)).
Proof.
  intros [s I] Hs Hf. destruct (send_noted _ _ _ _ _ Hs) as [(x' & _ & X & ->)|[_ [e E]]]; [|discriminate].
  destruct I.
  pose proof (replay_noted m _ _ _ is_replay0) as Hn.
  assert (Hn' : forall m' r, m' ∈ cl_down cl -> request_of m = Some r -> ans m' <> Some r).
  { intros m' r Hm Hr E. apply (Hf r Hr). by eapply is_used_down0. }
  specialize (Hn Hn'). destruct (replay_invocations X _ _ _ Hn) as [X' Hx].
  exists (cset_invocations X' (noted s m)).
  assert (Hu : forall r, r ∈ cl_used cl -> r ∈ match request_of m with Some r => r :: cl_used cl | None => cl_used cl end).
  { intros r Hr. destruct (request_of m); [by right|done]. }
  assert (Hfr : forall r, request_of m = Some r -> r ∉ omap request_of (cl_up cl)).
  { intros r Hr Hin. by apply (Hf r Hr), is_used_up0. }
  constructor; cbn [cl_session cl_up cl_down cl_used]; try done.
  - intros g. rewrite <- is_subs0. destruct m; try done. cbn. by destruct (flag _ _).
  - intros g. rewrite <- is_regs0. destruct m; try done. cbn. by destruct (flag _ _).
  - intros r. unfold call_ids. rewrite omap_snoc, elem_of_app. fold (call_ids (cl_up cl)).
    destruct m as [m|m|m|m|m|m|m|m|m|m|m|m|m|m|m|m|m|m|m|m|m|m|m|m]; cbn [noted cs_calls cset_calls cset_invocations
      cset_registers cset_unregisters cset_publishes cset_subscribes cset_unsubscribes].
    all: try (rewrite is_calls0, elem_of_nil; tauto).
    + destruct (flag _ _); cbn [cs_calls cset_publishes]; rewrite is_calls0, elem_of_nil; tauto.
    + rewrite elem_of_union, elem_of_singleton, is_calls0, elem_of_list_singleton. tauto.
  - intros r i rp. unfold call_ids. rewrite omap_snoc, elem_of_app. fold (call_ids (cl_up cl)).
    intros [H|H]; [by apply is_new0|]. destruct m; try (by apply elem_of_nil in H).
    apply elem_of_list_singleton in H as ->. intros Ho. apply is_used_open0 in Ho. by apply (Hf _ eq_refl).
  - intros r. unfold reg_ids. rewrite omap_snoc, elem_of_app. fold (reg_ids (cl_up cl)).
    destruct m as [m|m|m|m|m|m|m|m|m|m|m|m|m|m|m|m|m|m|m|m|m|m|m|m]; cbn [noted cs_registers cset_calls cset_invocations
      cset_registers cset_unregisters cset_publishes cset_subscribes cset_unsubscribes].
    all: try (rewrite is_registers0, elem_of_nil; tauto).
    + destruct (flag _ _); cbn [cs_registers cset_publishes]; rewrite is_registers0, elem_of_nil; tauto.
    + rewrite elem_of_union, elem_of_singleton, is_registers0, elem_of_list_singleton. tauto.
  - intros r. unfold ack_ids. rewrite omap_snoc, elem_of_app. fold (ack_ids (cl_up cl)).
    destruct m as [m|m|m|m|m|m|m|m|m|m|m|m|m|m|m|m|m|m|m|m|m|m|m|m]; cbn [noted cs_publishes cset_calls cset_invocations
      cset_registers cset_unregisters cset_publishes cset_subscribes cset_unsubscribes].
    all: try (rewrite is_publishes0, elem_of_nil; tauto).
    destruct (flag _ _); cbn [cs_publishes cset_publishes]; rewrite ?elem_of_union, ?elem_of_singleton, is_publishes0,
      ?elem_of_list_singleton, ?elem_of_nil; tauto.
  - intros u. rewrite elem_of_app, elem_of_list_singleton. intros [H|<-].
    + apply is_subscribes0 in H. destruct m; try done; cbn; [by destruct (flag _ _)|set_solver].
    + cbn. set_solver.
  - intros u. rewrite elem_of_app, elem_of_list_singleton. intros [H|<-].
    + pose proof (is_unsubs0 _ H) as Hl. destruct m; try done; cbn; [by destruct (flag _ _)|].
      rewrite lookup_insert_ne; [done|]. intros E. apply (Hfr _ eq_refl). eapply msg_req; [exact H|]. cbn. by rewrite E.
    + cbn. by rewrite lookup_insert.
  - intros u. rewrite elem_of_app, elem_of_list_singleton. intros [H|<-].
    + pose proof (is_unregs0 _ H) as Hl. destruct m; try done; cbn; [by destruct (flag _ _)|].
      rewrite lookup_insert_ne; [done|]. intros E. apply (Hfr _ eq_refl). eapply msg_req; [exact H|]. cbn. by rewrite E.
    + cbn. by rewrite lookup_insert.
  - rewrite omap_snoc. destruct (request_of m) as [r|] eqn:E; [|by rewrite app_nil_r].
    apply NoDup_app. split; [done|]. split; [|apply NoDup_singleton].
    intros y Hy Hy'. apply elem_of_list_singleton in Hy' as ->. by apply (Hfr _ eq_refl).
  - intros r. rewrite omap_snoc, elem_of_app. intros [H|H]; [by apply Hu, is_used_up0|].
    destruct (request_of m); [|by apply elem_of_nil in H]. apply elem_of_list_singleton in H as ->. by left.
  - intros m' r Hm E. apply Hu. by eapply is_used_down0.
  - intros i r rp H. apply Hu. by eapply is_used_open0.
Qed.
Lemma synced_send_err S R O cl d m s' e : synced S R O cl ->
  sstep (cl_session cl) (SSend (Ok d) m) = (s', Err e) -> s' = cl_session cl.
Proof. intros _ H. by destruct (send_noted _ _ _ _ _ H) as [(x & E & _)|[-> _]]. Qed.

(** ** The router sends something that answers nothing in the queue *)

Lemma post_same S R O cl a s1 : synced S R O cl -> ans a = None ->
  (forall s, in_step S R O cl s -> exists X, acc s a = Some (cset_invocations X s)) -> s1 = cl_post a cl ->
  synced S R O s1.
Proof.
  intros [s I] Ha Hacc ->. destruct (Hacc s I) as [X E]. exists (cset_invocations X s). destruct I.
  constructor; cbn [cl_session cl_up cl_down cl_used cl_post]; try done.
  - rewrite (replay_snoc _ _ _ _ is_replay0). done.
  - intros m r. rewrite elem_of_app, elem_of_list_singleton. intros [H| ->]; [by apply is_used_down0|]. by rewrite Ha.
Qed.
Lemma post_event S R O cl e : synced S R O cl -> S (ev_subscription e) -> synced S R O (cl_post (MEvent e) cl).
Proof.
  intros H He. eapply (post_same _ _ _ cl (MEvent e)); [exact H|done| |done]. intros s I. exists (cs_invocations s).
  cbn [acc]. rewrite decide_True by (by apply (is_subs _ _ _ _ _ I)). by destruct s.
Qed.
Lemma post_invocation S R O cl v : synced S R O cl -> R (in_registration v) -> synced S R O (cl_post (MInvocation v) cl).
Proof.
  intros H He. eapply (post_same _ _ _ cl (MInvocation v)); [exact H|done| |done]. intros s I. eexists.
  cbn [acc]. rewrite decide_True by (by apply (is_regs _ _ _ _ _ I)). done.
Qed.

(** An answer to a call that is waiting for one. *)
Lemma post_progress S R O cl i r rp x : synced S R O cl -> O i r rp -> re_request x = r ->
  flag (re_details x) "progress" = true -> synced S R O (cl_post (MResult x) cl).
Proof.
  intros [s I] Ho Hr Hp. exists s. destruct I.
  constructor; cbn [cl_session cl_up cl_down cl_used cl_post]; try done.
  - rewrite (replay_snoc _ _ _ _ is_replay0). cbn [acc]. rewrite Hp, decide_True; [done|].
    apply is_calls0. rewrite Hr. right. by eexists _, _.
  - intros m q. rewrite elem_of_app, elem_of_list_singleton. intros [H| ->]; [by apply is_used_down0|].
    intros E. injection E as <-. rewrite Hr. by eapply is_used_open0.
Qed.
Definition ends_call (a : message) (r : N) : Prop :=
  (exists x, a = MResult x /\ re_request x = r /\ flag (re_details x) "progress" = false)
  \/ exists x, a = MError x /\ er_request x = r /\ er_type x = tCall.
Lemma ends_call_acc a r s : ends_call a r -> acc s a = pop_call r s /\ ans a = Some r.
Proof. intros [(x & -> & <- & H)|(x & -> & <- & H)]; cbn [acc ans]; by rewrite H. Qed.
Lemma post_last S R O O' cl i r rp a : synced S R O cl -> O i r rp -> ends_call a r ->
  (forall r' rp', O i r' rp' -> r' = r) ->
  (forall i' r' rp', O' i' r' rp' <-> O i' r' rp' /\ i' <> i) -> synced S R O' (cl_post a cl).
Proof.
  intros [s I] Ho Ha Hf HO'. destruct (ends_call_acc a r s Ha) as [E E'].
  exists (cset_calls (cs_calls s ∖ {[r]}) s). destruct I.
  constructor; cbn [cl_session cl_up cl_down cl_used cl_post]; try done.
  - rewrite (replay_snoc _ _ _ _ is_replay0), E. unfold pop_call. rewrite decide_True; [done|].
    apply is_calls0. right. by eexists _, _.
  - intros q. cbn [cs_calls cset_calls]. rewrite elem_of_difference, elem_of_singleton, is_calls0. split.
    + intros [[H|(i' & rp' & H)] Hq]; [by left|]. right. exists i', rp'. apply HO'. split; [done|].
      intros ->. by apply Hq, (Hf _ rp').
    + intros [H|(i' & rp' & H)].
      * split; [by left|]. intros ->. by apply (is_new0 _ _ _ H Ho).
      * apply HO' in H as [H Hi]. split; [right; by eexists _, _|]. intros ->. by apply Hi, (is_one0 _ _ _ _ _ H Ho).
  - intros q i' rp' H Hq. apply HO' in Hq as [Hq _]. by eapply is_new0.
  - intros i1 i2 q rp1 rp2 H1 H2. apply HO' in H1 as [H1 _]. apply HO' in H2 as [H2 _]. by eapply is_one0.
  - intros m q. rewrite elem_of_app, elem_of_list_singleton. intros [H| ->]; [by apply is_used_down0|].
    rewrite E'. intros Eq. injection Eq as <-. by eapply is_used_open0.
  - intros i' q rp' H. apply HO' in H as [H _]. by eapply is_used_open0.
Qed.

(** The router drops an open call of a client (its session is gone on both sides). *)

(** ** The router takes a message and answers it *)

Definition cl_pop (cl : client) : client :=
  Client (cl_session cl) (tail (cl_up cl)) (cl_down cl) (cl_used cl).

Lemma pop_plain S R O cl m rest : synced S R O cl -> cl_up cl = m :: rest ->
  call_ids [m] = [] -> reg_ids [m] = [] -> ack_ids [m] = [] -> synced S R O (cl_pop cl).
Proof.
  intros [s I] Hu H1 H2 H3. exists s. destruct I. destruct cl as [s0 up down used]; cbn in Hu; subst up.
  change (m :: rest) with ([m] ++ rest) in *. unfold call_ids, reg_ids, ack_ids in *.
  cbn [cl_session cl_up cl_down cl_used cl_pop] in *.
  repeat rewrite omap_app in *. rewrite H1, H2, H3 in *. cbn [app tail] in *.
  constructor; cbn [cl_session cl_up cl_down cl_used cl_pop tail]; try done.
  - intros u Hm. apply is_subscribes0. by right.
  - intros u Hm. apply is_unsubs0. by right.
  - intros u Hm. apply is_unregs0. by right.
  - by apply NoDup_app in is_nodup0 as (_ & _ & ?).
  - intros r Hr. apply is_used_up0. rewrite elem_of_app. by right.
Qed.

(** Answered with [a]: [s] becomes [s']. *)
Lemma pop_answer S R O S' R' O' cl m rest a r s s' :
  in_step S R O cl s -> cl_up cl = m :: rest -> request_of m = Some r -> ans a = Some r -> acc s a = Some s' ->
  (forall g, g ∈ cs_subscriptions s' <-> S' g) ->
  (forall g, g ∈ cs_registrations s' <-> R' g) ->
  (forall q, q ∈ cs_calls s' <-> q ∈ call_ids rest \/ exists i rp, O' i q rp) ->
  (forall q i rp, O' i q rp <-> O i q rp) ->
  (forall q, q ∈ cs_registers s' <-> q ∈ reg_ids rest) ->
  (forall q, q ∈ cs_publishes s' <-> q ∈ ack_ids rest) ->
  cs_subscribes s' = cs_subscribes s -> cs_unsubscribes s' = cs_unsubscribes s ->
  cs_unregisters s' = cs_unregisters s ->
  synced S' R' O' (cl_pop (cl_post a cl)).
Proof.
  intros I Hu Hm Ha E Hs Hr Hc HO Hg Hp E1 E2 E3. exists s'. destruct I.
  destruct cl as [s0 up down used]; cbn [cl_session cl_up cl_down cl_used cl_pop cl_post tail] in *; subst up.
  cbn [tail] in *.
  constructor; cbn [cl_session cl_up cl_down cl_used cl_pop cl_post tail]; try done.
  - by rewrite (replay_snoc _ _ _ _ is_replay0).
  - intros q i rp Hq. rewrite HO. apply is_new0. unfold call_ids. change (m :: rest) with ([m] ++ rest).
    rewrite omap_app, elem_of_app. by right.
  - intros i i' q rp rp'. rewrite !HO. apply is_one0.
  - intros u Hin. rewrite E1. apply is_subscribes0. by right.
  - intros u Hin. rewrite E2. apply is_unsubs0. by right.
  - intros u Hin. rewrite E3. apply is_unregs0. by right.
  - change (m :: rest) with ([m] ++ rest) in is_nodup0. rewrite omap_app in is_nodup0.
    by apply NoDup_app in is_nodup0 as (_ & _ & ?).
  - intros q Hq. apply is_used_up0. change (m :: rest) with ([m] ++ rest). rewrite omap_app, elem_of_app. by right.
  - intros a' q. rewrite elem_of_app, elem_of_list_singleton. intros [H| ->]; [by apply is_used_down0|].
    rewrite Ha. intros Eq. injection Eq as <-. apply is_used_up0. eapply msg_req; [by left|done].
  - intros i q rp. rewrite HO. apply is_used_open0.
Qed.

Lemma head_fresh S R O cl s m rest r : in_step S R O cl s -> cl_up cl = m :: rest -> request_of m = Some r ->
  r ∉ omap request_of rest.
Proof.
  intros I Hu Hm. pose proof (is_nodup _ _ _ _ _ I) as H. rewrite Hu in H. cbn [omap list_omap] in H.
  rewrite Hm in H. by apply NoDup_cons in H as [? _].
Qed.

Lemma pop_subscribed S R O S' cl m rest g : synced S R O cl -> cl_up cl = MSubscribe m :: rest ->
  (forall g', S' g' <-> S g' \/ g' = g) ->
  synced S' R O (cl_pop (cl_post (MSubscribed (Subscribed (su_request m) g)) cl)).
Proof.
  intros [s I] Hu HS. eapply (pop_answer _ _ _ _ _ _ _ _ _ _ _ _
    (cset_subscriptions ({[g]} ∪ cs_subscriptions s) s) I Hu); try done.
  - cbn [acc sd_request sd_subscription]. rewrite decide_True; [reflexivity|].
    apply (is_subscribes _ _ _ _ _ I). rewrite Hu. by left.
  - intros g'. cbn. rewrite elem_of_union, elem_of_singleton, HS, (is_subs _ _ _ _ _ I). tauto.
  - apply (is_regs _ _ _ _ _ I).
  - intros q. pose proof (is_calls _ _ _ _ _ I q) as H. rewrite Hu in H. exact H.
  - intros q. pose proof (is_registers _ _ _ _ _ I q) as H. rewrite Hu in H. exact H.
  - intros q. pose proof (is_publishes _ _ _ _ _ I q) as H. rewrite Hu in H. exact H.
Qed.
Lemma pop_unsubscribed S R O S' cl m rest : synced S R O cl -> cl_up cl = MUnsubscribe m :: rest ->
  S (us_subscription m) -> (forall g', S' g' <-> S g' /\ g' <> us_subscription m) ->
  synced S' R O (cl_pop (cl_post (MUnsubscribed (Unsubscribed (us_request m))) cl)).
Proof.
  intros [s I] Hu HSg HS. eapply (pop_answer _ _ _ _ _ _ _ _ _ _ _ _
    (cset_subscriptions (cs_subscriptions s ∖ {[us_subscription m]}) s) I Hu); try done.
  - cbn [acc ud_request]. rewrite (is_unsubs _ _ _ _ _ I) by (rewrite Hu; by left).
    rewrite decide_True by (by apply (is_subs _ _ _ _ _ I)). reflexivity.
  - intros g'. cbn. rewrite elem_of_difference, elem_of_singleton, HS, (is_subs _ _ _ _ _ I). tauto.
  - apply (is_regs _ _ _ _ _ I).
  - intros q. pose proof (is_calls _ _ _ _ _ I q) as H. rewrite Hu in H. exact H.
  - intros q. pose proof (is_registers _ _ _ _ _ I q) as H. rewrite Hu in H. exact H.
  - intros q. pose proof (is_publishes _ _ _ _ _ I q) as H. rewrite Hu in H. exact H.
Qed.
Lemma pop_published S R O cl m rest pid : synced S R O cl -> cl_up cl = MPublish m :: rest ->
  flag (pu_options m) "acknowledge" = true ->
  synced S R O (cl_pop (cl_post (MPublished (Published (pu_request m) pid)) cl)).
Proof.
  intros [s I] Hu Hf. pose proof (head_fresh _ _ _ _ _ _ _ _ I Hu eq_refl) as Hn.
  assert (HA : forall q, q ∈ cs_publishes s <-> q = pu_request m \/ q ∈ ack_ids rest).
  { intros q. rewrite (is_publishes _ _ _ _ _ I q), Hu. unfold ack_ids. cbn [omap list_omap]. rewrite Hf.
    by rewrite elem_of_cons. }
  eapply (pop_answer _ _ _ _ _ _ _ _ _ _ _ _
    (cset_publishes (cs_publishes s ∖ {[pu_request m]}) s) I Hu); try done.
  - cbn [acc pd_request]. unfold pop_publish. rewrite decide_True; [reflexivity|]. apply HA. by left.
  - apply (is_subs _ _ _ _ _ I).
  - apply (is_regs _ _ _ _ _ I).
  - intros q. pose proof (is_calls _ _ _ _ _ I q) as H. rewrite Hu in H. exact H.
  - intros q. pose proof (is_registers _ _ _ _ _ I q) as H. rewrite Hu in H. exact H.
  - intros q. cbn. rewrite elem_of_difference, elem_of_singleton, HA. split; [tauto|]. intros Hq. split; [by right|].
    intros ->. by apply Hn, ack_req.
Qed.
Lemma pop_registered S R O R' cl m rest g : synced S R O cl -> cl_up cl = MRegister m :: rest ->
  (forall g', R' g' <-> R g' \/ g' = g) ->
  synced S R' O (cl_pop (cl_post (MRegistered (Registered (rg_request m) g)) cl)).
Proof.
  intros [s I] Hu HR. pose proof (head_fresh _ _ _ _ _ _ _ _ I Hu eq_refl) as Hn.
  assert (HA : forall q, q ∈ cs_registers s <-> q = rg_request m \/ q ∈ reg_ids rest).
  { intros q. rewrite (is_registers _ _ _ _ _ I q), Hu. unfold reg_ids. cbn [omap list_omap].
    by rewrite elem_of_cons. }
  eapply (pop_answer _ _ _ _ _ _ _ _ _ _ _ _
    (cset_registrations ({[g]} ∪ cs_registrations s) (cset_registers (cs_registers s ∖ {[rg_request m]}) s)) I Hu); try done.
  - cbn [acc rd_request rd_registration]. unfold pop_register. rewrite decide_True; [reflexivity|]. apply HA. by left.
  - apply (is_subs _ _ _ _ _ I).
  - intros g'. cbn. rewrite elem_of_union, elem_of_singleton, HR, (is_regs _ _ _ _ _ I). tauto.
  - intros q. pose proof (is_calls _ _ _ _ _ I q) as H. rewrite Hu in H. exact H.
  - intros q. cbn. rewrite elem_of_difference, elem_of_singleton, HA. split; [tauto|]. intros Hq. split; [by right|].
    intros ->. by apply Hn, reg_req.
  - intros q. pose proof (is_publishes _ _ _ _ _ I q) as H. rewrite Hu in H. exact H.
Qed.
Lemma pop_register_refused S R O cl m rest x : synced S R O cl -> cl_up cl = MRegister m :: rest ->
  er_type x = tRegister -> er_request x = rg_request m ->
  synced S R O (cl_pop (cl_post (MError x) cl)).
Proof.
  intros [s I] Hu Ht Hx. pose proof (head_fresh _ _ _ _ _ _ _ _ I Hu eq_refl) as Hn.
  assert (HA : forall q, q ∈ cs_registers s <-> q = rg_request m \/ q ∈ reg_ids rest).
  { intros q. rewrite (is_registers _ _ _ _ _ I q), Hu. unfold reg_ids. cbn [omap list_omap].
    by rewrite elem_of_cons. }
  eapply (pop_answer _ _ _ _ _ _ _ _ _ _ _ _
    (cset_registers (cs_registers s ∖ {[rg_request m]}) s) I Hu); try done.
  - cbn. by rewrite Hx.
  - cbn [acc]. rewrite Ht, Hx. cbn. unfold pop_register. rewrite decide_True; [reflexivity|]. apply HA. by left.
  - apply (is_subs _ _ _ _ _ I).
  - apply (is_regs _ _ _ _ _ I).
  - intros q. pose proof (is_calls _ _ _ _ _ I q) as H. rewrite Hu in H. exact H.
  - intros q. cbn. rewrite elem_of_difference, elem_of_singleton, HA. split; [tauto|]. intros Hq. split; [by right|].
    intros ->. by apply Hn, reg_req.
  - intros q. pose proof (is_publishes _ _ _ _ _ I q) as H. rewrite Hu in H. exact H.
Qed.
Lemma pop_unregistered S R O R' cl m rest : synced S R O cl -> cl_up cl = MUnregister m :: rest ->
  R (ur_registration m) -> (forall g', R' g' <-> R g' /\ g' <> ur_registration m) ->
  synced S R' O (cl_pop (cl_post (MUnregistered (Unregistered (ur_request m))) cl)).
Proof.
  intros [s I] Hu HSg HS. eapply (pop_answer _ _ _ _ _ _ _ _ _ _ _ _
    (cset_registrations (cs_registrations s ∖ {[ur_registration m]}) s) I Hu); try done.
  - cbn [acc un_request]. rewrite (is_unregs _ _ _ _ _ I) by (rewrite Hu; by left).
    rewrite decide_True by (by apply (is_regs _ _ _ _ _ I)). reflexivity.
  - apply (is_subs _ _ _ _ _ I).
  - intros g'. cbn. rewrite elem_of_difference, elem_of_singleton, HS, (is_regs _ _ _ _ _ I). tauto.
  - intros q. pose proof (is_calls _ _ _ _ _ I q) as H. rewrite Hu in H. exact H.
  - intros q. pose proof (is_registers _ _ _ _ _ I q) as H. rewrite Hu in H. exact H.
  - intros q. pose proof (is_publishes _ _ _ _ _ I q) as H. rewrite Hu in H. exact H.
Qed.
Lemma call_head S R O cl s m rest q : in_step S R O cl s -> cl_up cl = MCall m :: rest ->
  q ∈ cs_calls s <-> q = ca_request m \/ q ∈ call_ids rest \/ exists i rp, O i q rp.
Proof.
  intros I Hu. rewrite (is_calls _ _ _ _ _ I q), Hu. unfold call_ids. cbn [omap list_omap].
  rewrite elem_of_cons. tauto.
Qed.
Lemma pop_call_refused S R O cl m rest x : synced S R O cl -> cl_up cl = MCall m :: rest ->
  er_type x = tCall -> er_request x = ca_request m -> synced S R O (cl_pop (cl_post (MError x) cl)).
Proof.
  intros [s I] Hu Ht Hx. pose proof (head_fresh _ _ _ _ _ _ _ _ I Hu eq_refl) as Hn.
  pose proof (fun q => call_head _ _ _ _ _ _ _ q I Hu) as HA.
  eapply (pop_answer _ _ _ _ _ _ _ _ _ _ _ _
    (cset_calls (cs_calls s ∖ {[ca_request m]}) s) I Hu); try done.
  - cbn. by rewrite Hx.
  - cbn [acc]. rewrite Ht, Hx. cbn. unfold pop_call. rewrite decide_True; [reflexivity|]. apply HA. by left.
  - apply (is_subs _ _ _ _ _ I).
  - apply (is_regs _ _ _ _ _ I).
  - intros q. cbn. rewrite elem_of_difference, elem_of_singleton, HA. split; [tauto|]. intros Hq. split; [by right|].
    intros ->. destruct Hq as [Hq|(i & rp & Hq)].
    + by apply Hn, call_req.
    + eapply (is_new _ _ _ _ _ I); [|exact Hq]. rewrite Hu. unfold call_ids. cbn. by left.
  - intros q. pose proof (is_registers _ _ _ _ _ I q) as H. rewrite Hu in H. exact H.
  - intros q. pose proof (is_publishes _ _ _ _ _ I q) as H. rewrite Hu in H. exact H.
Qed.
(** A CALL is taken on as invocation [i]. *)
Lemma pop_call_opened S R O O' cl m rest i rp : synced S R O cl -> cl_up cl = MCall m :: rest ->
  (forall i' q rp', O' i' q rp' <-> O i' q rp' \/ (i' = i /\ q = ca_request m /\ rp' = rp)) ->
  synced S R O' (cl_pop cl).
Proof.
  intros [s I] Hu HO. exists s. pose proof (fun q => call_head _ _ _ _ _ _ _ q I Hu) as HA.
  pose proof (head_fresh _ _ _ _ _ _ _ _ I Hu eq_refl) as Hn. destruct I.
  destruct cl as [s0 up down used]; cbn [cl_session cl_up cl_down cl_used cl_pop cl_post tail] in *; subst up.
  assert (Hno : forall i' rp', ~ O i' (ca_request m) rp').
  { intros i' rp'. apply is_new0. unfold call_ids. cbn. by left. }
  constructor; cbn [cl_session cl_up cl_down cl_used cl_pop tail]; try done.
  - intros q. rewrite HA. split.
    + intros [->|[H|(i' & rp' & H)]].
      * right. exists i, rp. apply HO. by right.
      * by left.
      * right. exists i', rp'. apply HO. by left.
    + intros [H|(i' & rp' & H)]; [by right; left|]. apply HO in H as [H|(-> & -> & ->)]; [|by left]. right; right. eauto.
  - intros q i' rp' Hq H. apply HO in H as [H|(-> & -> & ->)].
    + eapply is_new0; [|exact H]. unfold call_ids. cbn. by right.
    + by apply Hn, call_req.
  - intros i1 i2 q rp1 rp2 H1 H2. apply HO in H1 as [H1|(-> & -> & ->)]; apply HO in H2 as [H2|(-> & E & ->)].
    + by eapply is_one0.
    + subst q. by apply Hno in H1.
    + by apply Hno in H2.
    + done.
  - intros u Hin. apply is_subscribes0. by right.
  - intros u Hin. apply is_unsubs0. by right.
  - intros u Hin. apply is_unregs0. by right.
  - by apply NoDup_cons in is_nodup0 as [_ ?].
  - intros q Hq. apply is_used_up0. cbn. by right.
  - intros i' q rp' H. apply HO in H as [H|(-> & -> & ->)]; [by eapply is_used_open0|]. apply is_used_up0. by left.
Qed.

(** ** Where the open calls of a client are *)

Lemma flag_says m k : flag m k = says m k.
Proof. unfold flag, says. by destruct (mget m k). Qed.
Lemma acc_calls s a s' r : acc s a = Some s' ->
  (r ∈ cs_calls s <-> r ∈ cs_calls s' \/ r ∈ answer_ids [a]) /\ (r ∈ answer_ids [a] -> r ∉ cs_calls s').
Proof.
  intros H. destruct (on_calls a) as [q|] eqn:E.
  - destruct a; try discriminate E.
    + cbn in E. unfold err_on in E. destruct (er_type m =? tCall) eqn:Et; [|discriminate]. injection E as <-.
      cbn [acc] in H. rewrite Et in H. unfold pop_call in H. case_decide as Hin; [|discriminate]. injection H as <-.
      unfold answer_ids. cbn. rewrite Et. rewrite elem_of_difference, elem_of_list_singleton, elem_of_singleton.
      destruct (decide (r = er_request m)) as [->|]; tauto.
    + injection E as <-. cbn [acc] in H. unfold answer_ids. cbn.
      rewrite <- flag_says.
      destruct (flag _ _).
      * case_decide; [|discriminate]. injection H as <-. rewrite elem_of_nil. tauto.
      * unfold pop_call in H. case_decide as Hin; [|discriminate]. injection H as <-. cbn.
        rewrite elem_of_difference, elem_of_list_singleton, elem_of_singleton.
        destruct (decide (r = re_request m)) as [->|]; tauto.
  - rewrite (same_calls _ _ _ H E). assert (answer_ids [a] = []) as ->.
    { destruct a; try done. cbn in E. unfold err_on in E. unfold answer_ids. cbn. by destruct (_ =? _). }
    rewrite elem_of_nil. tauto.
Qed.
Lemma replay_calls q : forall s s', replay s q = Some s' ->
  NoDup (answer_ids q) /\
  forall r, (r ∈ cs_calls s <-> r ∈ cs_calls s' \/ r ∈ answer_ids q) /\ (r ∈ answer_ids q -> r ∉ cs_calls s').
Proof.
  induction q as [|a q IH]; intros s s' H.
  - injection H as <-. split; [constructor|]. intros r. cbn. rewrite elem_of_nil. tauto.
  - apply replay_cons in H as (s1 & H1 & H2). destruct (IH _ _ H2) as [Hd Hr].
    pose proof (fun r => acc_calls _ _ _ r H1) as Ha.
    change (a :: q) with ([a] ++ q). unfold answer_ids in *. rewrite omap_app. split.
    + apply NoDup_app. split; [|split; [|done]].
      * cbn. destruct a; try constructor.
        -- destruct (_ =? _); [apply NoDup_singleton|constructor].
        -- destruct (says _ _); [constructor|apply NoDup_singleton].
      * intros r Hin Hin'. destruct (Ha r) as [_ Hx]. apply Hx; [done|]. apply Hr. by right.
    + intros r. rewrite elem_of_app. destruct (Ha r) as [A1 A2]. destruct (Hr r) as [B1 B2].
      split; [tauto|]. intros [H|H]; [|tauto]. specialize (A2 H). tauto.
Qed.
