(** The broker refines the topic table. *)
From Verif Require Import Prelude Value Msg IdGen Types PathMatch Broker BrokerSpec BaseFacts.

Definition pol_str (p : policy) : string :=
  match p with PExact => match_exact | PPrefix => match_prefix | PWildcard => match_wildcard end.

(** Heap object [sub] represents row [r] of topic [t]. *)
Record repr (t : string) (sub : subscription) (r : topic_row) : Prop := {
  rp_topic : sub_topic sub = t;
  rp_id : sub_id sub = t_id r;
  rp_match : sub_match sub = pol_str (t_policy r);
  rp_subs : forall k v, sub_subscribers sub !! k = Some v <-> k ∈ t_subs r /\ v = k }.

(** The representation invariant; [bs] is subscriptionsBySession (a parameter
    because RemoveSession deletes the session's entry before its loop). *)
Record core (b : broker) (bs : gmap N (gmap N N)) (rows : gmap string topic_row) (ids : N) : Prop := {
  c_topic : forall t l, b_by_topic b !! t = Some l ->
    exists sub r, b_heap b !! l = Some sub /\ rows !! t = Some r /\ repr t sub r /\ l < b_fresh b;
  c_row : forall t r, rows !! t = Some r -> is_Some (b_by_topic b !! t) /\ t_subs r <> ∅ /\ 1 <= t_id r <= ids;
  c_ids : forall t1 t2 r1 r2, rows !! t1 = Some r1 -> rows !! t2 = Some r2 -> t_id r1 = t_id r2 -> t1 = t2;
  c_pre : forall t l, b_prefix b !! t = Some l <->
    b_by_topic b !! t = Some l /\ exists r, rows !! t = Some r /\ t_policy r = PPrefix /\ t_indexed r = true;
  c_wc : forall t l, b_wildcard b !! t = Some l <->
    b_by_topic b !! t = Some l /\ exists r, rows !! t = Some r /\ t_policy r = PWildcard /\ t_indexed r = true;
  c_sess : forall sid m, bs !! sid = Some m -> forall id l, m !! id = Some l <->
    exists t r, b_by_topic b !! t = Some l /\ rows !! t = Some r /\ t_id r = id /\ sid ∈ t_subs r;
  c_attached : forall t r sid, rows !! t = Some r -> sid ∈ t_subs r -> is_Some (bs !! sid) }.

Lemma repr_empty t sub r : repr t sub r -> (sub_subscribers sub = ∅ <-> t_subs r = ∅).
Proof.
  intros [_ _ _ H]. rewrite map_empty. split.
  - intros He. apply set_eq. intros x. split; [|set_solver]. intros Hx.
    assert (sub_subscribers sub !! x = Some x) as E by (apply H; done). by rewrite He in E.
  - intros He i. destruct (sub_subscribers sub !! i) eqn:E; [|done].
    apply H in E as [E _]. rewrite He in E. set_solver.
Qed.

(** What both UNSUBSCRIBE and the removal loop do to everything but
    subscriptionsBySession. *)
Definition drop_b (sid l : N) (sub : subscription) (b : broker) : broker :=
  let s := set_subscribers (delete sid (sub_subscribers sub)) sub in
  let b := set_heap (<[l := s]> (b_heap b)) b in
  let b := if decide (sub_subscribers s = ∅)
           then set_by_topic (delete (sub_topic s) (b_by_topic b)) b else b in
  let b := if String.eqb (sub_match s) match_prefix
           then set_prefix (delete (sub_topic s) (b_prefix b)) b else b in
  if String.eqb (sub_match s) match_wildcard
  then set_wildcard (delete (sub_topic s) (b_wildcard b)) b else b.

Lemma drop_b_fields sid l sub b :
  let s := set_subscribers (delete sid (sub_subscribers sub)) sub in
  let b' := drop_b sid l sub b in
  b_heap b' = <[l := s]> (b_heap b)
  /\ b_by_topic b' = (if decide (sub_subscribers s = ∅) then delete (sub_topic sub) (b_by_topic b) else b_by_topic b)
  /\ b_prefix b' = (if String.eqb (sub_match sub) match_prefix then delete (sub_topic sub) (b_prefix b) else b_prefix b)
  /\ b_wildcard b' = (if String.eqb (sub_match sub) match_wildcard then delete (sub_topic sub) (b_wildcard b) else b_wildcard b)
  /\ b_fresh b' = b_fresh b /\ b_by_session b' = b_by_session b /\ b_sessions b' = b_sessions b
  /\ b_details b' = b_details b /\ b_idgen b' = b_idgen b.
Proof.
  unfold drop_b. cbn zeta.
  destruct (decide _); destruct (String.eqb (sub_match _) match_prefix) eqn:E1;
    destruct (String.eqb (sub_match _) match_wildcard) eqn:E2; cbn in E1, E2 |- *;
    rewrite ?E1, ?E2; repeat split; done.
Qed.

Lemma leave_in sid r : sid ∈ t_subs r ->
  leave sid r = if decide (t_subs r ∖ {[sid]} = ∅) then None
                else Some (TopicRow (t_id r) (t_policy r) (t_subs r ∖ {[sid]}) false).
Proof. intros H. unfold leave. by rewrite decide_True. Qed.

Lemma core_drop b bs rows ids sid m id l :
  core b bs rows ids -> bs !! sid = Some m -> m !! id = Some l ->
  exists t sub r, b_heap b !! l = Some sub /\ b_by_topic b !! t = Some l /\ rows !! t = Some r
    /\ sub_topic sub = t /\ sub_id sub = id /\ t_id r = id /\ sid ∈ t_subs r
    /\ core (drop_b sid l sub b) (<[sid := delete id m]> bs)
         (partial_alter (fun x => x ≫= leave sid) t rows) ids.
Proof.
  intros C Hm Hid.
  destruct (proj1 (c_sess _ _ _ _ C sid m Hm id l) Hid) as (t & r & Ht & Hr & Hri & Hin).
  destruct (c_topic _ _ _ _ C t l Ht) as (sub & r' & Hh & Hr' & Rp & Hfr).
  assert (r' = r) as -> by congruence.
  exists t, sub, r. split; [done|]. split; [done|]. split; [done|].
  split; [apply Rp|]. split; [rewrite (rp_id _ _ _ Rp); done|]. split; [done|]. split; [done|].
  destruct (drop_b_fields sid l sub b) as (E1 & E2 & E3 & E4 & E5 & E6 & _).
  set (b' := drop_b sid l sub b) in *. clearbody b'.
  set (s' := set_subscribers (delete sid (sub_subscribers sub)) sub) in *.
  rewrite (rp_topic _ _ _ Rp) in E2, E3, E4.
  (* the row after leaving *)
  assert (Hsubs' : forall k v, sub_subscribers s' !! k = Some v <-> k ∈ t_subs r ∖ {[sid]} /\ v = k).
  { intros k v. cbn. rewrite lookup_delete_Some, (rp_subs _ _ _ Rp). set_solver. }
  assert (Hempty : sub_subscribers s' = ∅ <-> t_subs r ∖ {[sid]} = ∅).
  { refine (repr_empty t s' (TopicRow (t_id r) (t_policy r) (t_subs r ∖ {[sid]}) false) _).
    constructor; cbn; try apply Rp. done. }
  set (rows' := partial_alter _ t rows).
  assert (Hrows' : forall t0, rows' !! t0 =
     if decide (t0 = t) then (if decide (t_subs r ∖ {[sid]} = ∅) then None
         else Some (TopicRow (t_id r) (t_policy r) (t_subs r ∖ {[sid]}) false)) else rows !! t0).
  { intros t0. unfold rows'. destruct (decide (t0 = t)) as [->|Hne].
    - rewrite lookup_partial_alter, Hr. cbn. by rewrite leave_in.
    - by rewrite lookup_partial_alter_ne. }
  assert (Hbt' : forall t0 l0, b_by_topic b' !! t0 = Some l0 <->
     b_by_topic b !! t0 = Some l0 /\ (t0 = t -> t_subs r ∖ {[sid]} <> ∅)).
  { intros t0 l0. rewrite E2. destruct (decide (sub_subscribers s' = ∅)) as [He|He].
    - apply Hempty in He. rewrite lookup_delete_Some. naive_solver.
    - split; [|naive_solver]. intros H. split; [done|]. intros _ He'. by apply He, Hempty. }
  assert (Hlt : forall t0, b_by_topic b !! t0 = Some l -> t0 = t).
  { intros t0 H0. destruct (c_topic _ _ _ _ C t0 l H0) as (sub0 & ? & Hh0 & _ & Rp0 & _).
    assert (sub0 = sub) as -> by congruence.
    by rewrite <- (rp_topic _ _ _ Rp0), <- (rp_topic _ _ _ Rp). }
  constructor.
  - intros t0 l0 [H1 H2]%Hbt'. rewrite E1, E5, Hrows'.
    destruct (decide (t0 = t)) as [->|Hne].
    + assert (l0 = l) as -> by congruence. rewrite lookup_insert.
      rewrite decide_False by auto. exists s', (TopicRow (t_id r) (t_policy r) (t_subs r ∖ {[sid]}) false).
      split; [done|]. split; [done|]. split; [|done]. constructor; cbn; [apply Rp..|exact Hsubs'].
    + rewrite lookup_insert_ne by (intros ->; by apply Hne, Hlt). by apply (c_topic _ _ _ _ C).
  - intros t0 r0. rewrite Hrows'. destruct (decide (t0 = t)) as [->|Hne].
    + destruct (decide (t_subs r ∖ {[sid]} = ∅)) as [|Hne]; [done|]. intros [= <-]. cbn.
      split; [|split; [done|apply (c_row _ _ _ _ C t r Hr)]].
      exists l. apply Hbt'. naive_solver.
    + intros H0. destruct (c_row _ _ _ _ C t0 r0 H0) as ([l0 Hl0] & ? & ?).
      split; [|done]. exists l0. apply Hbt'. naive_solver.
  - intros t1 t2 r1 r2. rewrite !Hrows'.
    assert (forall tx rx, (if decide (tx = t) then (if decide (t_subs r ∖ {[sid]} = ∅) then None
         else Some (TopicRow (t_id r) (t_policy r) (t_subs r ∖ {[sid]}) false)) else rows !! tx) = Some rx ->
       exists ry, rows !! tx = Some ry /\ t_id ry = t_id rx) as HH.
    { intros tx rx. destruct (decide (tx = t)) as [->|]; [|eauto].
      destruct (decide (t_subs r ∖ {[sid]} = ∅)); [done|]. intros [= <-]. eauto. }
    intros (ra & ? & Ha)%HH (rb & ? & Hb)%HH He. eapply (c_ids _ _ _ _ C); [done..|]. congruence.
  - intros t0 l0. rewrite E3, Hbt', Hrows', (rp_match _ _ _ Rp).
    destruct (decide (t0 = t)) as [->|Hne].
    + split.
      * intros H. exfalso. destruct (t_policy r) eqn:Ep; cbn in H;
          rewrite ?lookup_delete in H; try done;
          apply (c_pre _ _ _ _ C) in H as (_ & r0 & H1 & H2 & _); congruence.
      * intros (_ & r0 & H & _ & Hi). exfalso.
        destruct (decide (t_subs r ∖ {[sid]} = ∅)); [done|]. injection H as <-. done.
    + assert (forall x, (if String.eqb (pol_str (t_policy r)) x then delete t (b_prefix b) else b_prefix b) !! t0
         = b_prefix b !! t0) as -> by (intros x; destruct (String.eqb (pol_str (t_policy r)) x); [rewrite lookup_delete_ne by congruence|]; reflexivity).
      rewrite (c_pre _ _ _ _ C). split; [intros [H1 H2]; split; [split; [done|by intros ->]|done]|].
      intros [[H1 _] H2]. done.
  - intros t0 l0. rewrite E4, Hbt', Hrows', (rp_match _ _ _ Rp).
    destruct (decide (t0 = t)) as [->|Hne].
    + split.
      * intros H. exfalso. destruct (t_policy r) eqn:Ep; cbn in H;
          rewrite ?lookup_delete in H; try done;
          apply (c_wc _ _ _ _ C) in H as (_ & r0 & H1 & H2 & _); congruence.
      * intros (_ & r0 & H & _ & Hi). exfalso.
        destruct (decide (t_subs r ∖ {[sid]} = ∅)); [done|]. injection H as <-. done.
    + assert (forall x, (if String.eqb (pol_str (t_policy r)) x then delete t (b_wildcard b) else b_wildcard b) !! t0
         = b_wildcard b !! t0) as -> by (intros x; destruct (String.eqb (pol_str (t_policy r)) x); [rewrite lookup_delete_ne by congruence|]; reflexivity).
      rewrite (c_wc _ _ _ _ C). split; [intros [H1 H2]; split; [split; [done|by intros ->]|done]|].
      intros [[H1 _] H2]. done.
  - intros sid0 m0 Hm0 id0 l0.
    setoid_rewrite Hbt'. setoid_rewrite Hrows'.
    destruct (decide (sid0 = sid)) as [->|Hsne].
    + rewrite lookup_insert in Hm0. injection Hm0 as <-.
      rewrite lookup_delete_Some, (c_sess _ _ _ _ C sid m Hm).
      split.
      * intros (Hne & t0 & r0 & H1 & H2 & H3 & H4). exists t0, r0.
        assert (t0 <> t) by (intros ->; congruence).
        rewrite decide_False by done. naive_solver.
      * intros (t0 & r0 & (H1 & H1') & H2 & H3 & H4).
        destruct (decide (t0 = t)) as [->|Hne].
        { destruct (decide (t_subs r ∖ {[sid]} = ∅)); [done|]. injection H2 as <-. cbn in H4. set_solver. }
        split; [|naive_solver]. intros <-. apply Hne. eapply (c_ids _ _ _ _ C); [done..|]. congruence.
    + rewrite lookup_insert_ne in Hm0 by done. rewrite (c_sess _ _ _ _ C sid0 m0 Hm0).
      split.
      * intros (t0 & r0 & H1 & H2 & H3 & H4). exists t0.
        destruct (decide (t0 = t)) as [->|Hne]; [|naive_solver].
        assert (r0 = r) as -> by congruence.
        assert (t_subs r ∖ {[sid]} <> ∅) as Hn by set_solver.
        rewrite decide_False by done. eexists. split; [done|]. split; [done|]. cbn. set_solver.
      * intros (t0 & r0 & (H1 & H1') & H2 & H3 & H4).
        destruct (decide (t0 = t)) as [->|Hne]; [|naive_solver].
        destruct (decide (t_subs r ∖ {[sid]} = ∅)); [done|]. injection H2 as <-. cbn in *. exists t, r. set_solver.
  - intros t0 r0 sid0. rewrite Hrows'. intros H0 Hs.
    destruct (decide (sid0 = sid)) as [->|Hne]; [by rewrite lookup_insert|].
    rewrite lookup_insert_ne by done.
    destruct (decide (t0 = t)) as [->|Hne']; [|by eapply (c_attached _ _ _ _ C)].
    destruct (decide (t_subs r ∖ {[sid]} = ∅)); [done|]. injection H0 as <-. cbn in Hs.
    eapply (c_attached _ _ _ _ C); [done|set_solver].
Qed.
