(** Every broker call is a call on the topic table. *)
From Verif Require Import Prelude Value Msg IdGen Types PathMatch Broker BrokerSpec BaseFacts TypesFacts BrokerFacts.

Record refines (b : broker) (s : table) : Prop := {
  rf_core : core b (b_by_session b) (tb_rows s) (tb_ids s);
  rf_sessions : b_sessions b = tb_sessions s;
  rf_dom : forall sid, is_Some (b_by_session b !! sid) <-> is_Some (b_sessions b !! sid);
  rf_id : forall sid d, b_sessions b !! sid = Some d -> se_id d = sid;
  rf_details : b_details b = tb_disclose s;
  rf_ids : b_idgen b = tb_ids s }.

(** [core] only looks at the broker's maps. *)
Lemma core_ext b b' bs rows ids :
  b_heap b = b_heap b' -> b_fresh b = b_fresh b' -> b_by_topic b = b_by_topic b' ->
  b_prefix b = b_prefix b' -> b_wildcard b = b_wildcard b' ->
  core b bs rows ids -> core b' bs rows ids.
Proof.
  intros E1 E2 E3 E4 E5 C. constructor.
  - rewrite <- E1, <- E2, <- E3. apply C.
  - rewrite <- E3. apply C.
  - apply (c_ids _ _ _ _ C).
  - rewrite <- E3, <- E4. apply C.
  - rewrite <- E3, <- E5. apply C.
  - rewrite <- E3. apply C.
  - apply (c_attached _ _ _ _ C).
Qed.

Lemma core_ids b bs rows ids ids' : ids <= ids' -> core b bs rows ids -> core b bs rows ids'.
Proof.
  intros Hle C. constructor; try apply C.
  intros t r Hr. destruct (c_row _ _ _ _ C t r Hr) as (? & ? & ?). split; [done|]. split; [done|lia].
Qed.

(** * The removal loop *)

Lemma leave_idem sid r : leave sid r ≫= leave sid = leave sid r.
Proof.
  unfold leave at 2 3. destruct (decide (sid ∈ t_subs r)) as [H|H]; cbn.
  - destruct (decide (t_subs r ∖ {[sid]} = ∅)); [done|]. cbn. unfold leave. cbn.
    rewrite decide_False by set_solver. done.
  - unfold leave. by rewrite decide_False.
Qed.

Lemma omap_leave_drop sid t (rows : gmap string topic_row) :
  omap (leave sid) (partial_alter (fun x => x ≫= leave sid) t rows) = omap (leave sid) rows.
Proof.
  apply map_eq. intros t0. rewrite !lookup_omap.
  destruct (decide (t0 = t)) as [->|Hne]; [|by rewrite lookup_partial_alter_ne].
  rewrite lookup_partial_alter. destruct (rows !! t) as [r|]; cbn; [|done]. apply leave_idem.
Qed.

Lemma omap_leave_none sid (rows : gmap string topic_row) :
  (forall t r, rows !! t = Some r -> sid ∉ t_subs r) -> omap (leave sid) rows = rows.
Proof.
  intros H. apply map_eq. intros t. rewrite lookup_omap.
  destruct (rows !! t) as [r|] eqn:E; cbn; [|done]. unfold leave. by rewrite decide_False by eauto.
Qed.

Lemma remove_body_drop b bs rows ids sid m id l :
  core b bs rows ids -> bs !! sid = Some m -> m !! id = Some l ->
  exists t sub r, rows !! t = Some r /\ sid ∈ t_subs r /\ t_id r = id
    /\ b_remove_body sid b l = Ret (drop_b sid l sub b) ()
    /\ core (drop_b sid l sub b) (<[sid := delete id m]> bs)
         (partial_alter (fun x => x ≫= leave sid) t rows) ids.
Proof.
  intros C Hm Hid. destruct (core_drop _ _ _ _ _ _ _ _ C Hm Hid)
    as (t & sub & r & Hh & Ht & Hr & Htop & Hsid & Hrid & Hin & C').
  exists t, sub, r. split; [done|]. split; [done|]. split; [done|]. split; [|done].
  unfold b_remove_body. rewrite Hh, Htop, Ht, Hh. cbn. unfold drop_b. cbn. rewrite Htop. done.
Qed.

Lemma remove_loop b bs rows ids sid (L : list (N * N)) :
  core b (<[sid := list_to_map L]> bs) rows ids -> NoDup (L.*1) ->
  exists b' rows', b_remove_loop sid b (map snd L) = Ret b' ()
    /\ core b' (<[sid := ∅]> bs) rows' ids
    /\ omap (leave sid) rows' = omap (leave sid) rows
    /\ b_by_session b' = b_by_session b /\ b_sessions b' = b_sessions b
    /\ b_details b' = b_details b /\ b_idgen b' = b_idgen b.
Proof.
  revert b rows. induction L as [|[id l] L IH]; intros b rows C HN; cbn [map b_remove_loop snd].
  - exists b, rows. done.
  - cbn in HN. apply NoDup_cons in HN as [Hnin HN].
    destruct (remove_body_drop b (<[sid := list_to_map ((id, l) :: L)]> bs) rows ids sid
      (list_to_map ((id, l) :: L)) id l) as (t & sub & r & Hr & Hin & Hrid & -> & C'); [done|by rewrite lookup_insert|by cbn; rewrite lookup_insert|].
    cbn [list_to_map] in C'. rewrite insert_insert in C'. cbn in C'.
    rewrite delete_insert in C' by (by apply not_elem_of_list_to_map).
    destruct (IH _ _ C' HN) as (b' & rows' & -> & C'' & Ho & E1 & E2 & E3 & E4).
    destruct (drop_b_fields sid l sub b) as (_ & _ & _ & _ & _ & F1 & F2 & F3 & F4).
    exists b', rows'. split; [done|]. split; [done|].
    split; [by rewrite Ho, omap_leave_drop|].
    rewrite E1, E2, E3, E4. done.
Qed.

Lemma core_remove b bs rows ids sid :
  core b (<[sid := ∅]> bs) rows ids -> core b (delete sid bs) (omap (leave sid) rows) ids.
Proof.
  intros C.
  assert (Hno : forall t r, rows !! t = Some r -> sid ∉ t_subs r).
  { intros t r Hr Hin. destruct (c_row _ _ _ _ C t r Hr) as ([l Hl] & _).
    assert ((∅ : gmap N N) !! t_id r = Some l) as H.
    { refine (proj2 (c_sess _ _ _ _ C sid ∅ _ _ _) _); [apply lookup_insert|eauto 10]. }
    by rewrite lookup_empty in H. }
  rewrite omap_leave_none by done. constructor; try apply C.
  - intros sid0 m Hm. apply lookup_delete_Some in Hm as [Hne Hm].
    apply (c_sess _ _ _ _ C). by rewrite lookup_insert_ne.
  - intros t r sid0 Hr Hin. assert (sid0 <> sid) by (intros ->; by eapply Hno).
    rewrite lookup_delete_ne by done.
    destruct (c_attached _ _ _ _ C t r sid0 Hr Hin) as [m Hm]. rewrite lookup_insert_ne in Hm by done. eauto.
Qed.

(** * The search of ReceivePublish *)

Lemma find_spec o b bs rows ids topic : core b bs rows ids ->
  match b_find o b topic with
  | Some l => exists t sub r, b_heap b !! l = Some sub /\ repr t sub r /\ serves rows topic t r
  | None => forall t r, ~ serves rows topic t r
  end.
Proof.
  intros C. unfold b_find.
  destruct (b_by_topic b !! topic) as [l|] eqn:Et.
  - destruct (c_topic _ _ _ _ C topic l Et) as (sub & r & Hh & Hr & Rp & _).
    unfold b_subscribers_at. rewrite Hh. cbn.
    assert (sub_subscribers sub <> ∅) as Hne.
    { rewrite (repr_empty _ _ _ Rp). apply (c_row _ _ _ _ C topic r Hr). }
    rewrite bool_decide_false by done. cbn. exists topic, sub, r. split; [done|]. split; [done|].
    by constructor.
  - assert (rows !! topic = None) as Hnone.
    { destruct (rows !! topic) as [r|] eqn:E; [|done].
      destruct (c_row _ _ _ _ C topic r E) as ([l Hl] & _). congruence. }
    assert (Hlp : (if (0 <? size (b_prefix b))%nat then longest_prefix (b_prefix b) topic else None)
                  = longest_prefix (b_prefix b) topic).
    { destruct (Nat.ltb_spec 0 (size (b_prefix b))); [done|].
      assert (b_prefix b = ∅) as -> by (apply map_size_empty_iff; lia). by rewrite longest_prefix_empty. }
    rewrite Hlp. clear Hlp.
    assert (Hcand : forall t r l, prefix_candidate rows topic t r -> b_by_topic b !! t = Some l ->
               sprefix t topic /\ b_prefix b !! t = Some l).
    { intros t r l (H1 & H2 & H3 & H4) Hl. split; [done|]. apply (c_pre _ _ _ _ C). eauto. }
    destruct (longest_prefix (b_prefix b) topic) as [l|] eqn:Elp.
    + apply longest_prefix_spec in Elp as (t & Hp & Hl & Hmax).
      apply (c_pre _ _ _ _ C) in Hl as (Hl & r & Hr & Hpol & Hidx).
      destruct (c_topic _ _ _ _ C t l Hl) as (sub & r' & Hh & Hr' & Rp & _).
      assert (r' = r) as -> by congruence.
      exists t, sub, r. split; [done|]. split; [done|].
      apply serves_prefix; [done|by repeat split|].
      intros t' r'' Hc. destruct (c_row _ _ _ _ C t' r'' (proj1 Hc)) as ([l' Hl'] & _).
      destruct (Hcand t' r'' l' Hc Hl') as [??]. eapply Hmax; eauto.
    + rewrite longest_prefix_none in Elp.
      assert (Hnp : forall t r, ~ prefix_candidate rows topic t r).
      { intros t r Hc. destruct (c_row _ _ _ _ C t r (proj1 Hc)) as ([l' Hl'] & _).
        destruct (Hcand t r l' Hc Hl') as [??]. eapply Elp; eauto. }
      destruct (List.find _ _) as [[t l]|] eqn:Ef.
      * apply List.find_some in Ef as [Hin Hm]. cbn in Hm.
        apply elem_of_list_In, elem_of_shuf, elem_of_map_to_list in Hin.
        apply (c_wc _ _ _ _ C) in Hin as (Hl & r & Hr & Hpol & Hidx).
        destruct (c_topic _ _ _ _ C t l Hl) as (sub & r' & Hh & Hr' & Rp & _).
        assert (r' = r) as -> by congruence.
        exists t, sub, r. split; [done|]. split; [done|]. apply serves_wildcard; [done|done|by repeat split].
      * intros t r Hs. destruct Hs as [r Hr|t r _ Hc _|t r _ _ Hc]; [congruence|by eapply Hnp|].
        destruct Hc as (Hr & Hpol & Hidx & Hm).
        destruct (c_row _ _ _ _ C t r Hr) as ([l Hl] & _).
        assert (b_wildcard b !! t = Some l) as Hw by (apply (c_wc _ _ _ _ C); eauto).
        eapply List.find_none in Ef; [|apply elem_of_list_In, elem_of_shuf, elem_of_map_to_list; exact Hw].
        cbn in Ef. congruence.
Qed.

Lemma find_ext o b b' topic :
  b_heap b = b_heap b' -> b_by_topic b = b_by_topic b' ->
  b_prefix b = b_prefix b' -> b_wildcard b = b_wildcard b' -> b_find o b topic = b_find o b' topic.
Proof. intros E1 E2 E3 E4. unfold b_find, b_subscribers_at. by rewrite E1, E2, E3, E4. Qed.

Lemma requested_policy_str options :
  pol_str (requested_policy options) =
  let mt := to_string (mget options opt_match) in
  if String.eqb mt match_prefix then mt else if String.eqb mt match_wildcard then mt else match_exact.
Proof.
  unfold requested_policy, opt_match, to_string, as_string, match_prefix, match_wildcard.
  destruct (mget options "match"); try done. cbn zeta. cbn [fst].
  destruct (String.eqb_spec s "prefix"); [by subst|]. destruct (String.eqb_spec s "wildcard"); by subst.
Qed.

(** * Joining a row *)

Lemma core_new_row b bs rows ids sid m t pol l b' :
  core b bs rows ids -> bs !! sid = Some m -> rows !! t = None -> l = b_fresh b ->
  b_heap b' = <[l := Subscription (ids + 1) t {[sid := sid]} (pol_str pol)]> (b_heap b) ->
  b_fresh b' = l + 1 -> b_by_topic b' = <[t := l]> (b_by_topic b) ->
  b_prefix b' = match pol with PPrefix => <[t := l]> (b_prefix b) | _ => b_prefix b end ->
  b_wildcard b' = match pol with PWildcard => <[t := l]> (b_wildcard b) | _ => b_wildcard b end ->
  core b' (<[sid := <[ids + 1 := l]> m]> bs)
    (<[t := TopicRow (ids + 1) pol {[sid]} true]> rows) (ids + 1).
Proof.
  intros C Hm Hno Hl E1 E2 E3 E4 E5.
  assert (Hbt : b_by_topic b !! t = None).
  { destruct (b_by_topic b !! t) as [l0|] eqn:E; [|done].
    destruct (c_topic _ _ _ _ C t l0 E) as (? & ? & _ & ? & _). congruence. }
  assert (Hfresh : forall t0 l0, b_by_topic b !! t0 = Some l0 -> l0 <> l).
  { intros t0 l0 H ->. destruct (c_topic _ _ _ _ C t0 l H) as (? & ? & _ & _ & _ & ?). lia. }
  assert (Hidm : m !! (ids + 1) = None).
  { destruct (m !! (ids + 1)) as [l0|] eqn:E; [|done].
    apply (proj1 (c_sess _ _ _ _ C sid m Hm _ _)) in E as (t0 & r0 & _ & Hr0 & Hi & _).
    destruct (c_row _ _ _ _ C t0 r0 Hr0) as (_ & _ & ?). lia. }
  constructor.
  - intros t0 l0. rewrite E1, E2, E3. intros [[<- <-]|[Hne H]]%lookup_insert_Some.
    + rewrite !lookup_insert. eexists _, _. split; [done|]. split; [done|]. split; [|lia].
      constructor; cbn; try done. intros k v. rewrite lookup_singleton_Some. set_solver.
    + rewrite lookup_insert_ne by (apply not_eq_sym; eauto). rewrite lookup_insert_ne by done.
      destruct (c_topic _ _ _ _ C t0 l0 H) as (sub & r & ? & ? & ? & ?). exists sub, r. split; [done|].
      split; [done|]. split; [done|]. lia.
  - intros t0 r0. rewrite E3. intros [[<- <-]|[Hne H]]%lookup_insert_Some.
    + rewrite lookup_insert. cbn. split; [by eexists|]. split; [set_solver|lia].
    + rewrite lookup_insert_ne by done. destruct (c_row _ _ _ _ C t0 r0 H) as (? & ? & ?).
      split; [done|]. split; [done|]. lia.
  - intros t1 t2 r1 r2. intros [[<- <-]|[Hne1 H1]]%lookup_insert_Some [[<- <-]|[Hne2 H2]]%lookup_insert_Some; cbn; intros He; try done.
    + destruct (c_row _ _ _ _ C t2 r2 H2) as (_ & _ & ?). lia.
    + destruct (c_row _ _ _ _ C t1 r1 H1) as (_ & _ & ?). lia.
    + by eapply (c_ids _ _ _ _ C).
  - intros t0 l0. rewrite E3, E4. destruct (decide (t0 = t)) as [->|Hne].
    + rewrite !lookup_insert. destruct pol; rewrite ?lookup_insert; cbn;
        (split; [intros H|intros ([= <-] & r0 & [= <-] & Hp & _)]); try done.
      * apply (c_pre _ _ _ _ C) in H as [H _]. congruence.
      * split; [done|]. eexists. split; [done|]. done.
      * apply (c_pre _ _ _ _ C) in H as [H _]. congruence.
    + rewrite !lookup_insert_ne by done. rewrite <- (c_pre _ _ _ _ C t0 l0).
      destruct pol; rewrite ?lookup_insert_ne by done; done.
  - intros t0 l0. rewrite E3, E5. destruct (decide (t0 = t)) as [->|Hne].
    + rewrite !lookup_insert. destruct pol; rewrite ?lookup_insert; cbn;
        (split; [intros H|intros ([= <-] & r0 & [= <-] & Hp & _)]); try done.
      * apply (c_wc _ _ _ _ C) in H as [H _]. congruence.
      * apply (c_wc _ _ _ _ C) in H as [H _]. congruence.
      * split; [done|]. eexists. split; [done|]. done.
    + rewrite !lookup_insert_ne by done. rewrite <- (c_wc _ _ _ _ C t0 l0).
      destruct pol; rewrite ?lookup_insert_ne by done; done.
  - intros sid0 m0 Hm0 id0 l0. rewrite E3.
    assert (Hold : forall mm, bs !! sid0 = Some mm -> (mm !! id0 = Some l0 <->
      exists t0 r0, t0 <> t /\ <[t := l]> (b_by_topic b) !! t0 = Some l0
        /\ <[t := TopicRow (ids + 1) pol {[sid]} true]> rows !! t0 = Some r0 /\ t_id r0 = id0 /\ sid0 ∈ t_subs r0)).
    { intros mm Hmm. rewrite (c_sess _ _ _ _ C sid0 mm Hmm). split.
      - intros (t0 & r0 & H1 & H2 & H3 & H4). exists t0, r0.
        assert (t0 <> t) by congruence. rewrite !lookup_insert_ne by done. done.
      - intros (t0 & r0 & Hne & H1 & H2 & H3 & H4). rewrite lookup_insert_ne in H1 by done.
        rewrite lookup_insert_ne in H2 by done. eauto 10. }
    destruct (decide (sid0 = sid)) as [->|Hsne].
    + rewrite lookup_insert in Hm0. injection Hm0 as <-.
      destruct (decide (id0 = ids + 1)) as [->|Hidne].
      * rewrite lookup_insert. split.
        -- intros [= <-]. exists t. eexists. rewrite !lookup_insert. split; [done|]. split; [done|].
           cbn. set_solver.
        -- intros (t0 & r0 & H1 & H2 & H3 & H4). destruct (decide (t0 = t)) as [->|Hne].
           ++ by rewrite lookup_insert in H1.
           ++ rewrite lookup_insert_ne in H2 by done. destruct (c_row _ _ _ _ C t0 r0 H2) as (_ & _ & ?). lia.
      * rewrite lookup_insert_ne by done. rewrite (Hold m Hm). split.
        -- intros (t0 & r0 & _ & H). eauto.
        -- intros (t0 & r0 & H1 & H2 & H3 & H4). exists t0, r0.
           assert (t0 <> t). { intros ->. rewrite lookup_insert in H2. injection H2 as <-. by cbn in H3. }
           done.
    + rewrite lookup_insert_ne in Hm0 by done. rewrite (Hold m0 Hm0). split.
      * intros (t0 & r0 & _ & H). eauto.
      * intros (t0 & r0 & H1 & H2 & H3 & H4). exists t0, r0.
        assert (t0 <> t). { intros ->. rewrite lookup_insert in H2. injection H2 as <-. cbn in H4. set_solver. }
        done.
  - intros t0 r0 sid0 H0 Hin. destruct (decide (sid0 = sid)) as [->|Hne]; [by rewrite lookup_insert|].
    rewrite lookup_insert_ne by done.
    apply lookup_insert_Some in H0 as [[<- <-]|[Hne' H]]; [cbn in Hin; set_solver|].
    by eapply (c_attached _ _ _ _ C).
Qed.

Lemma core_join b bs rows ids sid m t r l sub b' :
  core b bs rows ids -> bs !! sid = Some m -> rows !! t = Some r ->
  b_by_topic b !! t = Some l -> b_heap b !! l = Some sub ->
  b_heap b' = <[l := set_subscribers (<[sid := sid]> (sub_subscribers sub)) sub]> (b_heap b) ->
  b_fresh b' = b_fresh b -> b_by_topic b' = b_by_topic b ->
  b_prefix b' = b_prefix b -> b_wildcard b' = b_wildcard b ->
  core b' (<[sid := <[t_id r := l]> m]> bs)
    (<[t := TopicRow (t_id r) (t_policy r) ({[sid]} ∪ t_subs r) (t_indexed r)]> rows) ids.
Proof.
  intros C Hm Hr Hl Hh E1 E2 E3 E4 E5.
  destruct (c_topic _ _ _ _ C t l Hl) as (sub' & r' & Hh' & Hr' & Rp & Hfr).
  assert (sub' = sub) as -> by congruence. assert (r' = r) as -> by congruence. clear Hh' Hr'.
  assert (Hlt : forall t0, b_by_topic b !! t0 = Some l -> t0 = t).
  { intros t0 H0. destruct (c_topic _ _ _ _ C t0 l H0) as (sub0 & ? & Hh0 & _ & Rp0 & _).
    assert (sub0 = sub) as -> by congruence.
    by rewrite <- (rp_topic _ _ _ Rp0), <- (rp_topic _ _ _ Rp). }
  set (r2 := TopicRow (t_id r) (t_policy r) ({[sid]} ∪ t_subs r) (t_indexed r)).
  constructor.
  - intros t0 l0. rewrite E1, E2, E3. intros H. destruct (decide (t0 = t)) as [->|Hne].
    + assert (l0 = l) as -> by congruence. rewrite !lookup_insert. eexists _, _.
      split; [done|]. split; [done|]. split; [|done]. constructor; cbn; try apply Rp.
      intros k v. rewrite lookup_insert_Some, (rp_subs _ _ _ Rp).
      destruct (decide (k = sid)); set_solver.
    + rewrite !lookup_insert_ne by (congruence || (intros ->; by apply Hne, Hlt)). by apply (c_topic _ _ _ _ C).
  - intros t0 r0. rewrite E3. intros [[<- <-]|[Hne H]]%lookup_insert_Some; [|by apply (c_row _ _ _ _ C)].
    destruct (c_row _ _ _ _ C t r Hr) as (? & ? & ?). split; [done|]. split; [cbn; set_solver|done].
  - assert (HH : forall tx rx, <[t := r2]> rows !! tx = Some rx -> exists ry, rows !! tx = Some ry /\ t_id ry = t_id rx).
    { intros tx rx [[<- <-]|[_ H]]%lookup_insert_Some; eauto. }
    intros t1 t2 ra rb (r1 & ? & Ha)%HH (r3 & ? & Hb)%HH He. eapply (c_ids _ _ _ _ C); [done..|]. congruence.
  - intros t0 l0. rewrite E3, E4, (c_pre _ _ _ _ C). destruct (decide (t0 = t)) as [->|Hne].
    + rewrite lookup_insert. split; intros (? & r0 & H & ? & ?); (split; [done|]).
      * assert (r0 = r) as -> by congruence. by exists r2.
      * injection H as <-. by exists r.
    + by rewrite lookup_insert_ne.
  - intros t0 l0. rewrite E3, E5, (c_wc _ _ _ _ C). destruct (decide (t0 = t)) as [->|Hne].
    + rewrite lookup_insert. split; intros (? & r0 & H & ? & ?); (split; [done|]).
      * assert (r0 = r) as -> by congruence. by exists r2.
      * injection H as <-. by exists r.
    + by rewrite lookup_insert_ne.
  - intros sid0 m0 Hm0 id0 l0. rewrite E3.
    destruct (decide (sid0 = sid)) as [->|Hsne].
    + rewrite lookup_insert in Hm0. injection Hm0 as <-.
      destruct (decide (id0 = t_id r)) as [->|Hidne].
      * rewrite lookup_insert. split.
        -- intros [= <-]. exists t, r2. rewrite lookup_insert. split; [done|]. split; [done|]. cbn. set_solver.
        -- intros (t0 & r0 & H1 & H2 & H3 & H4).
           assert (t0 = t) as ->; [|congruence].
           apply lookup_insert_Some in H2 as [[<- _]|[_ H2]]; [done|]. eapply (c_ids _ _ _ _ C); eauto.
      * rewrite lookup_insert_ne by done. rewrite (c_sess _ _ _ _ C sid m Hm). split.
        -- intros (t0 & r0 & H1 & H2 & H3 & H4). exists t0, r0.
           rewrite lookup_insert_ne by (intros ->; congruence). done.
        -- intros (t0 & r0 & H1 & H2 & H3 & H4). exists t0, r0.
           apply lookup_insert_Some in H2 as [[<- <-]|[_ H2]]; [by cbn in H3|done].
    + rewrite lookup_insert_ne in Hm0 by done. rewrite (c_sess _ _ _ _ C sid0 m0 Hm0). split.
      * intros (t0 & r0 & H1 & H2 & H3 & H4). exists t0.
        destruct (decide (t0 = t)) as [->|Hne].
        -- assert (r0 = r) as -> by congruence. exists r2. rewrite lookup_insert. split; [done|]. split; [done|].
           cbn. set_solver.
        -- exists r0. by rewrite lookup_insert_ne.
      * intros (t0 & r0 & H1 & H2 & H3 & H4).
        apply lookup_insert_Some in H2 as [[<- <-]|[_ H2]]; [|eauto 10].
        exists t, r. cbn in *. set_solver.
  - intros t0 r0 sid0 H0 Hin. destruct (decide (sid0 = sid)) as [->|Hne]; [by rewrite lookup_insert|].
    rewrite lookup_insert_ne by done.
    apply lookup_insert_Some in H0 as [[<- <-]|[Hne' H]]; [|by eapply (c_attached _ _ _ _ C)].
    eapply (c_attached _ _ _ _ C); [done|]. cbn in Hin. set_solver.
Qed.

(** * One step *)

Lemma refines_attached b s sid : refines b s ->
  (b_by_session b !! sid = None <-> tb_sessions s !! sid = None).
Proof.
  intros R. rewrite !eq_None_not_Some, (rf_dom _ _ R), (rf_sessions _ _ R). done.
Qed.
Lemma refines_attached_some b s sid m : refines b s -> b_by_session b !! sid = Some m ->
  is_Some (tb_sessions s !! sid).
Proof. intros R H. rewrite <- (rf_sessions _ _ R). apply (rf_dom _ _ R). by eexists. Qed.

Lemma refines_empty : refines new_broker empty_table.
Proof.
  constructor; try done; [|intros sid; split; intros []; done].
  constructor; cbn; try done; intros t l; (split; [done|intros []; done]).
Qed.

Lemma step_refines o b s op : refines b s -> tb_ids s < two53 ->
  exists b' out s', bstep o b op = Ret b' out /\ tstep s op out s' /\ refines b' s'
    /\ tb_ids s' <= tb_ids s + 1.
Proof.
  intros R Hids. pose proof (rf_core _ _ R) as C.
  destruct op as [d|sid|t|x|sid m|sid p]; cbn [bstep].
  - unfold b_add_session. destruct (b_by_session b !! se_id d) as [m|] eqn:E.
    + eexists _, _, _. split; [done|]. split; [apply ts_add_err; by eapply refines_attached_some|]. split; [done|lia].
    + eexists _, _, _. split; [done|].
      split; [apply ts_add; by apply (refines_attached _ _ _ R)|]. split; [|cbn; lia].
      constructor; cbn; try apply R.
      * apply (core_ext b); try done. cbn. constructor; try apply C.
        -- intros sid0 m0 [[<- <-]|[Hne Hm]]%lookup_insert_Some; [|by apply (c_sess _ _ _ _ C)].
           intros id l. rewrite lookup_empty. split; [done|]. intros (t & r & _ & Hr & _ & Hin).
           destruct (c_attached _ _ _ _ C t r _ Hr Hin). congruence.
        -- intros t r sid0 Hr Hin. destruct (c_attached _ _ _ _ C t r _ Hr Hin) as [m Hm].
           rewrite lookup_insert_ne by congruence. eauto.
      * by rewrite (rf_sessions _ _ R).
      * intros sid0. destruct (decide (sid0 = se_id d)) as [->|Hne]; [rewrite !lookup_insert; split; by eexists|].
        rewrite !lookup_insert_ne by done. apply R.
      * intros sid0 d0 [[<- <-]|[Hne H]]%lookup_insert_Some; [done|]. by apply (rf_id _ _ R).
  - unfold b_remove_session. destruct (b_by_session b !! sid) as [subs|] eqn:E.
    + set (b0 := set_by_session (delete sid (b_by_session b)) b).
      set (L := shuf (o_first o) (map_to_list subs)).
      assert (HN : NoDup (L.*1)).
      { unfold L. rewrite (shuf_perm (o_first o) (map_to_list subs)). apply NoDup_fst_map_to_list. }
      assert (HL : list_to_map L = subs).
      { rewrite <- (list_to_map_to_list subs). apply list_to_map_proper; [done|apply shuf_perm]. }
      assert (C0 : core b0 (<[sid := list_to_map L]> (delete sid (b_by_session b))) (tb_rows s) (tb_ids s)).
      { rewrite HL, insert_delete by done. by apply (core_ext b). }
      destruct (remove_loop _ _ _ _ _ _ C0 HN) as (b1 & rows1 & Hloop & C1 & Ho & F1 & F2 & F3 & F4).
      rewrite Hloop. eexists _, _, _. split; [done|].
      split; [apply ts_remove; by eapply refines_attached_some|]. split; [|cbn; lia].
      apply core_remove in C1. rewrite delete_idemp, Ho in C1.
      constructor; cbn; rewrite ?F1, ?F2, ?F3, ?F4; cbn; try apply R.
      * by apply (core_ext b1).
      * by rewrite (rf_sessions _ _ R).
      * intros sid0. rewrite !lookup_delete_is_Some. by rewrite (rf_dom _ _ R).
      * intros sid0 d0 [_ H]%lookup_delete_Some. by apply (rf_id _ _ R).
    + eexists _, _, _. split; [done|]. split; [apply ts_remove_err; by apply (refines_attached _ _ _ R)|]. split; [done|lia].
  - eexists _, _, _. split; [done|]. split; [|split; [done|lia]]. apply ts_has.
    destruct (b_by_topic b !! t) as [l|] eqn:E.
    + destruct (c_topic _ _ _ _ C t l E) as (? & r & _ & H & _). rewrite H. split; [by eexists|done].
    + split; [done|]. intros [r Hr]. destruct (c_row _ _ _ _ C t r Hr) as ([l Hl] & _). congruence.
  - eexists _, _, _. split; [done|]. split; [apply ts_disclose|]. split; [|cbn; lia].
    constructor; cbn; try apply R; try done. by apply (core_ext b).
  - destruct m as [ | | | | | | | | |m| |m| | | | | | | | | | | |]; cbn [b_receive_message];
      try (eexists _, _, _; split; [reflexivity|]; split; [by apply ts_msg_err|split; [exact R|lia]]).
    + (* SUBSCRIBE *)
      unfold b_subscribe. destruct (b_by_session b !! sid) as [mine|] eqn:Em.
      2:{ eexists _, _, _. split; [reflexivity|]. split; [|split; [exact R|lia]].
          apply ts_msg_err. by apply (refines_attached _ _ _ R). }
      destruct (b_by_topic b !! su_topic m) as [l|] eqn:Et.
      * destruct (c_topic _ _ _ _ C _ l Et) as (sub & r & Hh & Hr & Rp & Hfr). rewrite Hh.
        cbn [sub_id set_subscribers]. rewrite (rp_id _ _ _ Rp).
        eexists _, _, _. split; [reflexivity|].
        split; [apply ts_sub_old; [by eapply refines_attached_some|done]|]. split; [|cbn; lia].
        constructor; cbn; try apply R.
        -- by eapply (core_join b).
        -- intros sid0. rewrite <- (rf_dom _ _ R sid0). destruct (decide (sid0 = sid)) as [->|Hne].
           ++ rewrite lookup_insert, Em. split; by eexists.
           ++ by rewrite lookup_insert_ne.
      * assert (tb_rows s !! su_topic m = None) as Hnr.
        { destruct (tb_rows s !! su_topic m) as [r|] eqn:E; [|done].
          destruct (c_row _ _ _ _ C _ r E) as ([l Hl] & _). congruence. }
        rewrite (rf_ids _ _ R), next_id_small by done.
        pose proof (requested_policy_str (su_options m)) as Hpol. cbn zeta in Hpol |- *.
        eexists _, _, _. split; [reflexivity|].
        split; [apply ts_sub_new; [by eapply refines_attached_some|done]|]. split; [|cbn; lia].
        assert (Hdom : forall l sid0, is_Some (<[sid := <[tb_ids s + 1 := l]> mine]> (b_by_session b) !! sid0)
                   <-> is_Some (b_sessions b !! sid0)).
        { intros l sid0. rewrite <- (rf_dom _ _ R sid0). destruct (decide (sid0 = sid)) as [->|Hne].
          - rewrite lookup_insert, Em. split; by eexists.
          - by rewrite lookup_insert_ne. }
        set (mt := to_string (mget (su_options m) opt_match)) in *. clearbody mt.
        assert (Hcase : (String.eqb mt match_prefix, String.eqb mt match_wildcard) =
                 match requested_policy (su_options m) with
                 | PExact => (false, false) | PPrefix => (true, false) | PWildcard => (false, true) end).
        { destruct (String.eqb mt match_prefix) eqn:Ea, (String.eqb mt match_wildcard) eqn:Eb;
            rewrite ?String.eqb_eq in *; clear -Ea Eb Hpol; try congruence;
            destruct (requested_policy (su_options m)); cbn in Hpol; subst; done. }
        rewrite <- Hpol.
        destruct (requested_policy (su_options m)) eqn:Ep; injection Hcase as Ha Hb; rewrite ?Ha, ?Hb;
          (constructor; cbn; try apply R; try done; try apply Hdom; eapply (core_new_row b); try done).
    + (* UNSUBSCRIBE *)
      unfold b_unsubscribe. destruct (b_by_session b !! sid) as [mine|] eqn:Em.
      2:{ eexists _, _, _. split; [reflexivity|]. split; [|split; [exact R|lia]].
          apply ts_msg_err. left. by apply (refines_attached _ _ _ R). }
      destruct (mine !! us_subscription m) as [l|] eqn:El.
      2:{ eexists _, _, _. split; [reflexivity|]. split; [|split; [exact R|lia]].
          apply ts_msg_err. right. intros t r Hr Hi Hin.
          destruct (c_row _ _ _ _ C t r Hr) as ([l Hl] & _).
          assert (mine !! us_subscription m = Some l); [|congruence].
          apply (c_sess _ _ _ _ C sid mine Em). eauto 10. }
      destruct (core_drop _ _ _ _ _ _ _ _ C Em El) as (t & sub & r & Hh & Ht & Hr & Htop & Hsid & Hrid & Hin & C').
      rewrite Hh. eexists _, _, _. split; [reflexivity|].
      split; [eapply ts_unsub; [by eapply refines_attached_some|done..]|]. split; [|cbn; lia].
      fold (drop_b sid l sub b).
      destruct (drop_b_fields sid l sub b) as (_ & _ & _ & _ & _ & F1 & F2 & F3 & F4).
      cbn [sub_id set_subscribers]. rewrite Hsid.
      constructor; cbn; rewrite ?F1, ?F2, ?F3, ?F4; try apply R.
      * by apply (core_ext (drop_b sid l sub b)).
      * intros sid0. rewrite <- (rf_dom _ _ R sid0). destruct (decide (sid0 = sid)) as [->|Hne].
        -- rewrite lookup_insert, Em. split; by eexists.
        -- by rewrite lookup_insert_ne.
  - unfold b_receive_publish. destruct (b_by_session b !! sid) as [mine|] eqn:Em.
    2:{ eexists _, _, _. split; [reflexivity|]. split; [|split; [exact R|lia]].
        apply ts_pub_err. by apply (refines_attached _ _ _ R). }
    rewrite (rf_ids _ _ R), next_id_small by done. cbn zeta.
    destruct (refines_attached_some _ _ _ _ R Em) as [pub Hpub].
    assert (R' : refines (set_bidgen (tb_ids s + 1) b)
              (Table (tb_rows s) (tb_sessions s) (tb_disclose s) (tb_ids s + 1))).
    { constructor; cbn; try apply R; try done. apply (core_ext b); try done. eapply core_ids; [|exact C]. lia. }
    pose proof (find_spec o _ _ _ _ (pu_topic p) (rf_core _ _ R')) as Hf. cbn [tb_rows] in Hf.
    set (b1 := set_bidgen (tb_ids s + 1) b) in *.
    destruct (b_find o b1 (pu_topic p)) as [l|].
    + destruct Hf as (t & sub & r & Hh & Rp & Hs). rewrite Hh.
      assert (Hrow : tb_rows s !! t = Some r) by (by destruct Hs as [|? ? ? []|? ? ? ? []]).
      assert (sub_subscribers sub <> ∅) as Hne.
      { rewrite (repr_empty _ _ _ Rp). apply (c_row _ _ _ _ C t r Hrow). }
      rewrite decide_False by done.
      set (rs := map snd _).
      assert (Hnd : NoDup rs /\ forall x, x ∈ rs <-> x ∈ t_subs r).
      { assert (Hrs : forall k v, (k, v) ∈ shuf (o_second o) (map_to_list (sub_subscribers sub)) <-> k ∈ t_subs r /\ v = k).
        { intros k v. rewrite elem_of_shuf, elem_of_map_to_list. apply Rp. }
        assert (rs = map fst (shuf (o_second o) (map_to_list (sub_subscribers sub)))) as E.
        { apply map_ext_in. intros [k v] Hin%elem_of_list_In. by apply Hrs in Hin as [_ ->]. }
        split.
        - rewrite E. change (NoDup ((shuf (o_second o) (map_to_list (sub_subscribers sub))).*1)).
          rewrite (shuf_perm (o_second o) (map_to_list (sub_subscribers sub))). apply NoDup_fst_map_to_list.
        - intros x. unfold rs. rewrite elem_of_list_In, in_map_iff. split.
          + intros ([k v] & <- & Hin%elem_of_list_In). by apply Hrs in Hin as [? ->].
          + intros Hx. exists (x, x). split; [done|]. apply elem_of_list_In. by apply Hrs. }
      destruct Hnd as [Hnd Hrs].
      assert (Hd : b_details b1 = tb_disclose s) by apply R. rewrite Hd.
      assert (Hss : b_sessions b1 !! sid = Some pub) by (cbn; by rewrite (rf_sessions _ _ R)). rewrite Hss.
      pose proof (ts_pub s sid p pub t r rs Hpub Hs Hnd Hrs) as HT.
      rewrite (rp_id _ _ _ Rp).
      unfold event_details in HT. destruct (tb_disclose s); (eexists _, _, _; split; [reflexivity|]; split; [exact HT|]; split; [exact R'|cbn; lia]).
    + eexists _, _, _. split; [reflexivity|]. split; [apply ts_pub_none; [by eexists|exact Hf]|].
      split; [exact R'|cbn; lia].
Qed.
