(** No broker call panics, whatever happened before (also after the id
    generator has wrapped around, when ids may repeat). *)
From Verif Require Import Prelude Value Msg IdGen Types PathMatch Broker BrokerSpec BaseFacts TypesFacts BrokerFacts.

Record winv (b : broker) (bs : gmap N (gmap N N)) : Prop := {
  w_entry : forall sid m id l, bs !! sid = Some m -> m !! id = Some l ->
    exists sub, b_heap b !! l = Some sub /\ b_by_topic b !! sub_topic sub = Some l
      /\ is_Some (sub_subscribers sub !! sid) /\ sub_id sub = id;
  w_topic : forall t l, b_by_topic b !! t = Some l -> exists sub, b_heap b !! l = Some sub /\ sub_topic sub = t;
  w_prefix : forall t l, b_prefix b !! t = Some l -> is_Some (b_heap b !! l);
  w_wildcard : forall t l, b_wildcard b !! t = Some l -> is_Some (b_heap b !! l);
  w_fresh : forall l sub, b_heap b !! l = Some sub -> l < b_fresh b }.

Lemma winv_drop b bs sid m id l : winv b bs -> bs !! sid = Some m -> m !! id = Some l ->
  exists sub, b_heap b !! l = Some sub /\ b_by_topic b !! sub_topic sub = Some l /\ sub_id sub = id
    /\ winv (drop_b sid l sub b) (<[sid := delete id m]> bs).
Proof.
  intros W Hm Hid. destruct (w_entry _ _ W sid m id l Hm Hid) as (sub & Hh & Ht & Hs & Hsi).
  exists sub. split; [done|]. split; [done|]. split; [done|].
  destruct (drop_b_fields sid l sub b) as (E1 & E2 & E3 & E4 & E5 & _).
  set (b' := drop_b sid l sub b) in *. clearbody b'.
  set (s' := set_subscribers (delete sid (sub_subscribers sub)) sub) in *.
  assert (Hheap : forall l0, is_Some (b_heap b !! l0) -> is_Some (b_heap b' !! l0)).
  { intros l0 H. rewrite E1. apply lookup_insert_is_Some'. by right. }
  constructor.
  - intros sid0 m0 id0 l0 Hm0 Hid0.
    assert (exists mm, bs !! sid0 = Some mm /\ mm !! id0 = Some l0 /\ (sid0 = sid -> id0 <> id)) as (mm & Hmm & Hmid & Hne).
    { apply lookup_insert_Some in Hm0 as [[<- <-]|[Hne Hm0]]; [|by exists m0].
      apply lookup_delete_Some in Hid0 as [? ?]. exists m. done. }
    destruct (w_entry _ _ W sid0 mm id0 l0 Hmm Hmid) as (sub0 & Hh0 & Ht0 & Hs0 & Hi0).
    rewrite E1, E2. destruct (decide (l0 = l)) as [->|Hl].
    + assert (sub0 = sub) as -> by congruence. assert (sid0 <> sid) as Hsne by naive_solver.
      exists s'. rewrite lookup_insert. split; [done|].
      assert (is_Some (sub_subscribers s' !! sid0)) as Hin by (cbn; by rewrite lookup_delete_ne).
      rewrite decide_False; [done|]. intros He. rewrite He in Hin. by destruct Hin.
    + exists sub0. rewrite lookup_insert_ne by done. split; [done|]. split; [|done].
      assert (sub_topic sub0 <> sub_topic sub) by congruence.
      destruct (decide (sub_subscribers s' = ∅)); [|done]. by rewrite lookup_delete_ne.
  - intros t l0. rewrite E1, E2. intros H.
    assert (b_by_topic b !! t = Some l0) as H0.
    { destruct (decide (sub_subscribers s' = ∅)); [|done]. by apply lookup_delete_Some in H as [_ ?]. }
    destruct (w_topic _ _ W t l0 H0) as (sub0 & Hh0 & Ht0).
    destruct (decide (l0 = l)) as [->|Hl].
    + rewrite lookup_insert. exists s'. assert (sub0 = sub) as -> by congruence. done.
    + rewrite lookup_insert_ne by done. eauto.
  - intros t l0. rewrite E3. intros H. apply Hheap, (w_prefix _ _ W t).
    destruct (String.eqb (sub_match sub) match_prefix); [by apply lookup_delete_Some in H as [_ ?]|done].
  - intros t l0. rewrite E4. intros H. apply Hheap, (w_wildcard _ _ W t).
    destruct (String.eqb (sub_match sub) match_wildcard); [by apply lookup_delete_Some in H as [_ ?]|done].
  - intros l0 sub0. rewrite E1, E5. intros [[<- _]|[_ H]]%lookup_insert_Some; by eapply (w_fresh _ _ W).
Qed.

Lemma winv_loop b bs sid (L : list (N * N)) :
  winv b (<[sid := list_to_map L]> bs) -> NoDup (L.*1) ->
  exists b', b_remove_loop sid b (map snd L) = Ret b' () /\ winv b' (<[sid := ∅]> bs)
    /\ b_by_session b' = b_by_session b /\ b_sessions b' = b_sessions b.
Proof.
  revert b. induction L as [|[id l] L IH]; intros b W HN; cbn [map b_remove_loop snd]; [by exists b|].
  cbn in HN. apply NoDup_cons in HN as [Hnin HN].
  destruct (winv_drop b _ sid _ id l W (lookup_insert _ _ _)) as (sub & Hh & Ht & Hsi & W').
  { cbn. by rewrite lookup_insert. }
  rewrite insert_insert in W'. cbn in W'. rewrite delete_insert in W' by (by apply not_elem_of_list_to_map).
  assert (b_remove_body sid b l = Ret (drop_b sid l sub b) ()) as ->.
  { unfold b_remove_body. rewrite Hh, Ht, Hh. done. }
  destruct (IH _ W' HN) as (b' & -> & W'' & E1 & E2). exists b'.
  destruct (drop_b_fields sid l sub b) as (_ & _ & _ & _ & _ & F1 & F2 & _).
  rewrite E1, E2. done.
Qed.

Definition safe (b : broker) : Prop :=
  winv b (b_by_session b) /\ (forall sid, is_Some (b_by_session b !! sid) -> is_Some (b_sessions b !! sid)).

Lemma winv_ext b b' bs :
  b_heap b = b_heap b' -> b_fresh b = b_fresh b' -> b_by_topic b = b_by_topic b' ->
  b_prefix b = b_prefix b' -> b_wildcard b = b_wildcard b' -> winv b bs -> winv b' bs.
Proof.
  intros E1 E2 E3 E4 E5 W. constructor; rewrite <- ?E1, <- ?E2, <- ?E3, <- ?E4, <- ?E5; apply W.
Qed.

Lemma find_in_heap o b bs topic l : winv b bs -> b_find o b topic = Some l -> is_Some (b_heap b !! l).
Proof.
  intros W. unfold b_find.
  assert (Ht : forall x, b_by_topic b !! topic = Some x -> is_Some (b_heap b !! x)).
  { intros x (sub & ? & _)%(w_topic _ _ W). eauto. }
  set (u := match b_by_topic b !! topic with Some l0 => _ | None => false end). destruct u; [apply Ht|].
  destruct (if (0 <? size (b_prefix b))%nat then longest_prefix (b_prefix b) topic else None) as [x|] eqn:E.
  - intros [= <-]. destruct (0 <? size (b_prefix b))%nat; [|done].
    apply longest_prefix_spec in E as (k & _ & H & _). by eapply (w_prefix _ _ W).
  - destruct (b_by_topic b !! topic) as [x|]; [intros [= <-]; by apply Ht|].
    destruct (List.find _ _) as [[t x]|] eqn:Ef; [|done]. intros [= <-].
    apply List.find_some in Ef as [Hin _]. apply elem_of_list_In, elem_of_shuf, elem_of_map_to_list in Hin.
    by eapply (w_wildcard _ _ W).
Qed.

Lemma step_safe o b op : safe b -> exists b' out, bstep o b op = Ret b' out /\ safe b'.
Proof.
  intros [W HS]. destruct op as [d|sid|t|x|sid m|sid p]; cbn [bstep].
  - unfold b_add_session. destruct (b_by_session b !! se_id d) as [m|] eqn:E; [by eexists _, _|].
    eexists _, _. split; [done|]. split; cbn.
    + apply (winv_ext b); try done. constructor; try apply W.
      intros sid m id l [[<- <-]|[Hne Hm]]%lookup_insert_Some Hid; [by rewrite lookup_empty in Hid|].
      by eapply (w_entry _ _ W).
    + intros sid [->|H]%lookup_insert_is_Some'; apply lookup_insert_is_Some'; [by left|right; auto].
  - unfold b_remove_session. destruct (b_by_session b !! sid) as [subs|] eqn:E; [|by eexists _, _].
    set (b0 := set_by_session (delete sid (b_by_session b)) b).
    set (L := shuf (o_first o) (map_to_list subs)).
    assert (HN : NoDup (L.*1)).
    { unfold L. rewrite (shuf_perm (o_first o) (map_to_list subs)). apply NoDup_fst_map_to_list. }
    assert (HL : list_to_map L = subs).
    { rewrite <- (list_to_map_to_list subs). apply list_to_map_proper; [done|apply shuf_perm]. }
    assert (W0 : winv b0 (<[sid := list_to_map L]> (delete sid (b_by_session b)))).
    { rewrite HL, insert_delete by done. by apply (winv_ext b). }
    destruct (winv_loop _ _ _ _ W0 HN) as (b1 & -> & W1 & F1 & F2).
    eexists _, _. split; [done|]. split; cbn; rewrite F1, ?F2; cbn.
    + apply (winv_ext b1); try done. constructor; try apply W1.
      intros sid0 m id l Hm Hid. eapply (w_entry _ _ W1 sid0 m); [|done].
      apply lookup_insert_Some. right. split; [|done]. by apply lookup_delete_Some in Hm as [? _].
    + intros sid0. rewrite !lookup_delete_is_Some. naive_solver.
  - by eexists _, _.
  - eexists _, _. split; [done|]. split; [by apply (winv_ext b)|done].
  - destruct m as [ | | | | | | | | |m| |m| | | | | | | | | | | |]; cbn [b_receive_message];
      try (eexists _, _; split; [reflexivity|]; by split).
    + unfold b_subscribe. destruct (b_by_session b !! sid) as [mine|] eqn:Em; [|by eexists _, _].
      assert (HS' : forall mm sid0, is_Some (<[sid := mm]> (b_by_session b) !! sid0) -> is_Some (b_sessions b !! sid0)).
      { intros mm sid0 [<-|H]%lookup_insert_is_Some'; apply HS; [by eexists|done]. }
      destruct (b_by_topic b !! su_topic m) as [l|] eqn:Et.
      * destruct (w_topic _ _ W _ l Et) as (sub & Hh & Ht). rewrite Hh.
        eexists _, _. split; [reflexivity|]. split; [|cbn; apply HS'].
        set (s' := set_subscribers _ _).
        assert (Hheap : forall l0, is_Some (b_heap b !! l0) -> is_Some (<[l := s']> (b_heap b) !! l0)).
        { intros l0 H. apply lookup_insert_is_Some'. by right. }
        constructor; cbn.
        -- intros sid0 m0 id0 l0 Hm0 Hid0.
           assert ((sid0 = sid /\ id0 = sub_id sub /\ l0 = l) \/ exists mm, b_by_session b !! sid0 = Some mm /\ mm !! id0 = Some l0) as [(-> & -> & ->)|(mm & Hmm & Hmid)].
           { apply lookup_insert_Some in Hm0 as [[<- <-]|[Hne Hm0]]; [|right; eauto].
             apply lookup_insert_Some in Hid0 as [[<- <-]|[? ?]]; [by left|right; eauto]. }
           ++ exists s'. rewrite lookup_insert. cbn. rewrite Ht, lookup_insert. by split_and!.
           ++ destruct (w_entry _ _ W sid0 mm id0 l0 Hmm Hmid) as (sub0 & Hh0 & Ht0 & Hs0 & Hi0).
              destruct (decide (l0 = l)) as [->|Hl].
              ** assert (sub0 = sub) as -> by congruence. exists s'. rewrite lookup_insert. cbn.
                 split; [done|]. split; [done|]. split; [|done]. apply lookup_insert_is_Some'. by right.
              ** exists sub0. by rewrite lookup_insert_ne.
        -- intros t0 l0 H. destruct (w_topic _ _ W t0 l0 H) as (sub0 & Hh0 & Ht0).
           destruct (decide (l0 = l)) as [->|Hl]; [|exists sub0; by rewrite lookup_insert_ne].
           exists s'. rewrite lookup_insert. cbn. split; [done|]. congruence.
        -- intros t0 l0 H. by eapply Hheap, (w_prefix _ _ W).
        -- intros t0 l0 H. by eapply Hheap, (w_wildcard _ _ W).
        -- intros l0 sub0 [[<- _]|[_ H]]%lookup_insert_Some; by eapply (w_fresh _ _ W).
      * cbn zeta. set (mt := to_string _). set (l := b_fresh b). set (id := next_id (b_idgen b)).
        set (s' := Subscription id _ _ _).
        assert (Hnew : b_heap b !! l = None).
        { destruct (b_heap b !! l) eqn:E; [|done]. apply (w_fresh _ _ W) in E. unfold l in E. lia. }
        assert (HW : forall pre wc,
          (forall t0 l0, pre !! t0 = Some l0 -> b_prefix b !! t0 = Some l0 \/ l0 = l) ->
          (forall t0 l0, wc !! t0 = Some l0 -> b_wildcard b !! t0 = Some l0 \/ l0 = l) ->
          winv (Broker (<[l := s']> (b_heap b)) (l + 1) (<[su_topic m := l]> (b_by_topic b))
                 (<[sid := <[id := l]> mine]> (b_by_session b)) (b_sessions b) pre wc (b_details b) id)
            (<[sid := <[id := l]> mine]> (b_by_session b))).
        { intros pre wc Hpre Hwc.
          assert (Hheap : forall l0, is_Some (b_heap b !! l0) \/ l0 = l -> is_Some (<[l := s']> (b_heap b) !! l0)).
          { intros l0 H. apply lookup_insert_is_Some'. naive_solver. }
          constructor; cbn.
          - intros sid0 m0 id0 l0 Hm0 Hid0.
            assert ((sid0 = sid /\ id0 = id /\ l0 = l) \/ exists mm, b_by_session b !! sid0 = Some mm /\ mm !! id0 = Some l0) as [(-> & -> & ->)|(mm & Hmm & Hmid)].
            { apply lookup_insert_Some in Hm0 as [[<- <-]|[Hne Hm0]]; [|right; eauto].
              apply lookup_insert_Some in Hid0 as [[<- <-]|[? ?]]; [by left|right; eauto]. }
            + exists s'. rewrite lookup_insert. cbn. rewrite lookup_insert, lookup_singleton. by split_and!.
            + destruct (w_entry _ _ W sid0 mm id0 l0 Hmm Hmid) as (sub0 & Hh0 & Ht0 & Hs0 & Hi0).
              exists sub0. rewrite lookup_insert_ne by congruence. rewrite lookup_insert_ne by congruence. done.
          - intros t0 l0 [[<- <-]|[Hne H]]%lookup_insert_Some; [exists s'; by rewrite lookup_insert|].
            destruct (w_topic _ _ W t0 l0 H) as (sub0 & Hh0 & Ht0). exists sub0.
            by rewrite lookup_insert_ne by congruence.
          - intros t0 l0 [H| ->]%Hpre; apply Hheap; [left; by eapply (w_prefix _ _ W)|by right].
          - intros t0 l0 [H| ->]%Hwc; apply Hheap; [left; by eapply (w_wildcard _ _ W)|by right].
          - intros l0 sub0 [[<- _]|[_ H]]%lookup_insert_Some; [lia|].
            apply (w_fresh _ _ W) in H. unfold l. lia. }
        eexists _, _. split; [reflexivity|].
        destruct (String.eqb mt match_prefix); [|destruct (String.eqb mt match_wildcard)]; (split; [|cbn; apply HS']);
          apply HW; try (by left); cbn; intros t0 l0 [[<- <-]|[Hne H]]%lookup_insert_Some; auto.
    + unfold b_unsubscribe. destruct (b_by_session b !! sid) as [mine|] eqn:Em; [|by eexists _, _].
      destruct (mine !! us_subscription m) as [l|] eqn:El; [|by eexists _, _].
      destruct (winv_drop b _ sid mine _ l W Em El) as (sub & Hh & Ht & Hsi & W'). rewrite Hh.
      eexists _, _. split; [reflexivity|]. fold (drop_b sid l sub b).
      destruct (drop_b_fields sid l sub b) as (_ & _ & _ & _ & _ & F1 & F2 & _).
      cbn [sub_id set_subscribers]. rewrite Hsi. split; cbn; rewrite F1, ?F2.
      * by apply (winv_ext (drop_b sid l sub b)).
      * intros sid0 [<-|H]%lookup_insert_is_Some'; apply HS; [by eexists|done].
  - unfold b_receive_publish. destruct (b_by_session b !! sid) as [mine|] eqn:Em; [|by eexists _, _].
    cbn zeta. set (b1 := set_bidgen _ b). assert (S1 : safe b1).
    { split; [by apply (winv_ext b)|done]. }
    destruct (b_find o b1 (pu_topic p)) as [l|] eqn:Ef; [|by eexists _, _].
    apply (find_in_heap o b1 _ _ _ (proj1 S1)) in Ef as [sub Hsub]. rewrite Hsub.
    destruct (decide (sub_subscribers sub = ∅)); [by eexists _, _|].
    destruct (b_details b1); [|by eexists _, _].
    destruct (proj2 S1 sid) as [pub Hpub]; [by exists mine|]. rewrite Hpub. by eexists _, _.
Qed.

Lemma safe_new : safe new_broker.
Proof. split; [constructor; cbn; done|]. cbn. intros sid [x H]. discriminate H. Qed.

Lemma run_safe h b : safe b -> exists b' outs, brun b h = Ret b' outs /\ safe b' /\ length outs = length h.
Proof.
  revert b. induction h as [|[o op] h IH]; intros b S; cbn [brun]; [by eexists _, _|].
  destruct (step_safe o b op S) as (b1 & out & -> & S1). destruct (IH b1 S1) as (b2 & outs & -> & S2 & Hl).
  eexists _, _. split; [done|]. split; [done|]. cbn. by rewrite Hl.
Qed.

Lemma broker_never_panics h : exists b outs, brun new_broker h = Ret b outs /\ length outs = length h.
Proof. destruct (run_safe h new_broker safe_new) as (b & outs & H & _ & Hl). eauto. Qed.
