(** The ids a router puts into messages are ids. *)
From Verif Require Import Prelude Value Msg IdGen Types PathMatch Broker Dealer Session Network.
From Verif Require Import WireSpec MsgSpec NetworkSpec NetworkWire WireFacts.

Local Open Scope string_scope.
Local Open Scope list_scope.
Local Open Scope N_scope.

Definition small (n : N) : Prop := (Z.of_N n < two64)%Z.
Record bok (b : broker) : Prop := {
  bok_gen : b_idgen b <= max_id;
  bok_sub : forall l s, b_heap b !! l = Some s -> small (sub_id s) }.
Record dok (d : dealer) : Prop := {
  dok_gen : d_idgen d <= max_id;
  dok_reg : forall l g, d_heap d !! l = Some g -> small (g_id g);
  dok_pend : forall i p, d_pending d !! i = Some p -> small (pe_request p);
  dok_inv : forall k i, d_inv d !! k = Some i -> small i }.
Definition out_ok (a : message * N) : Prop := msg_ok (fst a) /\ wireable (fst a).

Lemma next_id_le c : c <= max_id -> next_id c <= max_id.
Proof. unfold next_id. destruct (N.eqb_spec c max_id); unfold max_id, two53 in *; lia. Qed.
Lemma next_id_small c : c <= max_id -> small (next_id c).
Proof. intros H%next_id_le. unfold small, two64, max_id, two53 in *. lia. Qed.

Lemma bok_same b b' : b_idgen b' = b_idgen b -> b_heap b' = b_heap b -> bok b -> bok b'.
Proof. intros E1 E2 [H1 H2]. split; rewrite ?E1, ?E2; done. Qed.
Lemma bok_heap b b' l s : b_idgen b' = b_idgen b -> b_heap b' = <[l := s]> (b_heap b) -> small (sub_id s) ->
  bok b -> bok b'.
Proof.
  intros E1 E2 Hs [H1 H2]. split; rewrite ?E1, ?E2; [done|].
  intros l' s'. rewrite lookup_insert_Some. intros [[<- <-]|[_ ?]]; [done|by eapply H2].
Qed.

Lemma bok_remove_loop id ls b b' : b_remove_loop id b ls = Ret b' () -> bok b -> bok b'.
Proof.
  revert b. induction ls as [|l ls IH]; intros b H Hb; cbn in H; [by injection H as <-|].
  destruct (b_remove_body id b l) as [b1 []|] eqn:E; [|done]. apply (IH b1); [done|].
  clear IH H. unfold b_remove_body in E.
  destruct (b_heap b !! l) as [v|]; [|done]. destruct (b_by_topic b !! _) as [l'|]; [|done].
  destruct (b_heap b !! l') as [s|] eqn:Es; [|done]. injection E as <-.
  eapply (bok_heap b _ l'); [| | |done].
  - repeat case_match; done.
  - repeat case_match; reflexivity.
  - cbn. by eapply bok_sub.
Qed.
Lemma bok_step o b op b' r : bstep o b op = Ret b' r -> bok b -> bok b'.
Proof.
  intros H Hb. destruct op as [s|id|t|x|sid m|sid p]; cbn [bstep] in H.
  - unfold b_add_session in H. repeat case_match; injection H as <- _; try done; by apply (bok_same b).
  - unfold b_remove_session in H. destruct (b_by_session b !! id); [|by injection H as <- _].
    destruct (b_remove_loop _ _ _) as [b1 []|] eqn:E; [|done]. injection H as <- _.
    eapply bok_same; [| |eapply bok_remove_loop; [exact E|]]; [done..|]. by apply (bok_same b).
  - by injection H as <- _.
  - injection H as <- _. by apply (bok_same b).
  - destruct m; cbn [b_receive_message] in H; try (injection H as <- _; done).
    + unfold b_subscribe in H. destruct (b_by_session b !! sid); [|by injection H as <- _].
      destruct (b_by_topic b !! _) as [l|].
      * destruct (b_heap b !! l) as [s|] eqn:Es; [|done]. injection H as <- _.
        eapply (bok_heap b _ l); [done|reflexivity| |done]. cbn. by eapply bok_sub.
      * injection H as <- _. split.
        { repeat case_match; cbn; by apply next_id_le, bok_gen. }
        intros l' s' Hl'. assert (exists mt, <[b_fresh b := Subscription (next_id (b_idgen b)) (su_topic m) {[sid := sid]} mt]>
          (b_heap b) !! l' = Some s') as [mt Hs].
        { revert Hl'. repeat case_match; intros Hl'; eexists; exact Hl'. }
        apply lookup_insert_Some in Hs as [[<- <-]|[_ ?]]; [|by eapply bok_sub].
        cbn. by apply next_id_small, bok_gen.
    + unfold b_unsubscribe in H. destruct (b_by_session b !! sid) as [mine|]; [|by injection H as <- _].
      destruct (mine !! _) as [l|]; [|by injection H as <- _].
      destruct (b_heap b !! l) as [s|] eqn:Es; [|done]. injection H as <- _.
      eapply (bok_heap b _ l); [| | |done].
      * repeat case_match; done.
      * repeat case_match; reflexivity.
      * cbn. by eapply bok_sub.
  - unfold b_receive_publish in H. destruct (b_by_session b !! sid); [|by injection H as <- _].
    assert (bok (set_bidgen (next_id (b_idgen b)) b)) as Hb'.
    { split; [by apply next_id_le, bok_gen|]. exact (bok_sub b Hb). }
    repeat (case_match; try discriminate); injection H as <- _; exact Hb'.
Qed.

Lemma dok_same d d' : d_idgen d' = d_idgen d -> d_heap d' = d_heap d -> d_pending d' = d_pending d ->
  d_inv d' = d_inv d -> dok d -> dok d'.
Proof. intros E1 E2 E3 E4 [H1 H2 H3 H4]. split; rewrite ?E1, ?E2, ?E3, ?E4; done. Qed.
Lemma dok_heap d d' l g : d_idgen d' = d_idgen d -> d_heap d' = <[l := g]> (d_heap d) -> d_pending d' = d_pending d ->
  d_inv d' = d_inv d -> small (g_id g) -> dok d -> dok d'.
Proof.
  intros E1 E2 E3 E4 Hg [H1 H2 H3 H4]. split; rewrite ?E1, ?E2, ?E3, ?E4; try done.
  intros l' g'. rewrite lookup_insert_Some. intros [[<- <-]|[_ ?]]; [done|by eapply H2].
Qed.
Lemma dok_unpend i d : dok d -> dok (dset_pending (delete i (d_pending d)) d).
Proof.
  intros [H1 H2 H3 H4]. split; try done. cbn. intros j p. rewrite lookup_delete_Some. intros [_ ?]. by eapply H3.
Qed.
Lemma dok_remove_loop id ls d d' : d_remove_loop id d ls = Ret d' () -> dok d -> dok d'.
Proof.
  revert d. induction ls as [|l ls IH]; intros d H Hd; cbn in H; [by injection H as <-|].
  destruct (d_remove_body id d l) as [d1 []|] eqn:E; [|done]. apply (IH d1); [done|].
  clear IH H. unfold d_remove_body in E.
  destruct (d_heap d !! l) as [v|]; [|done]. destruct (d_by_proc d !! _) as [l'|]; [|by injection E as <-].
  destruct (d_heap d !! l') as [g|] eqn:Eg; [|done]. destruct (drop_callee _ _) as [cs|]; [|done]. injection E as <-.
  eapply (dok_heap d _ l' (set_callees cs (set_regs (delete id (g_regs g)) g))); [| | | | |done].
  - repeat case_match; done.
  - repeat case_match; reflexivity.
  - repeat case_match; done.
  - repeat case_match; done.
  - cbn. by eapply dok_reg.
Qed.

Lemma call_ok o d sid c d' r : d_call o d sid c = Ret d' r -> small (ca_request c) -> dok d ->
  dok d' /\ (forall a to, r = DMsg a to -> out_ok (a, to)).
Proof.
  intros H Hc Hd. unfold d_call in H.
  assert (out_ok (MError (new_error tCall (ca_request c) (Some []) "wamp.error.no_such_procedure" None None), sid)) as Href.
  { split; [|done]. cbn. repeat constructor; done. }
  destruct (d_find _ _ _) as [l|]; [|injection H as <- <-; split; [done|]; by intros ?? [= <- <-]].
  destruct (d_heap d !! l) as [g|] eqn:Eg; [|done].
  destruct (decide _); [injection H as <- <-; split; [done|]; by intros ?? [= <- <-]|].
  destruct (d_pick o g) as [[callee nx]|]; [|done].
  destruct (d_allocate _ sid c callee) as [d1 inv] eqn:Ea.
  assert (dok d1 /\ small inv) as [Hd1 Hinv].
  { assert (dok (dset_heap (<[l := set_next nx g]> (d_heap d)) d)) as Hd0.
    { eapply (dok_heap d _ l); [done..| |done]. cbn. by eapply dok_reg. }
    unfold d_allocate in Ea.
    set (d0 := dset_heap (<[l := set_next nx g]> (d_heap d)) d) in *. clearbody d0.
    assert (forall p, pe_request p = ca_request c ->
      dok (dset_inv (<[(sid, ca_request c) := next_id (d_idgen d0)]> (d_inv d0))
            (dset_pending (<[next_id (d_idgen d0) := p]> (d_pending d0)) (dset_idgen (next_id (d_idgen d0)) d0)))
      /\ small (next_id (d_idgen d0))) as Hf.
    { intros p Hp. assert (small (next_id (d_idgen d0))) as Hs by by apply next_id_small, dok_gen.
      split; [|done]. destruct Hd0 as [H1 H2 H3 H4]. split; cbn.
      - by apply next_id_le.
      - done.
      - intros i q. rewrite lookup_insert_Some. intros [[<- <-]|[_ ?]]; [by rewrite Hp|by eapply H3].
      - intros k i. rewrite lookup_insert_Some. intros [[<- <-]|[_ ?]]; [done|by eapply H4]. }
    destruct (d_inv d0 !! (sid, ca_request c)) as [i|] eqn:Ei.
    - destruct (bool_opt (ca_options c) o_progress).
      + injection Ea as <- <-. split; [done|by eapply dok_inv].
      + injection Ea as <- <-. apply Hf. done.
    - injection Ea as <- <-. apply Hf. done. }
  assert (forall dt, d_send d1 c inv (g_id g) dt callee = Ret d' r ->
    dok d' /\ (forall a to, r = DMsg a to -> out_ok (a, to))) as Hsend.
  { intros dt. unfold d_send. destruct (d_sessions d1 !! callee) as [s|]; [|intros [= <- <-]; done].
    intros [= <- <-]. split; [done|]. intros a to [= <- <-]. split; [|done].
    assert (small (g_id g)) by exact (dok_reg d Hd _ _ Eg). cbn -[andb].
    destruct (_ && _); repeat constructor; done. }
  destruct (d_details d1); [destruct (d_sessions d1 !! sid); [|done]|]; by eapply Hsend.
Qed.

Lemma fields_ok m : msg_ok m -> wireable m -> Forall fld_ok (msg_fields m).
Proof. by destruct m. Qed.

Lemma dok_step o d sid m d' r : d_receive_message o d sid m = Ret d' r -> msg_ok m -> dok d ->
  dok d' /\ (forall a to, r = DMsg a to -> out_ok (a, to)).
Proof.
  intros H Hm Hd. destruct m; cbn [d_receive_message] in H; try (injection H as <- <-; split; [done|]; by intros).
  - (* ERROR *)
    unfold d_error in H. destruct (negb _); [by injection H as <- <-|].
    destruct (d_pending d !! _) as [p|] eqn:Ep; [|by injection H as <- <-]. injection H as <- <-.
    split; [by apply dok_unpend|]. intros a to [= <- <-]. split; [|done].
    cbn. repeat constructor; [|by destruct (er_details m)]. by eapply dok_pend.
  - (* CALL *)
    eapply call_ok; [done| |done]. cbn in Hm. by inversion Hm.
  - (* REGISTER *)
    unfold d_register in H. destruct (d_by_session d !! sid) as [mine|]; [|by injection H as <- <-].
    assert (small (rg_request m)) as Hr by (cbn in Hm; by inversion Hm).
    destruct (d_by_proc d !! _) as [l|].
    + destruct (d_heap d !! l) as [g|] eqn:Eg; [|done].
      destruct (_ || _).
      * injection H as <- <-. split; [done|]. intros a to [= <- <-]. split; [|done]. cbn. repeat constructor; done.
      * injection H as <- <-. split.
        { eapply (dok_heap d _ l (set_callees (g_callees g ++ [sid]) (set_regs (<[sid := sid]> (g_regs g)) g))); [done..| |done].
          cbn. by eapply dok_reg. }
        intros a to [= <- <-]. split; [|done]. assert (small (g_id g)) by by eapply dok_reg. cbn. repeat constructor; done.
    + assert (small (next_id (d_idgen d))) as Hn by by apply next_id_small, dok_gen.
      injection H as <- <-. split.
      * destruct Hd as [H1 H2 H3 H4]. split.
        -- repeat case_match; cbn; by apply next_id_le.
        -- intros l' g' Hl'. assert (exists mt, <[d_fresh d := Registration (next_id (d_idgen d)) (rg_procedure m) {[sid := sid]}
             (to_string (mget (rg_options m) o_invoke)) 0 [sid] mt]> (d_heap d) !! l' = Some g') as [mt Hs].
           { revert Hl'. repeat case_match; intros Hl'; eexists; exact Hl'. }
           apply lookup_insert_Some in Hs as [[<- <-]|[_ ?]]; [done|by eapply H2].
        -- repeat case_match; done.
        -- repeat case_match; done.
      * intros a to [= <- <-]. split; [|done]. cbn. repeat constructor; done.
  - (* UNREGISTER *)
    unfold d_unregister in H. destruct (d_by_session d !! sid) as [mine|]; [|by injection H as <- <-].
    destruct (decide _); [by injection H as <- <-|].
    destruct (mine !! _) as [l|]; [|done]. destruct (d_heap d !! l) as [g|] eqn:Eg; [|done]. injection H as <- <-.
    split.
    + eapply (dok_heap d _ l (set_regs (delete sid (g_regs g)) g)); [| | | | |done].
      * repeat case_match; done.
      * repeat case_match; reflexivity.
      * repeat case_match; done.
      * repeat case_match; done.
      * cbn. by eapply dok_reg.
    + intros a to [= <- <-]. split; [|done]. cbn in *. inversion Hm; subst. repeat constructor; done.
  - (* YIELD *)
    unfold d_yield in H. destruct (d_pending d !! _) as [p|] eqn:Ep; [|by injection H as <- <-].
    assert (small (pe_request p)) as Hp by by eapply dok_pend.
    set (more := pe_receive p && _) in *. clearbody more.
    assert (dok (if more then d else dset_pending (delete (yi_request m) (d_pending d)) d)) as Hd'.
    { destruct more; [done|by apply dok_unpend]. }
    destruct (d_sessions _ !! pe_caller p) as [s|]; injection H as <- <-; (split; [done|]); [|done].
    intros a to [= <- <-]. split; [|done].
    destruct (_ && _), more; cbn; repeat constructor; done.
Qed.

Lemma answers_ok o c m b d b' d' outs : answers o c m b d = Ret (b', d') outs -> msg_ok m -> bok b -> dok d ->
  bok b' /\ dok d' /\ Forall out_ok outs.
Proof.
  intros H Hm Hb Hd.
  assert (forall r b1, bstep o b (BReceive c m) = Ret b1 r -> forall a to, r = BMsg a to -> out_ok (a, to)) as Hbo.
  { intros r b1 E a to ->. cbn [bstep] in E. destruct m; cbn [b_receive_message] in E; try done.
    - unfold b_subscribe in E. assert (small (su_request m)) as Hr by (cbn in Hm; by inversion Hm).
      destruct (b_by_session b !! c); [|done]. destruct (b_by_topic b !! _) as [l|].
      + destruct (b_heap b !! l) as [s|] eqn:Es; [|done]. injection E as _ <- <-. split; [|done].
        assert (small (sub_id s)) by by eapply bok_sub. cbn. repeat constructor; done.
      + assert (small (next_id (b_idgen b))) as Hn by by apply next_id_small, bok_gen.
        injection E as _ <- <-. split; [|done]. cbn. repeat constructor; done.
    - unfold b_unsubscribe in E. destruct (b_by_session b !! c) as [mine|]; [|done].
      destruct (mine !! _) as [l|]; [|done]. destruct (b_heap b !! l); [|done]. injection E as _ <- <-.
      split; [|done]. cbn in *. inversion Hm; subst. repeat constructor; done. }
  assert (forall r b1 p, m = MPublish p -> bstep o b (BPublish c p) = Ret b1 r -> forall ev rs ack, r = BPubl ev rs ack ->
    Forall out_ok (match ev with Some e => map (fun r => (MEvent e, r)) rs | None => [] end
                      ++ match ack with Some a => [a] | None => [] end)) as Hpo.
  { intros r b1 p -> E ev rs ack ->. cbn [bstep] in E. unfold b_receive_publish in E.
    destruct (b_by_session b !! c); [|done].
    assert (small (next_id (b_idgen b))) as Hn by by apply next_id_small, bok_gen.
    assert (small (pu_request p)) as Hr by (cbn in Hm; by inversion Hm).
    set (ak := match mget (pu_options p) opt_acknowledge with VBool true => _ | _ => None end) in E.
    assert (Forall out_ok match ak with Some a => [a] | None => [] end) as Hak.
    { subst ak. destruct (mget _ _) as [|[]| | | | | | | | |]; try constructor; [|constructor]. split; [|done].
      cbn. repeat constructor; done. }
    clearbody ak.
    assert (forall s l dt rs, b_heap (set_bidgen (next_id (b_idgen b)) b) !! l = Some s ->
      Forall out_ok (map (fun r : N => (MEvent (new_event (sub_id s) (next_id (b_idgen b)) (Some dt) (pu_args p) (pu_kwargs p)), r)) rs)) as Hev.
    { intros s l dt rs' Es. assert (small (sub_id s)) by by eapply bok_sub. apply Forall_map.
      apply Forall_true. intros x. split; [|done]. cbn. repeat constructor; done. }
    destruct (b_find _ _ _) as [l|]; [|by injection E as _ <- <- <-].
    destruct (b_heap _ !! l) as [s|] eqn:Es; [|done].
    destruct (decide _); [by injection E as _ <- <- <-|].
    destruct (b_details _); [destruct (b_sessions _ !! c); [|done]|]; injection E as _ <- <- <-;
      apply Forall_app; (split; [by eapply Hev|done]). }
  destruct m; cbn [answers] in H; try (injection H as <- <- <-; done).
  - destruct (dstep _ _ _) as [d1 r|] eqn:E; [|done]. destruct (dok_step _ _ _ _ _ _ E Hm Hd) as [Hd1 Ho].
    destruct r; injection H as <- <- <-; (split; [done|split; [done|]]); constructor; [by apply Ho|constructor].
  - destruct (bstep _ _ _) as [b1 r|] eqn:E; [|done].
    assert (bok b1) by by eapply bok_step. specialize (Hpo _ _ _ eq_refl E).
    destruct r; injection H as <- <- <-; (split; [done|split; [done|]]); try constructor. by apply Hpo.
  - destruct (bstep _ _ _) as [b1 r|] eqn:E; [|done].
    assert (bok b1) by by eapply bok_step. specialize (Hbo _ _ eq_refl).
    destruct r; injection H as <- <- <-; (split; [done|split; [done|]]); constructor; [by apply Hbo|constructor].
  - destruct (bstep _ _ _) as [b1 r|] eqn:E; [|done].
    assert (bok b1) by by eapply bok_step. specialize (Hbo _ _ eq_refl).
    destruct r; injection H as <- <- <-; (split; [done|split; [done|]]); constructor; [by apply Hbo|constructor].
  - destruct (dstep _ _ _) as [d1 r|] eqn:E; [|done]. destruct (dok_step _ _ _ _ _ _ E Hm Hd) as [Hd1 Ho].
    destruct r; injection H as <- <- <-; (split; [done|split; [done|]]); constructor; [by apply Ho|constructor].
  - destruct (dstep _ _ _) as [d1 r|] eqn:E; [|done]. destruct (dok_step _ _ _ _ _ _ E Hm Hd) as [Hd1 Ho].
    destruct r; injection H as <- <- <-; (split; [done|split; [done|]]); constructor; [by apply Ho|constructor].
  - destruct (dstep _ _ _) as [d1 r|] eqn:E; [|done]. destruct (dok_step _ _ _ _ _ _ E Hm Hd) as [Hd1 Ho].
    destruct r; injection H as <- <- <-; (split; [done|split; [done|]]); constructor; [by apply Ho|constructor].
  - destruct (dstep _ _ _) as [d1 r|] eqn:E; [|done]. destruct (dok_step _ _ _ _ _ _ E Hm Hd) as [Hd1 Ho].
    destruct r; injection H as <- <- <-; (split; [done|split; [done|]]); constructor; [by apply Ho|constructor].
Qed.
