(** What a router makes of portable messages is portable. *)
From Verif Require Import Prelude Value Msg IdGen Types PathMatch Broker Dealer Session Network.
From Verif Require Import WireSpec MsgSpec JsonSafe Encoding AuthSpec PathMatchSpec JsonFacts BinarySpec Portable PortableFacts NetworkSpec NetworkWire.

Local Open Scope string_scope.
Local Open Scope list_scope.
Local Open Scope N_scope.

Definition low (n : N) : Prop := n <= 2 ^ 53.
Definition named (s : session_details) : Prop := portable_string (se_authid s) /\ portable_string (se_authrole s).
Record pbok (b : broker) : Prop := {
  pbok_gen : b_idgen b <= max_id;
  pbok_sub : forall l s, b_heap b !! l = Some s -> low (sub_id s) }.
Record pdok (d : dealer) : Prop := {
  pdok_gen : d_idgen d <= max_id;
  pdok_reg : forall l g, d_heap d !! l = Some g -> low (g_id g);
  pdok_pend : forall i p, d_pending d !! i = Some p -> low (pe_request p);
  pdok_inv : forall k i, d_inv d !! k = Some i -> low i }.
Definition out_ok (a : message * N) : Prop := portable_message (fst a).

Lemma next_id_le c : c <= max_id -> next_id c <= max_id.
Proof. unfold next_id. destruct (N.eqb_spec c max_id); unfold max_id, two53 in *; lia. Qed.
Lemma next_id_low c : c <= max_id -> low (next_id c).
Proof. intros H%next_id_le. unfold low, two64, max_id, two53 in *. lia. Qed.

Lemma pbok_same b b' : b_idgen b' = b_idgen b -> b_heap b' = b_heap b -> pbok b -> pbok b'.
Proof. intros E1 E2 [H1 H2]. split; rewrite ?E1, ?E2; done. Qed.
Lemma pbok_heap b b' l s : b_idgen b' = b_idgen b -> b_heap b' = <[l := s]> (b_heap b) -> low (sub_id s) ->
  pbok b -> pbok b'.
Proof.
  intros E1 E2 Hs [H1 H2]. split; rewrite ?E1, ?E2; [done|].
  intros l' s'. rewrite lookup_insert_Some. intros [[<- <-]|[_ ?]]; [done|by eapply H2].
Qed.

Lemma pbok_remove_loop id ls b b' : b_remove_loop id b ls = Ret b' () -> pbok b -> pbok b'.
Proof.
  revert b. induction ls as [|l ls IH]; intros b H Hb; cbn in H; [by injection H as <-|].
  destruct (b_remove_body id b l) as [b1 []|] eqn:E; [|done]. apply (IH b1); [done|].
  clear IH H. unfold b_remove_body in E.
  destruct (b_heap b !! l) as [v|]; [|done]. destruct (b_by_topic b !! _) as [l'|]; [|done].
  destruct (b_heap b !! l') as [s|] eqn:Es; [|done]. injection E as <-.
  eapply (pbok_heap b _ l'); [| | |done].
  - repeat case_match; done.
  - repeat case_match; reflexivity.
  - cbn. by eapply pbok_sub.
Qed.
Lemma pbok_step o b op b' r : bstep o b op = Ret b' r -> pbok b -> pbok b'.
Proof.
  intros H Hb. destruct op as [s|id|t|x|sid m|sid p]; cbn [bstep] in H.
  - unfold b_add_session in H. repeat case_match; injection H as <- _; try done; by apply (pbok_same b).
  - unfold b_remove_session in H. destruct (b_by_session b !! id); [|by injection H as <- _].
    destruct (b_remove_loop _ _ _) as [b1 []|] eqn:E; [|done]. injection H as <- _.
    eapply pbok_same; [| |eapply pbok_remove_loop; [exact E|]]; [done..|]. by apply (pbok_same b).
  - by injection H as <- _.
  - injection H as <- _. by apply (pbok_same b).
  - destruct m; cbn [b_receive_message] in H; try (injection H as <- _; done).
    + unfold b_subscribe in H. destruct (b_by_session b !! sid); [|by injection H as <- _].
      destruct (b_by_topic b !! _) as [l|].
      * destruct (b_heap b !! l) as [s|] eqn:Es; [|done]. injection H as <- _.
        eapply (pbok_heap b _ l); [done|reflexivity| |done]. cbn. by eapply pbok_sub.
      * injection H as <- _. split.
        { repeat case_match; cbn; by apply next_id_le, pbok_gen. }
        intros l' s' Hl'. assert (exists mt, <[b_fresh b := Subscription (next_id (b_idgen b)) (su_topic m) {[sid := sid]} mt]>
          (b_heap b) !! l' = Some s') as [mt Hs].
        { revert Hl'. repeat case_match; intros Hl'; eexists; exact Hl'. }
        apply lookup_insert_Some in Hs as [[<- <-]|[_ ?]]; [|by eapply pbok_sub].
        cbn. by apply next_id_low, pbok_gen.
    + unfold b_unsubscribe in H. destruct (b_by_session b !! sid) as [mine|]; [|by injection H as <- _].
      destruct (mine !! _) as [l|]; [|by injection H as <- _].
      destruct (b_heap b !! l) as [s|] eqn:Es; [|done]. injection H as <- _.
      eapply (pbok_heap b _ l); [| | |done].
      * repeat case_match; done.
      * repeat case_match; reflexivity.
      * cbn. by eapply pbok_sub.
  - unfold b_receive_publish in H. destruct (b_by_session b !! sid); [|by injection H as <- _].
    assert (pbok (set_bidgen (next_id (b_idgen b)) b)) as Hb'.
    { split; [by apply next_id_le, pbok_gen|]. exact (pbok_sub b Hb). }
    repeat (case_match; try discriminate); injection H as <- _; exact Hb'.
Qed.

Lemma pdok_same d d' : d_idgen d' = d_idgen d -> d_heap d' = d_heap d -> d_pending d' = d_pending d ->
  d_inv d' = d_inv d -> pdok d -> pdok d'.
Proof. intros E1 E2 E3 E4 [H1 H2 H3 H4]. split; rewrite ?E1, ?E2, ?E3, ?E4; done. Qed.
Lemma pdok_heap d d' l g : d_idgen d' = d_idgen d -> d_heap d' = <[l := g]> (d_heap d) -> d_pending d' = d_pending d ->
  d_inv d' = d_inv d -> low (g_id g) -> pdok d -> pdok d'.
Proof.
  intros E1 E2 E3 E4 Hg [H1 H2 H3 H4]. split; rewrite ?E1, ?E2, ?E3, ?E4; try done.
  intros l' g'. rewrite lookup_insert_Some. intros [[<- <-]|[_ ?]]; [done|by eapply H2].
Qed.
Lemma pdok_unpend i d : pdok d -> pdok (dset_pending (delete i (d_pending d)) d).
Proof.
  intros [H1 H2 H3 H4]. split; try done. cbn. intros j p. rewrite lookup_delete_Some. intros [_ ?]. by eapply H3.
Qed.
Lemma pdok_remove_loop id ls d d' : d_remove_loop id d ls = Ret d' () -> pdok d -> pdok d'.
Proof.
  revert d. induction ls as [|l ls IH]; intros d H Hd; cbn in H; [by injection H as <-|].
  destruct (d_remove_body id d l) as [d1 []|] eqn:E; [|done]. apply (IH d1); [done|].
  clear IH H. unfold d_remove_body in E.
  destruct (d_heap d !! l) as [v|]; [|done]. destruct (d_by_proc d !! _) as [l'|]; [|by injection E as <-].
  destruct (d_heap d !! l') as [g|] eqn:Eg; [|done]. destruct (drop_callee _ _) as [cs|]; [|done]. injection E as <-.
  eapply (pdok_heap d _ l' (set_callees cs (set_regs (delete id (g_regs g)) g))); [| | | | |done].
  - repeat case_match; done.
  - repeat case_match; reflexivity.
  - repeat case_match; done.
  - repeat case_match; done.
  - cbn. by eapply pdok_reg.
Qed.


(** * Who is there *)
Definition bnamed (b : broker) : Prop := forall i s, b_sessions b !! i = Some s -> named s.
Definition dnamed (d : dealer) : Prop := forall i s, d_sessions d !! i = Some s -> named s.
Lemma b_remove_loop_sessions id ls b b' : b_remove_loop id b ls = Ret b' () -> b_sessions b' = b_sessions b.
Proof.
  revert b. induction ls as [|l ls IH]; intros b H; cbn in H; [by injection H as <-|].
  destruct (b_remove_body id b l) as [b1 []|] eqn:E; [|done]. rewrite (IH b1 H). clear IH H. unfold b_remove_body in E.
  repeat (case_match; try discriminate); by injection E as <-.
Qed.
Lemma bnamed_step o b op b' r : bstep o b op = Ret b' r -> match op with BAdd s => named s | _ => True end ->
  bnamed b -> bnamed b'.
Proof.
  intros H Ho Hb. destruct op as [s|id|t|x|sid m|sid p]; cbn [bstep] in H.
  - unfold b_add_session in H. case_match; injection H as <- _; [done|]. intros i x. cbn. rewrite lookup_insert_Some.
    intros [[_ <-]|[_ ?]]; [done|by eapply Hb].
  - unfold b_remove_session in H. destruct (b_by_session b !! id); [|by injection H as <- _].
    destruct (b_remove_loop _ _ _) as [b1 []|] eqn:E; [|done]. injection H as <- _. apply b_remove_loop_sessions in E.
    intros i x. cbn. rewrite E, lookup_delete_Some. intros [_ ?]. by eapply Hb.
  - by injection H as <- _.
  - by injection H as <- _.
  - enough (b_sessions b' = b_sessions b) as E by (intros i x; rewrite E; apply Hb).
    destruct m; cbn [b_receive_message] in H; try (by injection H as <- _);
      unfold b_subscribe, b_unsubscribe in H; repeat (case_match; try discriminate); by injection H as <- _.
  - enough (b_sessions b' = b_sessions b) as E by (intros i x; rewrite E; apply Hb).
    unfold b_receive_publish in H; repeat (case_match; try discriminate); by injection H as <- _.
Qed.
Lemma d_remove_loop_sessions id ls d d' : d_remove_loop id d ls = Ret d' () -> d_sessions d' = d_sessions d.
Proof.
  revert d. induction ls as [|l ls IH]; intros d H; cbn in H; [by injection H as <-|].
  destruct (d_remove_body id d l) as [d1 []|] eqn:E; [|done]. rewrite (IH d1 H). clear IH H. unfold d_remove_body in E.
  repeat (case_match; try discriminate); by injection E as <-.
Qed.
Lemma dnamed_step o d op d' r : dstep o d op = Ret d' r -> match op with DAdd s => named s | _ => True end ->
  dnamed d -> dnamed d'.
Proof.
  intros H Ho Hd. destruct op as [s|id|t|x|sid m]; cbn [dstep] in H.
  - unfold d_add_session in H. case_match; injection H as <- _; [done|]. intros i x. cbn. rewrite lookup_insert_Some.
    intros [[_ <-]|[_ ?]]; [done|by eapply Hd].
  - unfold d_remove_session in H. destruct (d_sessions d !! id); [|by injection H as <- _].
    destruct (d_remove_loop _ _ _) as [d1 []|] eqn:E; [|done]. injection H as <- _. apply d_remove_loop_sessions in E.
    intros i x. cbn. rewrite E, lookup_delete_Some. intros [_ ?]. by eapply Hd.
  - unfold d_has_procedure in H. repeat (case_match; try discriminate); by injection H as <- _.
  - by injection H as <- _.
  - enough (d_sessions d' = d_sessions d) as E by (intros i x; rewrite E; apply Hd).
    destruct m; cbn [d_receive_message] in H; try (by injection H as <- _);
      unfold d_error, d_register, d_unregister, d_yield, d_call, d_send, d_allocate in H;
      repeat (case_match; try discriminate); repeat match goal with E : (_, _) = (_, _) |- _ => injection E as <- <- end; by injection H as <- _.
Qed.

(** * What the router sends *)
Lemma fits_nil_args : fits_all (VSlice None). Proof. split; [apply po_slice; constructor|done]. Qed.
Lemma fits_nil_map : fits_all (VMap None). Proof. split; [apply po_map; constructor|done]. Qed.
Lemma fits_no_details : fits_all (VMap (Some [])). Proof. split; [apply po_map; constructor|done]. Qed.
Lemma fits_defaulted d : fits_all (VMap d) -> fits_all (VMap (or_empty d)).
Proof. destruct d; [done|]. intros _. apply fits_no_details. Qed.
Lemma low_id n : low n -> portable (vid n). Proof. intros H. apply (all_id n H). Qed.
(** A dictionary of a few entries without parts. *)
Lemma fits_few m : NoDup (map fst m) -> (length m <= 100)%nat ->
  Forall (fun kv => portable_string (fst kv) /\ portable (snd kv) /\ nesting (snd kv) = 0 /\ widest (snd kv) = 0) m ->
  fits_all (VMap (Some m)).
Proof.
  intros ND L F. split; [|split; cbn [nesting widest]].
  - apply po_map; [|done]. cbn. eapply Forall_impl; [exact F|]. by intros kv (? & ? & _).
  - enough (foldr N.max 0 (map (fun kv => widest (snd kv)) m) <= 0) by lia. apply max_le. eapply Forall_impl; [exact F|].
    intros kv (_ & _ & _ & ->). done.
  - enough (foldr N.max 0 (map (fun kv => nesting (snd kv)) m) <= 0) by lia. apply max_le. eapply Forall_impl; [exact F|].
    intros kv (_ & _ & -> & _). done.
Qed.
Definition plain (s : string) : bool :=
  forallb (fun c => Encoding.byte c <? 128) (chars s) && (N.of_nat (String.length s) <? 1000).
Lemma plain_name s : plain s = true -> portable_string s.
Proof.
  unfold plain. intros [H L]%andb_true_iff. apply N.ltb_lt in L. split; [|unfold shorter; lia].
  apply ascii_text. apply Is_true_true, forallb_True in H. eapply Forall_impl; [exact H|]. intros c Hc. by apply N.ltb_lt, Is_true_true.
Qed.
Ltac name := apply plain_name; vm_compute; reflexivity.
Ltac entry := split; [name|split; [first [by apply low_id|by constructor]|split; reflexivity]].

Ltac fields H := repeat match type of H with Forall _ (_ :: _) =>
  let A := fresh "A" in apply Forall_cons in H as [A H]; cbn [portable_field] in A end.
Ltac sent := cbn; repeat (apply Forall_cons; split); cbn [portable_field];
  first [assumption|apply fits_nil_args|apply fits_nil_map|apply fits_no_details|by apply fits_defaulted|name|by vm_compute|constructor].

Lemma call_portable o d sid c d' r : d_call o d sid c = Ret d' r -> portable_message (MCall c) -> ca_bin c = no_bin ->
  low sid -> pdok d -> dnamed d ->
  pdok d' /\ (forall a to, r = DMsg a to -> out_ok (a, to)).
Proof.
  intros H Hc Hbin Hsid Hd Hn. unfold d_call in H. cbn [portable_message msg_fields] in Hc. fields Hc.
  assert (out_ok (MError (new_error tCall (ca_request c) (Some []) "wamp.error.no_such_procedure" None None), sid)) as Href.
  { unfold out_ok. sent. }
  destruct (d_find _ _ _) as [l|]; [|injection H as <- <-; split; [done|]; by intros ?? [= <- <-]].
  destruct (d_heap d !! l) as [g|] eqn:Eg; [|done].
  destruct (decide _); [injection H as <- <-; split; [done|]; by intros ?? [= <- <-]|].
  destruct (d_pick o g) as [[callee nx]|]; [|done].
  destruct (d_allocate _ sid c callee) as [d1 inv] eqn:Ea.
  assert (d_sessions d1 = d_sessions d) as Es.
  { unfold d_allocate in Ea. destruct (d_inv _ !! _); [destruct (bool_opt _ _)|]; by injection Ea as <- _. }
  assert (pdok d1 /\ low inv) as [Hd1 Hinv].
  { assert (pdok (dset_heap (<[l := set_next nx g]> (d_heap d)) d)) as Hd0.
    { eapply (pdok_heap d _ l); [done..| |done]. cbn. by eapply pdok_reg. }
    unfold d_allocate in Ea.
    set (d0 := dset_heap (<[l := set_next nx g]> (d_heap d)) d) in *. clearbody d0.
    assert (forall p, pe_request p = ca_request c ->
      pdok (dset_inv (<[(sid, ca_request c) := next_id (d_idgen d0)]> (d_inv d0))
            (dset_pending (<[next_id (d_idgen d0) := p]> (d_pending d0)) (dset_idgen (next_id (d_idgen d0)) d0)))
      /\ low (next_id (d_idgen d0))) as Hf.
    { intros p Hp. assert (low (next_id (d_idgen d0))) as Hs by by apply next_id_low, pdok_gen.
      split; [|done]. destruct Hd0 as [H1 H2 H3 H4]. split; cbn.
      - by apply next_id_le.
      - done.
      - intros i q. rewrite lookup_insert_Some. intros [[<- <-]|[_ ?]]; [by rewrite Hp|by eapply H3].
      - intros k i. rewrite lookup_insert_Some. intros [[<- <-]|[_ ?]]; [done|by eapply H4]. }
    destruct (d_inv d0 !! (sid, ca_request c)) as [i|] eqn:Ei.
    - destruct (bool_opt (ca_options c) o_progress).
      + injection Ea as <- <-. split; [done|by eapply pdok_inv].
      + injection Ea as <- <-. apply Hf. done.
    - injection Ea as <- <-. apply Hf. done. }
  assert (low (g_id g)) as Hg by exact (pdok_reg d Hd _ _ Eg).
  assert (forall dt, fits_all (VMap (Some dt)) -> d_send d1 c inv (g_id g) dt callee = Ret d' r ->
    pdok d' /\ (forall a to, r = DMsg a to -> out_ok (a, to))) as Hsend.
  { intros dt Hdt. unfold d_send. destruct (d_sessions d1 !! callee) as [s|]; [|intros [= <- <-]; done].
    rewrite Hbin. cbn [bp_binary no_bin andb].
    intros [= <- <-]. split; [done|]. intros a to [= <- <-]. unfold out_ok. sent. }
  assert (forall who, match who with Some s => named s | None => True end -> fits_all (VMap (Some (d_details_map sid c who)))) as Hdt.
  { intros who Hw. apply fits_few; unfold d_details_map.
    - destruct (bool_opt _ _), (bool_opt _ _), who; cbn; repeat (apply NoDup_cons; split; [set_solver|]); constructor.
    - destruct (bool_opt _ _), (bool_opt _ _), who; cbn; lia.
    - destruct who as [s|]; [destruct Hw|]; destruct (bool_opt _ _), (bool_opt _ _); cbn [app];
        repeat (apply Forall_cons; split; [entry|]); constructor. }
  destruct (d_details d1); [destruct (d_sessions d1 !! sid) as [s|] eqn:Ess; [|done]|]; (eapply Hsend; [|exact H]); apply Hdt; [|done].
  rewrite Es in Ess. by eapply Hn.
Qed.

Lemma dealer_portable o d sid m d' r : d_receive_message o d sid m = Ret d' r -> portable_message m -> msg_bin m = no_bin ->
  low sid -> pdok d -> dnamed d ->
  pdok d' /\ (forall a to, r = DMsg a to -> out_ok (a, to)).
Proof.
  intros H Hm Hbin Hsid Hd Hn. destruct m; cbn [d_receive_message] in H; try (injection H as <- <-; split; [done|]; by intros).
  - (* ERROR *)
    unfold d_error in H. destruct (negb _); [by injection H as <- <-|].
    destruct (d_pending d !! _) as [p|] eqn:Ep; [|by injection H as <- <-]. injection H as <- <-.
    split; [by apply pdok_unpend|]. intros a to [= <- <-]. cbn [portable_message msg_fields] in Hm. fields Hm.
    assert (low (pe_request p)) by by eapply pdok_pend. unfold out_ok. sent.
  - (* CALL *)
    by eapply call_portable.
  - (* REGISTER *)
    unfold d_register in H. destruct (d_by_session d !! sid) as [mine|]; [|by injection H as <- <-].
    cbn [portable_message msg_fields] in Hm. fields Hm.
    destruct (d_by_proc d !! _) as [l|].
    + destruct (d_heap d !! l) as [g|] eqn:Eg; [|done].
      destruct (_ || _).
      * injection H as <- <-. split; [done|]. intros a to [= <- <-]. unfold out_ok. sent.
      * injection H as <- <-. split.
        { eapply (pdok_heap d _ l (set_callees (g_callees g ++ [sid]) (set_regs (<[sid := sid]> (g_regs g)) g))); [done..| |done].
          cbn. by eapply pdok_reg. }
        intros a to [= <- <-]. assert (low (g_id g)) by by eapply pdok_reg. unfold out_ok. sent.
    + assert (low (next_id (d_idgen d))) as Hl by by apply next_id_low, pdok_gen.
      injection H as <- <-. split.
      * destruct Hd as [H1 H2 H3 H4]. split.
        -- repeat case_match; cbn; by apply next_id_le.
        -- intros l' g' Hl'. assert (exists mt, <[d_fresh d := Registration (next_id (d_idgen d)) (rg_procedure m) {[sid := sid]}
             (to_string (mget (rg_options m) o_invoke)) 0 [sid] mt]> (d_heap d) !! l' = Some g') as [mt Hs].
           { revert Hl'. repeat case_match; intros Hl'; eexists; exact Hl'. }
           apply lookup_insert_Some in Hs as [[<- <-]|[_ ?]]; [done|by eapply H2].
        -- repeat case_match; done.
        -- repeat case_match; done.
      * intros a to [= <- <-]. unfold out_ok. sent.
  - (* UNREGISTER *)
    unfold d_unregister in H. destruct (d_by_session d !! sid) as [mine|]; [|by injection H as <- <-].
    destruct (decide _); [by injection H as <- <-|].
    destruct (mine !! _) as [l|]; [|done]. destruct (d_heap d !! l) as [g|] eqn:Eg; [|done]. injection H as <- <-.
    cbn [portable_message msg_fields] in Hm. fields Hm. split.
    + eapply (pdok_heap d _ l (set_regs (delete sid (g_regs g)) g)); [| | | | |done].
      * repeat case_match; done.
      * repeat case_match; reflexivity.
      * repeat case_match; done.
      * repeat case_match; done.
      * cbn. by eapply pdok_reg.
    + intros a to [= <- <-]. unfold out_ok. sent.
  - (* YIELD *)
    unfold d_yield in H. cbn [msg_bin] in Hbin. rewrite Hbin in H. cbn [bp_binary no_bin andb] in H.
    cbn [portable_message msg_fields] in Hm. fields Hm.
    destruct (d_pending d !! _) as [p|] eqn:Ep; [|by injection H as <- <-].
    assert (low (pe_request p)) as Hp by by eapply pdok_pend.
    set (more := pe_receive p && _) in *. clearbody more.
    assert (pdok (if more then d else dset_pending (delete (yi_request m) (d_pending d)) d)) as Hd'.
    { destruct more; [done|by apply pdok_unpend]. }
    destruct (d_sessions _ !! pe_caller p) as [s|]; injection H as <- <-; (split; [done|]); [|done].
    intros a to [= <- <-]. unfold out_ok.
    assert (fits_all (VMap (Some [(o_progress, VBool true)]))).
    { apply fits_few; [repeat constructor; set_solver|cbn; lia|]. apply Forall_cons; split; [entry|constructor]. }
    destruct more; sent.
Qed.

Lemma answers_portable o c m b d b' d' outs : answers o c m b d = Ret (b', d') outs -> portable_message m -> msg_bin m = no_bin ->
  low c -> pbok b -> pdok d -> bnamed b -> dnamed d ->
  pbok b' /\ pdok d' /\ bnamed b' /\ dnamed d' /\ Forall out_ok outs.
Proof.
  intros H Hm Hbin Hc Hb Hd Hbn Hdn.
  assert (forall r b1, bstep o b (BReceive c m) = Ret b1 r -> forall a to, r = BMsg a to -> out_ok (a, to)) as Hbo.
  { intros r b1 E a to ->. cbn [bstep] in E. destruct m; cbn [b_receive_message] in E; try done.
    - unfold b_subscribe in E. cbn [portable_message msg_fields] in Hm. fields Hm.
      destruct (b_by_session b !! c); [|done]. destruct (b_by_topic b !! _) as [l|].
      + destruct (b_heap b !! l) as [s|] eqn:Es; [|done]. injection E as _ <- <-.
        assert (low (sub_id s)) by by eapply pbok_sub. unfold out_ok. sent.
      + assert (low (next_id (b_idgen b))) as Hn by by apply next_id_low, pbok_gen.
        injection E as _ <- <-. unfold out_ok. sent.
    - unfold b_unsubscribe in E. cbn [portable_message msg_fields] in Hm. fields Hm. destruct (b_by_session b !! c) as [mine|]; [|done].
      destruct (mine !! _) as [l|]; [|done]. destruct (b_heap b !! l); [|done]. injection E as _ <- <-. unfold out_ok. sent. }
  assert (forall r b1 p, m = MPublish p -> bstep o b (BPublish c p) = Ret b1 r -> forall ev rs ack, r = BPubl ev rs ack ->
    Forall out_ok (match ev with Some e => map (fun r => (MEvent e, r)) rs | None => [] end
                      ++ match ack with Some a => [a] | None => [] end)) as Hpo.
  { intros r b1 p -> E ev rs ack ->. cbn [bstep] in E. unfold b_receive_publish in E. cbn [portable_message msg_fields] in Hm. fields Hm.
    destruct (b_by_session b !! c); [|done].
    assert (low (next_id (b_idgen b))) as Hn by by apply next_id_low, pbok_gen.
    set (ak := match mget (pu_options p) opt_acknowledge with VBool true => _ | _ => None end) in E.
    assert (Forall out_ok match ak with Some a => [a] | None => [] end) as Hak.
    { subst ak. destruct (mget _ _) as [|[]| | | | | | | | |]; try constructor; [|constructor]. unfold out_ok. sent. }
    clearbody ak.
    assert (forall s l dt rs, b_heap (set_bidgen (next_id (b_idgen b)) b) !! l = Some s -> fits_all (VMap (Some dt)) ->
      Forall out_ok (map (fun r : N => (MEvent (new_event (sub_id s) (next_id (b_idgen b)) (Some dt) (pu_args p) (pu_kwargs p)), r)) rs)) as Hev.
    { intros s l dt rs' Es Hdt. assert (low (sub_id s)) by by eapply pbok_sub. apply Forall_map.
      apply Forall_true. intros x. unfold out_ok. sent. }
    destruct (b_find _ _ _) as [l|]; [|by injection E as _ <- <- <-].
    destruct (b_heap _ !! l) as [s|] eqn:Es; [|done].
    destruct (decide _); [by injection E as _ <- <- <-|].
    destruct (b_details _); [destruct (b_sessions _ !! c) as [who|] eqn:Ew; [|done]|]; injection E as _ <- <- <-;
      apply Forall_app; (split; [eapply Hev; [exact Es|]|done]).
    - destruct (Hbn c who Ew). apply fits_few; [repeat (apply NoDup_cons; split; [set_solver|]); constructor|cbn; lia|].
      repeat (apply Forall_cons; split; [entry|]); constructor.
    - apply fits_no_details. }
  destruct m; cbn [answers] in H; try (injection H as <- <- <-; done).
  all: lazymatch type of H with
    | context [dstep ?o ?d ?op] =>
        destruct (dstep o d op) as [d1 r|] eqn:E; [|done];
        pose proof (dnamed_step _ _ _ _ _ E Logic.I Hdn);
        destruct (dealer_portable _ _ _ _ _ _ E Hm Hbin Hc Hd Hdn) as [Hd1 Ho];
        destruct r; injection H as <- <- <-; (repeat (split; [done|])); constructor; [by apply Ho|constructor]
    | context [bstep ?o ?b (BReceive _ _)] =>
        destruct (bstep o b _) as [b1 r|] eqn:E; [|done];
        pose proof (bnamed_step _ _ _ _ _ E Logic.I Hbn);
        assert (pbok b1) by (by eapply pbok_step); specialize (Hbo _ _ eq_refl);
        destruct r; injection H as <- <- <-; (repeat (split; [done|])); constructor; [by apply Hbo|constructor]
    | _ => idtac
    end.
  destruct (bstep _ _ _) as [b1 r|] eqn:E; [|done].
  pose proof (bnamed_step _ _ _ _ _ E Logic.I Hbn).
  assert (pbok b1) by by eapply pbok_step. specialize (Hpo _ _ _ eq_refl E).
  destruct r; injection H as <- <- <-; (repeat (split; [done|])); try constructor. by apply Hpo.
Qed.
