(** Step by step, the network with serializers and the one without stay alike. *)
From Verif Require Import Prelude Value Msg IdGen Types PathMatch Broker Dealer Session Mutex Network.
From Verif Require Import WireSpec MsgSpec NetworkSpec NetworkWire MsgWire WireFacts NetworkWireProofs NetworkWireIds NetworkFinal NetworkLocal.

Local Open Scope string_scope.
Local Open Scope list_scope.
Local Open Scope N_scope.

(** * Routing without serializers, message by message *)
Definition nposts (n : net) (outs : list (message * N)) : net := fold_left (fun n a => post n (fst a) (snd a)) outs n.
Lemma post_all_nposts m rs n : post_all n m rs = nposts n (map (fun r => (m, r)) rs).
Proof. revert n. induction rs as [|r rs IH]; intros n; cbn; [done|]. apply IH. Qed.
Lemma nposts_app n a b : nposts n (a ++ b) = nposts (nposts n a) b.
Proof. apply fold_left_app. Qed.

Definition down_more (ms : list message) (cl : client) : client :=
  Client (cl_session cl) (cl_up cl) (cl_down cl ++ ms) (cl_used cl).
Lemma nposts_spec outs n :
  n_broker (nposts n outs) = n_broker n /\ n_dealer (nposts n outs) = n_dealer n
  /\ n_rejected (nposts n outs) = n_rejected n /\ n_crashed (nposts n outs) = n_crashed n
  /\ forall x, n_clients (nposts n outs) !! x = down_more (answers_for x outs) <$> n_clients n !! x.
Proof.
  revert n. induction outs as [|[m to] outs IH]; intros n.
  { repeat split. intros x. destruct (n_clients n !! x) as [[? ? ? ?]|] eqn:E; unfold nposts; cbn; rewrite E; cbn; [|done]. unfold down_more. cbn. by rewrite app_nil_r. }
  change (nposts n ((m, to) :: outs)) with (nposts (post n m to) outs).
  cbn [answers_for omap list_omap fst snd].
  destruct (IH (post n m to)) as (H1 & H2 & H3 & H4 & H5).
  rewrite H1, H2, H3, H4. clear H1 H2 H3 H4. unfold post in *.
  destruct (n_clients n !! to) as [cl|] eqn:E; cbn.
  - repeat split. intros x. rewrite H5. cbn.
    destruct (N.eqb_spec to x) as [->|Hne].
    + rewrite lookup_insert, E. cbn. unfold down_more, cl_post. cbn. by rewrite <- app_assoc.
    + by rewrite lookup_insert_ne.
  - repeat split. intros x. rewrite H5. cbn.
    destruct (N.eqb_spec to x) as [->|Hne]; [|done]. by rewrite E.
Qed.

Definition set_router (b : broker) (d : dealer) (n n' : net) : Prop :=
  n_broker n' = b /\ n_dealer n' = d /\ n_clients n' = n_clients n
  /\ n_rejected n' = n_rejected n /\ n_crashed n' = n_crashed n.
Lemma handle_answers o c m n :
  match answers o c m (n_broker n) (n_dealer n) with
  | Crash x => handle o c m n = nset_crashed (x :: n_crashed n) n
  | Ret (b, d) outs => exists n1, set_router b d n n1 /\ handle o c m n = nposts n1 outs
  end.
Proof.
  assert (Hsame : exists n1, set_router (n_broker n) (n_dealer n) n n1 /\ n = nposts n1 []).
  { exists n. by repeat split. }
  destruct m; cbn [answers handle]; try exact Hsame; unfold call_broker, call_dealer.
  all: lazymatch goal with
    | |- context [bstep ?o ?b ?op] => destruct (bstep o b op) as [b1 r|w]; [|done]; destruct r
    | |- context [dstep ?o ?d ?op] => destruct (dstep o d op) as [d1 r|w]; [|done]; destruct r
    end.
  all: try (eexists; split; [|reflexivity]; by repeat split).
  eexists. split; [|].
  2: { rewrite nposts_app. destruct ev; [rewrite post_all_nposts|]; destruct ack as [[a to]|]; reflexivity. }
  by repeat split.
Qed.

(** * What a reader gets *)
Section sim.
Context {PL : Platform}.

Lemma build_plain t f m : build t f = Ok m -> msg_bin m = no_bin.
Proof.
  unfold build. repeat (match goal with |- context [if ?x then _ else _] => destruct x end;
    [try (by intros [= <-])|]); [|done].
  destruct (build_hello f); try done. by intros [= <-].
Qed.
Lemma read_plain sh sh' l m : deserialize_decoded sh sh' l = Ok m -> msg_bin m = no_bin.
Proof.
  rewrite deserialize_is_to_message. unfold to_message. destruct l as [|v l]; [done|]. unfold parse.
  destruct (spec_of _) as [sp|]; [|done]. destruct (validate_message _ _ _) as [f| |]; try done. apply build_plain.
Qed.

Lemma like_ok m m' : msg_like m m' -> wireable m -> msg_ok m -> msg_ok m' /\ wireable m'.
Proof.
  intros Hl Hw Hok. assert (wireable m') as Hw'.
  { destruct Hl as [Ht _]. destruct m'; try exact Logic.I; destruct m; try discriminate Ht; exact Hw. }
  split; [|done]. assert (Forall fld_ok (msg_fields m')) as Hf.
  { pose proof (fields_ok _ Hok Hw) as Hf. destruct Hl as [_ Hl]. clear -Hf Hl.
    induction Hl as [|f f' fs fs' H Hl IH]; [constructor|]. inversion Hf; subst. constructor; [|by apply IH].
    destruct f as [| |[]|[]|[]], f' as [| |[]|[]|[]]; cbn in *; congruence. }
  destruct m'; try exact Hf; done.
Qed.

Lemma read_back sh sh' m l : carried m l -> msg_ok m -> wireable m ->
  exists m', deserialize_decoded sh sh' l = Ok m' /\ msg_like m m' /\ msg_ok m' /\ wireable m' /\ msg_bin m' = no_bin.
Proof.
  intros Hc Hok Hw. destruct (deserialize_wire sh sh' m l Hok Hc) as (m' & Hd & Hs).
  pose proof (same_like _ _ Hw Hs) as Hl. destruct (like_ok _ _ Hl Hw Hok).
  exists m'. repeat split; try done; try apply Hl. by eapply read_plain.
Qed.

(** * The invariant *)
Definition upq (m : message) (l : list value) : Prop := ordinary m /\ carried m l /\ wireable m.
Definition downq (m : message) (l : list value) : Prop :=
  exists m1, carried m1 l /\ msg_ok m1 /\ wireable m1 /\ msg_like m m1.
Definition cinv (cl : client) (wcl : wclient) : Prop :=
  wc_session wcl = cl_session cl /\ Forall2 upq (cl_up cl) (wc_up wcl) /\ Forall2 downq (cl_down cl) (wc_down wcl).
Record winv (n : net) (w : wnet) : Prop := {
  wi_broker : w_broker w = n_broker n;
  wi_dealer : w_dealer w = n_dealer n;
  wi_bok : bok (n_broker n);
  wi_dok : dok (n_dealer n);
  wi_clients : forall c, option_Forall2 cinv (n_clients n !! c) (w_clients w !! c);
  wi_rejected : Forall2 (fun x y => fst x = fst y /\ msg_like (snd x) (snd y)) (n_rejected n) (w_rejected w);
  wi_crashed : w_crashed w = n_crashed n;
  wi_unread : w_unread w = [] }.

Lemma winv_like n w : winv n w -> net_like n w.
Proof.
  intros [H1 H2 H3 H4 H5 H6 H7 H8]. split; try done. intros c. specialize (H5 c). destruct H5 as [cl wcl (Hs & Hu & Hd)|]; constructor.
  split; [done|]. split.
  - eapply Forall2_impl; [exact Hu|]. intros m l ((Hok & _) & Hc & Hw) sh sh'.
    destruct (read_back sh sh' m l Hc Hok Hw) as (m' & ? & ? & _). by exists m'.
  - eapply Forall2_impl; [exact Hd|]. intros m l (m1 & Hc & Hok & Hw & Hl) sh sh'.
    destruct (read_back sh sh' m1 l Hc Hok Hw) as (m' & ? & ? & _). exists m'. split; [done|]. by eapply msg_like_trans.
Qed.

Lemma ins_rel (cs : gmap N client) (ws : gmap N wclient) c x y :
  (forall k, option_Forall2 cinv (cs !! k) (ws !! k)) -> cinv x y ->
  forall k, option_Forall2 cinv (<[c := x]> cs !! k) (<[c := y]> ws !! k).
Proof.
  intros H Hxy k. destruct (decide (k = c)) as [->|Hne].
  - rewrite !lookup_insert. by constructor.
  - by rewrite !lookup_insert_ne.
Qed.

Lemma broker_rel o op n w : winv n w -> winv (fst (call_broker o op n)) (wcall_broker o op w).
Proof.
  intros [H1 H2 H3 H4 H5 H6 H7 H8]. unfold call_broker, wcall_broker. rewrite H1.
  destruct (bstep o (n_broker n) op) as [b r|x] eqn:E; split; cbn; try done; [by eapply bok_step|by rewrite H7].
Qed.
Lemma dok_dstep o d op d' r : (forall sid m, op <> DReceive sid m) -> dstep o d op = Ret d' r -> dok d -> dok d'.
Proof.
  intros Hn H Hd. destruct op as [s|id|p|x|sid m]; cbn [dstep] in H; [| | | |by destruct (Hn sid m)].
  - unfold d_add_session in H. repeat case_match; injection H as <- _; try done; by apply (dok_same d).
  - unfold d_remove_session in H. destruct (d_sessions d !! id); [|by injection H as <- _].
    destruct (d_remove_loop _ _ _) as [d1 []|] eqn:E; [|done]. injection H as <- _.
    apply (dok_same d1); [done..|]. by eapply dok_remove_loop.
  - unfold d_has_procedure in H. repeat (case_match; try discriminate); by injection H as <- _.
  - injection H as <- _. by apply (dok_same d).
Qed.
Lemma dealer_rel o op n w : (forall sid m, op <> DReceive sid m) -> winv n w ->
  winv (fst (call_dealer o op n)) (wcall_dealer o op w).
Proof.
  intros Hn [H1 H2 H3 H4 H5 H6 H7 H8]. unfold call_dealer, wcall_dealer. rewrite H2.
  destruct (dstep o (n_dealer n) op) as [d r|x] eqn:E; split; cbn; try done; [by eapply dok_dstep|by rewrite H7].
Qed.

Lemma send_wireable s m s' out : sstep s (SSend (Ok "") m) = (s', Ok out) -> wireable m.
Proof. by destruct m. Qed.

Lemma sim_step n w e w' : winv n w -> ordinary_event e -> wstep w e w' ->
  winv (nstep n e) w'
  /\ exists log, w_read w' = w_read w ++ log
       /\ forall c, Forall2 msg_like (delivers c n e) (read_by c log).
Proof.
  intros Hi He Hs. destruct Hs.
  - (* join *)
    split; [|exists []; split; [cbn; unfold wcall_dealer, wcall_broker; repeat case_match; by rewrite app_nil_r|constructor]].
    cbn [nstep]. apply dealer_rel; [done|]. apply broker_rel.
    destruct Hi as [H1 H2 H3 H4 H5 H6 H7 H8]. split; cbn; try done. apply ins_rel; [done|]. repeat split; constructor.
  - (* leave *)
    split; [|exists []; split; [cbn; unfold wcall_dealer, wcall_broker; repeat case_match; by rewrite app_nil_r|constructor]].
    cbn [nstep]. apply dealer_rel; [done|]. apply broker_rel.
    destruct Hi as [H1 H2 H3 H4 H5 H6 H7 H8]. split; cbn; try done. intros k. destruct (decide (k = c)) as [->|Hne].
    + rewrite !lookup_delete. constructor.
    + by rewrite !lookup_delete_ne.
  - (* disclose *)
    split; [|exists []; split; [cbn; unfold wcall_dealer, wcall_broker; repeat case_match; by rewrite app_nil_r|constructor]].
    cbn [nstep]. apply dealer_rel; [done|]. by apply broker_rel.
  - (* send, nobody there *)
    split; [|exists []; split; [by rewrite app_nil_r|constructor]]. cbn [nstep].
    pose proof (wi_clients _ _ Hi c) as Hc. rewrite H in Hc. inversion Hc. done.
  - (* send *)
    split; [|exists []; split; [by rewrite app_nil_r|constructor]]. cbn [nstep].
    pose proof (wi_clients _ _ Hi c) as Hc. rewrite H in Hc. inversion Hc as [ncl ? (Es & Hu & Hd) E1 E2|]; subst.
    rewrite Es in H1. rewrite H1. destruct Hi as [I1 I2 I3 I4 I5 I6 I7 I8]. split; cbn; try done.
    apply ins_rel; [done|]. split; [done|]. cbn. split; [|done]. apply Forall2_app; [done|].
    constructor; [|constructor]. split; [done|]. split; [done|]. by eapply send_wireable.
  - (* send refused *)
    split; [|exists []; split; [by rewrite app_nil_r|constructor]]. cbn [nstep].
    pose proof (wi_clients _ _ Hi c) as Hc. rewrite H in Hc. inversion Hc as [ncl ? (Es & Hu & Hd) E1 E2|]; subst.
    rewrite Es in H1. rewrite H1. destruct Hi as [I1 I2 I3 I4 I5 I6 I7 I8].
    destruct r as [out|e|x]; [by destruct (H2 out)| |]; (split; cbn; try done; apply ins_rel; [done|]; done).
  - (* route, nothing there *)
    split; [|exists []; split; [by rewrite app_nil_r|constructor]]. cbn [nstep].
    pose proof (wi_clients _ _ Hi c) as Hc. inversion Hc as [ncl wcl (Es & Hu & Hd) E1 E2|E1 E2]; [|done].
    symmetry in E2. rewrite (H _ E2) in Hu. apply Forall2_nil_inv_r in Hu. destruct ncl. cbn in Hu. by subst.
  - (* route, unreadable *)
    exfalso. pose proof (wi_clients _ _ Hi c) as Hc. rewrite H in Hc. inversion Hc as [ncl ? (Es & Hu & Hd) E1 E2|]; subst.
    rewrite H0 in Hu. apply Forall2_cons_inv_r in Hu as (m & up' & ((Hok & _) & Hca & Hw) & _ & _).
    destruct (read_back sh sh' m l Hca Hok Hw) as (m' & Hm' & _). by destruct (H1 m').
  - (* route *)
    split; [|exists []; split; [by rewrite app_nil_r|constructor]].
    pose proof (wi_clients _ _ Hi c) as Hc. rewrite H in Hc. inversion Hc as [ncl ? (Es & Hu & Hd) E1 E2|]; subst.
    rewrite H0 in Hu. apply Forall2_cons_inv_r in Hu as (m0 & up' & ((Hok & Hbin & Hmeth) & Hca & Hw) & Hu & Eup).
    destruct (read_back sh sh' m0 l Hca Hok Hw) as (m' & Hm' & Hl & Hok' & Hw' & Hbin'). rewrite H1 in Hm'. injection Hm' as <-.
    cbn [nstep]. rewrite <- E1. destruct ncl as [s0 up0 down0 used0]. cbn in Eup, Es, Hd. subst up0.
    destruct Hi as [I1 I2 I3 I4 I5 I6 I7 I8]. rewrite I1, I2 in H2.
    pose proof (answers_congr o c m0 m (n_broker n) (n_dealer n) Hl Hbin ltac:(by rewrite Hbin') Hmeth) as Hcg.
    pose proof (handle_answers o c m0 n) as Hh. rewrite H2 in Hcg.
    destruct (answers o c m0 (n_broker n) (n_dealer n)) as [[b0 d0] outs0|]; [|done].
    destruct Hcg as [[= -> ->] Houts]. destruct Hh as (n1 & (R1 & R2 & R3 & R4 & R5) & ->).
    destruct (nposts_spec outs0 n1) as (P1 & P2 & P3 & P4 & P5).
    rewrite P5, R3, <- E1. cbn [fmap option_fmap option_map down_more cl_session cl_up cl_down cl_used tail].
    destruct (answers_ok _ _ _ _ _ _ _ _ H2 Hok' I3 I4) as (Hb' & Hd' & Hoo).
    split; cbn; rewrite ?P1, ?P2, ?P3, ?P4, ?R1, ?R2, ?R4, ?R5; try done.
    intros k. specialize (H3 k).
    assert (forall ls, Forall2 carried (answers_for k outs) ls -> Forall2 downq (answers_for k outs0) ls) as Hq.
    { clear -Houts Hoo. revert Hoo. unfold answers_for. induction Houts as [|[a to] [a' to'] outs0 outs [Hto Hl] Ho IH]; intros Hoo ls Hls; cbn in *.
      - inversion Hls. constructor.
      - subst to'. inversion Hoo as [|? ? [Hok Hw] Hoo']; subst. cbn in *. destruct (to =? k).
        + cbn in Hls. apply Forall2_cons_inv_l in Hls as (v & ls' & Hv & Hls & ->). cbn. constructor; [|by apply IH].
          by exists a'.
        + by apply IH. }
    destruct (decide (k = c)) as [->|Hne].
    + rewrite lookup_insert in H3. rewrite lookup_insert. destruct H3 as (ls & Hls & ->). constructor. split; [done|]. cbn.
      split; [done|]. apply Forall2_app; [done|]. by apply Hq.
    + rewrite lookup_insert_ne in H3 by done. rewrite lookup_insert_ne by done. rewrite P5, R3. specialize (I5 k).
      destruct I5 as [x y (Ex & Hxu & Hxd)|]; cbn.
      * destruct H3 as (ls & Hls & ->). constructor. split; [done|]. cbn. split; [done|].
        apply Forall2_app; [done|]. by apply Hq.
      * rewrite H3. constructor.
  - (* route, panic *)
    split; [|exists []; split; [by rewrite app_nil_r|constructor]].
    pose proof (wi_clients _ _ Hi c) as Hc. rewrite H in Hc. inversion Hc as [ncl ? (Es & Hu & Hd) E1 E2|]; subst.
    rewrite H0 in Hu. apply Forall2_cons_inv_r in Hu as (m0 & up' & ((Hok & Hbin & Hmeth) & Hca & Hw) & Hu & Eup).
    destruct (read_back sh sh' m0 l Hca Hok Hw) as (m' & Hm' & Hl & Hok' & Hw' & Hbin'). rewrite H1 in Hm'. injection Hm' as <-.
    cbn [nstep]. rewrite <- E1. destruct ncl as [s0 up0 down0 used0]. cbn in Eup, Es, Hd. subst up0.
    destruct Hi as [I1 I2 I3 I4 I5 I6 I7 I8]. rewrite I1, I2 in H2.
    pose proof (answers_congr o c m0 m (n_broker n) (n_dealer n) Hl Hbin ltac:(by rewrite Hbin') Hmeth) as Hcg.
    pose proof (handle_answers o c m0 n) as Hh. rewrite H2 in Hcg.
    destruct (answers o c m0 (n_broker n) (n_dealer n)) as [[b0 d0] outs0|]; [done|]. cbn in Hcg. subst.
    rewrite Hh. cbn. rewrite <- E1. cbn. split; cbn; try done; [|by rewrite I7].
    apply ins_rel; [done|]. done.
  - (* deliver, nothing there *)
    pose proof (wi_clients _ _ Hi c) as Hc. inversion Hc as [ncl wcl (Es & Hu & Hd) E1 E2|E1 E2].
    + symmetry in E2. rewrite (H _ E2) in Hd. apply Forall2_nil_inv_r in Hd. destruct ncl. cbn in Hd. subst.
      split; [cbn [nstep]; by rewrite <- E1|]. exists []. split; [by rewrite app_nil_r|]. intros x. cbn. rewrite <- E1.
      by destruct (c =? x).
    + split; [cbn [nstep]; by rewrite <- E1|]. exists []. split; [by rewrite app_nil_r|]. intros x. cbn. rewrite <- E1.
      by destruct (c =? x).
  - (* deliver, unreadable *)
    exfalso. pose proof (wi_clients _ _ Hi c) as Hc. rewrite H in Hc. inversion Hc as [ncl ? (Es & Hu & Hd) E1 E2|]; subst.
    rewrite H0 in Hd. apply Forall2_cons_inv_r in Hd as (m & down' & (m1 & Hca & Hok & Hw & Hl) & _ & _).
    destruct (read_back sh sh' m1 l Hca Hok Hw) as (m' & Hm' & _). by destruct (H1 m').
  - (* deliver *)
    pose proof (wi_clients _ _ Hi c) as Hc. rewrite H in Hc. inversion Hc as [ncl ? (Es & Hu & Hd) E1 E2|]; subst.
    rewrite H0 in Hd. apply Forall2_cons_inv_r in Hd as (m0 & down' & (m1 & Hca & Hok & Hw & Hl) & Hd & Edn).
    destruct (read_back sh sh' m1 l Hca Hok Hw) as (m' & Hm' & Hl' & _). rewrite H1 in Hm'. injection Hm' as <-.
    destruct ncl as [s0 up0 down0 used0]. cbn in Edn, Es, Hu. subst down0.
    assert (msg_like m0 m) as Hlm by by eapply msg_like_trans.
    destruct (recv_like s0 m0 m Hlm) as (s1 & r1 & r2 & Hr1 & Hr2 & Hr). rewrite Es, Hr2 in H2. injection H2 as <- <-.
    split.
    + cbn [nstep]. rewrite <- E1, Hr1. destruct Hi as [I1 I2 I3 I4 I5 I6 I7 I8].
      assert (forall k, option_Forall2 cinv (<[c := Client s1 up0 down' used0]> (n_clients n) !! k)
        (<[c := WClient s1 (wc_up cl) down]> (w_clients w) !! k)) as Hk by by apply ins_rel.
      destruct r1, r2; cbn in Hr; try done; split; cbn; try done. by constructor.
    + exists [(c, m)]. split; [done|]. intros x. cbn. rewrite <- E1. destruct (c =? x); repeat constructor; apply Hlm.
Qed.

Lemma sim n w es w' : winv n w -> Forall ordinary_event es -> wrun w es w' ->
  winv (nrun n es) w'
  /\ exists log, w_read w' = w_read w ++ log /\ forall c, Forall2 msg_like (delivered c n es) (read_by c log).
Proof.
  intros Hi He Hr. revert n Hi He. induction Hr as [w|w e es w1 w2 Hs Hr IH]; intros n Hi He.
  - split; [done|]. exists []. split; [by rewrite app_nil_r|]. constructor.
  - inversion He as [|? ? He1 He2]; subst. destruct (sim_step n w e w1 Hi He1 Hs) as (Hi1 & log & Hlog & Hd).
    destruct (IH _ Hi1 He2) as (Hi2 & log' & Hlog' & Hd'). split; [exact Hi2|].
    exists (log ++ log'). split; [by rewrite Hlog', Hlog, app_assoc|]. intros c. cbn [delivered].
    unfold read_by. rewrite omap_app. apply Forall2_app; [apply Hd|apply Hd'].

Qed.

Lemma winv_empty : winv empty_net empty_wnet.
Proof.
  split; try reflexivity; [| | |constructor].
  - split; cbn; [done|]. intros l s. rewrite lookup_empty. discriminate.
  - split; cbn; [done|..]; intros x y; rewrite lookup_empty; discriminate.
  - intros c. cbn. rewrite !lookup_empty. constructor.
Qed.

Lemma same_through_serializers es w : Forall ordinary_event es -> wrun empty_wnet es w ->
  net_like (nrun empty_net es) w
  /\ forall c, Forall2 msg_like (delivered c empty_net es) (read_by c (w_read w)).
Proof.
  intros He Hr. destruct (sim _ _ _ _ winv_empty He Hr) as (Hi & log & Hlog & Hd).
  split; [by apply winv_like|]. intros c. by rewrite Hlog.
Qed.

Lemma wired_in_step es w : Forall ordinary_event es -> wrun empty_wnet es w ->
  N.of_nat (length es) <= two53 -> carefully empty_net es ->
  w_rejected w = [] /\ w_crashed w = [] /\ w_unread w = [].
Proof.
  intros He Hr Hlen Hc. destruct (same_through_serializers es w He Hr) as [[_ _ _ Hrej Hcr Hun] _].
  destruct (nothing_rejected es Hlen (careful_follows es Hlen Hc)) as [E1 E2].
  rewrite E1 in Hrej. apply Forall2_nil_inv_l in Hrej. by rewrite Hrej, Hcr, E2, Hun.
Qed.
End sim.
