(** The network down to the bytes behaves like the one with decoded lists. *)
From Verif Require Import Prelude Value Msg IdGen Types PathMatch Broker Dealer Session Mutex Network Connection.
From Verif Require Import WireSpec MsgSpec Portable PortableFacts NetworkSpec NetworkWire NetworkBytes MsgWire WireFacts.
From Verif Require Import NetworkFinal NetworkLocal NetworkWireSim NetworkBytesIds.
From Verif Require NetworkWireIds.

Local Open Scope string_scope.
Local Open Scope list_scope.
Local Open Scope N_scope.

Lemma send_bytes s m t s' r : sstep s (SSend (Ok t) m) = (s', r) ->
  (r = Ok (SData t) /\ exists out, sstep s (SSend (Ok "") m) = (s', Ok out))
  \/ ((forall d, r <> Ok d) /\ exists r0, sstep s (SSend (Ok "") m) = (s', r0) /\ forall out, r0 <> Ok out).
Proof.
  unfold sstep. cbn [sop_prog]. intros H.
  destruct m; cbn -[union difference insert delete lookup singleton bool_decide] in H |- *;
    repeat first
    [ progress cbn -[union difference insert delete lookup singleton bool_decide] in H |- *
    | match goal with |- context [match ?x with _ => _ end] =>
        lazymatch x with
        | run_prog _ _ => fail
        | context [match _ with _ => _ end] => fail
        | _ => destruct x eqn:?
        end end ];
    injection H as <- <-; first [left; split; [reflexivity|eexists; reflexivity]|right; split; [done|eexists; split; [reflexivity|done]]].
Qed.

Section refine.
Context {PL : Platform} (sers : N -> Z) (Hsers : forall c, serializer (sers c)).

Definition queued (ser : Z) (t : string) (l : list value) : Prop :=
  bytes_of ser t l /\ exists m, portable_message m /\ msg_ok m /\ carried m l /\ Forall decoded l.
Definition crel (c : N) (b : bclient) (w : wclient) : Prop :=
  bc_session b = wc_session w /\ Forall2 (queued (sers c)) (bc_up b) (wc_up w) /\ Forall2 (queued (sers c)) (bc_down b) (wc_down w).
Definition csrel (cs : gmap N bclient) (ws : gmap N wclient) : Prop := forall c, option_Forall2 (crel c) (cs !! c) (ws !! c).
Record xinv (x : bnet) (w : wnet) : Prop := {
  xi_broker : x_broker x = w_broker w;
  xi_dealer : x_dealer x = w_dealer w;
  xi_read : x_read x = w_read w;
  xi_rejected : x_rejected x = w_rejected w;
  xi_crashed : x_crashed x = w_crashed w;
  xi_unread : x_unread x = [] /\ w_unread w = [];
  xi_unsent : x_unsent x = [];
  xi_clients : csrel (x_clients x) (w_clients w);
  xi_low : forall c cl, x_clients x !! c = Some cl -> low c;
  xi_bok : pbok (x_broker x);
  xi_dok : pdok (x_dealer x);
  xi_bnamed : bnamed (x_broker x);
  xi_dnamed : dnamed (x_dealer x) }.

Lemma csrel_insert cs ws c a b : csrel cs ws -> crel c a b -> csrel (<[c := a]> cs) (<[c := b]> ws).
Proof.
  intros H Hab k. destruct (decide (k = c)) as [->|Hne].
  - rewrite !lookup_insert. by constructor.
  - by rewrite !lookup_insert_ne.
Qed.
Lemma broker_inv o op x w : match op with BAdd s => named s | _ => True end -> xinv x w ->
  xinv (xcall_broker o op x) (wcall_broker o op w).
Proof.
  intros Ho [H1 H2 H3 H4 H5 H6 H7 H8 H9 H10 H11 H12 H13]. unfold xcall_broker, wcall_broker. rewrite <- H1.
  destruct (bstep o (x_broker x) op) as [b r|y] eqn:E; split; cbn; try done; [by eapply pbok_step|by eapply bnamed_step|by rewrite H5].
Qed.
Lemma pdok_dstep o d op d' r : (forall sid m, op <> DReceive sid m) -> dstep o d op = Ret d' r -> pdok d -> pdok d'.
Proof.
  intros Hn H Hd. destruct op as [s|id|p|x|sid m]; cbn [dstep] in H; [| | | |by destruct (Hn sid m)].
  - unfold d_add_session in H. repeat case_match; injection H as <- _; try done; by apply (pdok_same d).
  - unfold d_remove_session in H. destruct (d_sessions d !! id); [|by injection H as <- _].
    destruct (d_remove_loop _ _ _) as [d1 []|] eqn:E; [|done]. injection H as <- _.
    apply (pdok_same d1); [done..|]. by eapply pdok_remove_loop.
  - unfold d_has_procedure in H. repeat (case_match; try discriminate); by injection H as <- _.
  - injection H as <- _. by apply (pdok_same d).
Qed.
Lemma dealer_inv o op x w : match op with DAdd s => named s | DReceive _ _ => False | _ => True end -> xinv x w ->
  xinv (xcall_dealer o op x) (wcall_dealer o op w).
Proof.
  intros Ho [H1 H2 H3 H4 H5 H6 H7 H8 H9 H10 H11 H12 H13]. unfold xcall_dealer, wcall_dealer. rewrite <- H2.
  assert (forall sid m, op <> DReceive sid m) as Hn by (intros ?? ->; done).
  destruct (dstep o (x_dealer x) op) as [d r|y] eqn:E; split; cbn; try done; [by eapply pdok_dstep| |by rewrite H5].
  eapply dnamed_step; [exact E| |done]. by destruct op.
Qed.

(** * The answers *)
Lemma sends_refines outs cs un cs' un' : sends sers outs cs un cs' un' ->
  Forall (fun a => out_ok a /\ msg_ok (fst a)) outs -> forall ws, csrel cs ws ->
  un' = un /\ exists ws', sent_out outs ws ws' /\ csrel cs' ws' /\ forall c, is_Some (cs' !! c) -> is_Some (cs !! c).
Proof.
  induction 1 as [cs un|m to outs cs un cs' un' Hg Hs IH|m to outs cs un cs' un' cl sh t Hg Ht Hs IH|m to outs cs un cs' un' cl sh Hg Hf Hs IH];
    intros Hok ws Hcs.
  - split; [done|]. exists ws. split; [|done]. intros k. destruct (ws !! k) as [[s u d]|]; [|done]. exists []. split; [constructor|].
    cbn. by rewrite app_nil_r.
  - apply Forall_cons in Hok as [_ Hok]. destruct (IH Hok ws Hcs) as (-> & ws' & Hso & Hr & Hk). split; [done|]. exists ws'. split; [|done].
    intros k. specialize (Hso k). destruct (ws !! k) as [cl|] eqn:E; [|done]. destruct Hso as (ls & Hls & Hk'). exists ls. split; [|done].
    unfold answers_for in *. cbn. destruct (N.eqb_spec to k) as [->|]; [|done].
    specialize (Hcs k). rewrite Hg, E in Hcs. inversion Hcs.
  - apply Forall_cons in Hok as [[Hp Hm] Hok]. cbn in Hp, Hm.
    destruct (codec_law (sers to) sh m (Hsers to) Hp) as (t' & l & Et & Hb & Hc & Hd). rewrite Ht in Et. injection Et as <-.
    pose proof (Hcs to) as Hto. rewrite Hg in Hto. inversion Hto as [? wcl (E1 & E2 & E3) Ea Eb|]; subst. symmetry in Eb.
    assert (queued (sers to) t l) as Hq by (split; [done|by exists m]).
    destruct (IH Hok (<[to := WClient (wc_session wcl) (wc_up wcl) (wc_down wcl ++ [l])]> ws)) as (-> & ws' & Hso & Hr & Hk).
    { apply csrel_insert; [done|]. split; [done|]. split; [done|]. cbn. apply Forall2_app; [done|]. constructor; [done|constructor]. }
    split; [done|]. exists ws'. split; [|split; [done|]].
    + intros k. specialize (Hso k). destruct (N.eqb_spec to k) as [<-|Hne].
      * rewrite lookup_insert in Hso. rewrite Eb. destruct Hso as (ls & Hls & ->). exists (l :: ls). split.
        -- unfold answers_for. cbn. rewrite N.eqb_refl. by constructor.
        -- cbn. by rewrite <- app_assoc.
      * rewrite lookup_insert_ne in Hso by done. destruct (ws !! k); [|done]. unfold answers_for in *. cbn.
        destruct (N.eqb_spec to k); done.
    + intros k [y Hy]. destruct (Hk k (ex_intro _ y Hy)) as [z Hz]. apply lookup_insert_Some in Hz as [[<- _]|[_ ?]]; eauto.
  - exfalso. apply Forall_cons in Hok as [[Hp Hm] Hok]. cbn in Hp.
    destruct (codec_law (sers to) sh m (Hsers to) Hp) as (t' & l & Et & _). by destruct (Hf t').
Qed.

(** * Step by step *)
Lemma queued_read ser t l sh sh' : queued ser t l -> exists m m', portable_message m /\ msg_ok m /\ carried m l /\ wireable m
  /\ deserialize_as ser sh sh' t = Ok m' /\ deserialize_decoded sh sh' l = Ok m' /\ msg_like m m'
  /\ portable_message m' /\ msg_ok m' /\ wireable m' /\ msg_bin m' = no_bin.
Proof.
  intros (Hb & m & Hp & Hok & Hc & Hd). assert (wireable m) as Hw by (clear -Hp; by destruct m).
  destruct (read_back sh sh' m l Hc Hok Hw) as (m' & Hr & Hl & Hok' & Hw' & Hbin).
  exists m, m'. rewrite (Hb sh sh'). do 7 (split; [done|]). split; [|done]. by eapply read_portable.
Qed.

Lemma bytes_step n x w e x' : xinv x w -> winv n w -> ordinary_event e -> portable_event e -> xstep sers x e x' ->
  exists w', wstep w e w' /\ xinv x' w'.
Proof.
  intros Hx Hw He Hp Hs. destruct Hs.
  - (* join *)
    destruct Hp as (Hid & Hn1 & Hn2). eexists. split; [constructor|].
    apply dealer_inv; [by split|]. apply broker_inv; [by split|].
    destruct Hx as [H1 H2 H3 H4 H5 H6 H7 H8 H9 H10 H11 H12 H13]. split; cbn; try done.
    + apply csrel_insert; [done|]. repeat split; constructor.
    + intros c cl. rewrite lookup_insert_Some. intros [[<- _]|[_ ?]]; [exact Hid|eauto].
  - (* leave *)
    eexists. split; [constructor|]. apply dealer_inv; [done|]. apply broker_inv; [done|].
    destruct Hx as [H1 H2 H3 H4 H5 H6 H7 H8 H9 H10 H11 H12 H13]. split; cbn; try done.
    + intros k. destruct (decide (k = c)) as [->|Hne]; [rewrite !lookup_delete; constructor|by rewrite !lookup_delete_ne].
    + intros k cl. rewrite lookup_delete_Some. intros [_ ?]. eauto.
  - (* disclose *)
    eexists. split; [constructor|]. apply dealer_inv; [done|]. by apply broker_inv.
  - (* send, nobody *)
    exists w. split; [|done]. apply ws_send_nobody. pose proof (xi_clients _ _ Hx c) as Hc. rewrite H in Hc. by inversion Hc.
  - (* send *)
    pose proof (xi_clients _ _ Hx c) as Hc. rewrite H in Hc. inversion Hc as [? wcl (E1 & E2 & E3) Ea Eb|]; subst. symmetry in Eb.
    cbn [portable_event] in Hp. cbn [ordinary_event] in He. destruct He as [Hok _].
    destruct (codec_law (sers c) sh m (Hsers c) Hp) as (t & l & Et & Hb & Hca & Hd). rewrite Et, E1 in H0.
    pose proof (xi_low _ _ Hx _ _ H) as Hlow.
    apply send_bytes in H0 as [[-> [out Ho]]|[Hr (r0 & Ho & Hr0)]].
    + eexists. split; [by eapply ws_send|].
      destruct Hx as [H1 H2 H3 H4 H5 H6 H7 H8 H9 H10 H11 H12 H13]. split; cbn; try done.
      * apply csrel_insert; [done|]. split; [done|]. split; [|done]. cbn. apply Forall2_app; [done|]. constructor; [|constructor].
        split; [done|by exists m].
      * intros k cl'. rewrite lookup_insert_Some. intros [[<- _]|[_ ?]]; eauto.
    + eexists. split; [by eapply ws_send_refused|].
      destruct Hx as [H1 H2 H3 H4 H5 H6 H7 H8 H9 H10 H11 H12 H13]. split; cbn; try done.
      * apply csrel_insert; [done|]. split; [done|]. split; [|done]. cbn.
        destruct r as [[]| |]; rewrite ?app_nil_r; try done; by destruct (Hr _ eq_refl).
      * intros k cl'. rewrite lookup_insert_Some. intros [[<- _]|[_ ?]]; eauto.
  - (* route, nothing there *)
    exists w. split; [|done]. apply ws_route_nothing. intros wcl Hwc. pose proof (xi_clients _ _ Hx c) as Hc. rewrite Hwc in Hc.
    inversion Hc as [bcl ? (E1 & E2 & E3) Ea Eb|]; subst. symmetry in Ea. rewrite (H _ Ea) in E2. by inversion E2.
  - (* route, unreadable *)
    exfalso. pose proof (xi_clients _ _ Hx c) as Hc. rewrite H in Hc. inversion Hc as [? wcl (E1 & E2 & E3) Ea Eb|]; subst.
    rewrite H0 in E2. apply Forall2_cons_inv_l in E2 as (l & up' & Hq & _ & _).
    destruct (queued_read _ _ _ sh sh' Hq) as (? & m' & _ & _ & _ & _ & Hm & _). by destruct (H1 m').
  - (* route *)
    pose proof (xi_clients _ _ Hx c) as Hc. rewrite H in Hc. inversion Hc as [? wcl (E1 & E2 & E3) Ea Eb|]; subst. symmetry in Eb.
    rewrite H0 in E2. apply Forall2_cons_inv_l in E2 as (l & up' & Hq & E2 & Eup).
    destruct (queued_read _ _ _ sh sh' Hq) as (m0 & m' & _ & _ & _ & _ & Hm & Hl & _ & Hpm & Hok & Hwm & Hbin).
    rewrite H1 in Hm. injection Hm as <-.
    pose proof (xi_low _ _ Hx _ _ H) as Hlow.
    destruct Hx as [G1 G2 G3 G4 G5 G6 G7 G8 G9 G10 G11 G12 G13].
    destruct (answers_portable _ _ _ _ _ _ _ _ H2 Hpm Hbin Hlow G10 G11 G12 G13) as (P1 & P2 & P3 & P4 & P5).
    assert (Forall (fun a => msg_ok (fst a)) outs) as Hoo.
    { destruct (NetworkWireIds.answers_ok o c m (x_broker x) (x_dealer x) b d outs H2 Hok) as (_ & _ & Ho).
      - rewrite G1, (wi_broker _ _ Hw). apply Hw.
      - rewrite G2, (wi_dealer _ _ Hw). apply Hw.
      - eapply Forall_impl; [exact Ho|]. by intros ? []. }
    assert (Forall (fun a => out_ok a /\ msg_ok (fst a)) outs) as Hall by (apply Forall_and; by split).
    destruct (sends_refines _ _ _ _ _ H3 Hall (<[c := WClient (wc_session wcl) up' (wc_down wcl)]> (w_clients w))) as (-> & ws' & Hso & Hr & Hk).
    { apply csrel_insert; [done|]. by split. }
    rewrite G1, G2 in H2. eexists. split; [by eapply ws_route|]. split; cbn; try done.
    intros k cl' Hcl'. destruct (Hk k (ex_intro _ _ Hcl')) as [z Hz]. apply lookup_insert_Some in Hz as [[<- _]|[_ ?]]; eauto.
  - (* route, panic *)
    pose proof (xi_clients _ _ Hx c) as Hc. rewrite H in Hc. inversion Hc as [? wcl (E1 & E2 & E3) Ea Eb|]; subst. symmetry in Eb.
    rewrite H0 in E2. apply Forall2_cons_inv_l in E2 as (l & up' & Hq & E2 & Eup).
    destruct (queued_read _ _ _ sh sh' Hq) as (m0 & m' & _ & _ & _ & _ & Hm & Hl & _).
    rewrite H1 in Hm. injection Hm as <-. pose proof (xi_low _ _ Hx _ _ H) as Hlow.
    destruct Hx as [G1 G2 G3 G4 G5 G6 G7 G8 G9 G10 G11 G12 G13].
    rewrite G1, G2 in H2. eexists. split; [by eapply ws_route_crash|]. split; cbn; try done.
    + by rewrite G5.
    + apply csrel_insert; [done|]. by split.
    + intros k cl'. rewrite lookup_insert_Some. intros [[<- _]|[_ ?]]; eauto.
  - (* deliver, nothing there *)
    exists w. split; [|done]. apply ws_deliver_nothing. intros wcl Hwc. pose proof (xi_clients _ _ Hx c) as Hc. rewrite Hwc in Hc.
    inversion Hc as [bcl ? (E1 & E2 & E3) Ea Eb|]; subst. symmetry in Ea. rewrite (H _ Ea) in E3. by inversion E3.
  - (* deliver, unreadable *)
    exfalso. pose proof (xi_clients _ _ Hx c) as Hc. rewrite H in Hc. inversion Hc as [? wcl (E1 & E2 & E3) Ea Eb|]; subst.
    rewrite H0 in E3. apply Forall2_cons_inv_l in E3 as (l & up' & Hq & _ & _).
    destruct (queued_read _ _ _ sh sh' Hq) as (? & m' & _ & _ & _ & _ & Hm & _). by destruct (H1 m').
  - (* deliver *)
    pose proof (xi_clients _ _ Hx c) as Hc. rewrite H in Hc. inversion Hc as [? wcl (E1 & E2 & E3) Ea Eb|]; subst. symmetry in Eb.
    rewrite H0 in E3. apply Forall2_cons_inv_l in E3 as (l & down' & Hq & E3 & Edn).
    destruct (queued_read _ _ _ sh sh' Hq) as (m0 & m' & _ & _ & _ & _ & Hm & Hl & _).
    rewrite H1 in Hm. injection Hm as <-. pose proof (xi_low _ _ Hx _ _ H) as Hlow.
    destruct Hx as [G1 G2 G3 G4 G5 G6 G7 G8 G9 G10 G11 G12 G13].
    rewrite H1, E1 in H2. eexists. split; [by eapply ws_deliver|]. split; cbn; try done.
    + by rewrite G3.
    + by rewrite G4.
    + apply csrel_insert; [done|]. by split.
    + intros k cl'. rewrite lookup_insert_Some. intros [[<- _]|[_ ?]]; eauto.
Qed.

Lemma bytes_run n x w es x' : xinv x w -> winv n w -> Forall ordinary_event es -> Forall portable_event es ->
  xrun_bytes sers x es x' -> exists w', wrun w es w' /\ xinv x' w' /\ winv (nrun n es) w'.
Proof.
  intros Hx Hw Ho Hp Hr. revert n w Hx Hw Ho Hp. induction Hr as [x|x e es x1 x2 Hs Hr IH]; intros n w Hx Hw Ho Hp.
  - exists w. split; [constructor|done].
  - inversion Ho; subst. inversion Hp; subst. destruct (bytes_step n x w e x1 Hx Hw) as (w1 & Hs1 & Hx1); [done..|].
    destruct (sim_step n w e w1 Hw) as [Hw1 _]; [done..|].
    destruct (IH _ _ Hx1 Hw1) as (w' & Hr' & Hx' & Hw'); [done..|]. exists w'. split; [by econstructor|done].
Qed.
Lemma xinv_empty : xinv empty_bnet empty_wnet.
Proof.
  split; try reflexivity; try (by split).
  all: try (intros ?; cbn; rewrite !lookup_empty; by constructor).
  all: try (intros ? ?; cbn; rewrite lookup_empty; discriminate).
  all: split; cbn; [done|..]; intros ? ?; rewrite lookup_empty; discriminate.
Qed.

Theorem same_through_bytes es x : Forall ordinary_event es -> Forall portable_event es -> xrun_bytes sers empty_bnet es x ->
  bnet_like sers (nrun empty_net es) x
  /\ forall c, Forall2 msg_like (delivered c empty_net es) (read_by c (x_read x)).
Proof.
  intros Ho Hp Hr. destruct (bytes_run _ _ _ _ _ xinv_empty winv_empty Ho Hp Hr) as (w & Hwr & Hx & Hw).
  destruct (same_through_serializers es w Ho Hwr) as [[L1 L2 L3 L4 L5 L6] Hd]. rewrite (xi_read _ _ Hx). split; [|done].
  destruct Hx as [G1 G2 G3 G4 G5 G6 G7 G8 _ _ _ _ _]. destruct G6 as [G6 _]. split; try congruence.
  - intros c. specialize (L3 c). specialize (G8 c). inversion G8 as [b wc (E1 & E2 & E3) Ea Eb|Ea Eb].
    + rewrite <- Eb in L3. inversion L3 as [cl ? (F1 & F2 & F3) Ec Ed|]; subst. constructor.
      assert (forall ms ts ls, Forall2 (queued (sers c)) ts ls -> Forall2 reads_like ms ls -> Forall2 (bytes_like (sers c)) ms ts) as HF.
      { clear. intros ms ts ls H. revert ms. induction H as [|t l ts ls [Hb _] H IH]; intros ms Hm.
        - apply Forall2_nil_inv_r in Hm as ->. constructor.
        - apply Forall2_cons_inv_r in Hm as (m & ms' & Hm & Hms & ->). constructor; [|by apply IH].
          intros sh sh'. rewrite (Hb sh sh'). apply Hm. }
      split; [congruence|]. split; by eapply HF.
    + rewrite <- Eb in L3. inversion L3. constructor.
Qed.

Lemma bytes_in_step es x : Forall ordinary_event es -> Forall portable_event es -> xrun_bytes sers empty_bnet es x ->
  N.of_nat (length es) <= two53 -> carefully empty_net es ->
  x_rejected x = [] /\ x_crashed x = [] /\ x_unread x = [] /\ x_unsent x = [].
Proof.
  intros Ho Hp Hr Hlen Hc. destruct (bytes_run _ _ _ _ _ xinv_empty winv_empty Ho Hp Hr) as (w & Hwr & Hx & Hw).
  destruct (wired_in_step es w Ho Hwr Hlen Hc) as (E1 & E2 & E3).
  destruct Hx as [G1 G2 G3 G4 G5 G6 G7 _ _ _ _ _ _]. rewrite G4, G5, G7. by destruct G6.
Qed.
End refine.

(** * There is always a next step *)
Section total.
Context {PL : Platform} (sers : N -> Z).
Lemma sends_total outs : forall cs un, exists cs' un', sends sers outs cs un cs' un'.
Proof.
  induction outs as [|[m to] outs IH]; intros cs un; [eexists _, _; constructor|].
  destruct (cs !! to) as [cl|] eqn:E.
  - destruct (serialize_as (sers to) sh_id m) as [t|e|w] eqn:Es.
    + destruct (IH (<[to := BClient (bc_session cl) (bc_up cl) (bc_down cl ++ [t])]> cs) un) as (cs' & un' & H).
      eexists _, _. by eapply se_sent.
    + destruct (IH cs ((to, m) :: un)) as (cs' & un' & H). eexists _, _. eapply (se_unsent _ m to _ _ _ _ _ cl sh_id); [done| |done]. congruence.
    + destruct (IH cs ((to, m) :: un)) as (cs' & un' & H). eexists _, _. eapply (se_unsent _ m to _ _ _ _ _ cl sh_id); [done| |done]. congruence.
  - destruct (IH cs un) as (cs' & un' & H). eexists _, _. by eapply se_gone.
Qed.
Lemma xstep_total x e : exists x', xstep sers x e x'.
Proof.
  destruct e as [d|o c|c m|o c|c|p c]; try (eexists; constructor; fail).
  - destruct (x_clients x !! c) as [cl|] eqn:E; [|eexists; by constructor].
    destruct (sstep (bc_session cl) (SSend (serialize_as (sers c) sh_id m) m)) as [s r] eqn:Es. eexists. by eapply xs_send.
  - destruct (x_clients x !! c) as [cl|] eqn:E; [|eexists; apply xs_route_nothing; congruence].
    destruct (bc_up cl) as [|t up] eqn:Eu; [eexists; apply xs_route_nothing; congruence|].
    destruct (deserialize_as (sers c) sh_id sh_id t) as [m|er|w] eqn:Ed.
    + destruct (answers o c m (x_broker x) (x_dealer x)) as [[b d] outs|w] eqn:Ea.
      * destruct (sends_total outs (<[c := BClient (bc_session cl) up (bc_down cl)]> (x_clients x)) (x_unsent x)) as (cs & un & Hs).
        eexists. by eapply xs_route.
      * eexists. by eapply xs_route_crash.
    + eexists. eapply (xs_route_unread _ _ o c cl t up sh_id sh_id); [done..|congruence].
    + eexists. eapply (xs_route_unread _ _ o c cl t up sh_id sh_id); [done..|congruence].
  - destruct (x_clients x !! c) as [cl|] eqn:E; [|eexists; apply xs_deliver_nothing; congruence].
    destruct (bc_down cl) as [|t up] eqn:Eu; [eexists; apply xs_deliver_nothing; congruence|].
    destruct (deserialize_as (sers c) sh_id sh_id t) as [m|er|w] eqn:Ed.
    + destruct (sstep (bc_session cl) (SReceive (deserialize_as (sers c) sh_id sh_id t))) as [s r] eqn:Es. eexists. by eapply xs_deliver.
    + eexists. eapply (xs_deliver_unread _ _ c cl t up sh_id sh_id); [done..|congruence].
    + eexists. eapply (xs_deliver_unread _ _ c cl t up sh_id sh_id); [done..|congruence].
Qed.
Lemma bytes_go_on x es : exists x', xrun_bytes sers x es x'.
Proof.
  revert x. induction es as [|e es IH]; intros x; [eexists; constructor|].
  destruct (xstep_total x e) as [x1 H1]. destruct (IH x1) as [x2 H2]. exists x2. by econstructor.
Qed.
End total.

(** * From hand to hand *)
Section hands.
Context {PL : Platform}.
Lemma one_hop ser sh sh1 sh2 m : serializer ser -> portable_message m -> msg_ok m ->
  exists t m1, serialize_as ser sh m = Ok t /\ deserialize_as ser sh1 sh2 t = Ok m1
    /\ msg_like m m1 /\ portable_message m1 /\ msg_ok m1.
Proof.
  intros Hs Hp Hok. destruct (codec_law ser sh m Hs Hp) as (t & l & Et & Hb & Hc & Hd).
  assert (wireable m) as Hw by (clear -Hp; by destruct m).
  destruct (read_back sh1 sh2 m l Hc Hok Hw) as (m1 & E1 & Hl & Hok1 & _).
  exists t, m1. split; [done|]. split; [by rewrite (Hb sh1 sh2)|]. split; [done|]. split; [|done]. by eapply read_portable.
Qed.
Lemma handed_like sers m m' : handed_on sers m m' -> Forall serializer sers -> portable_message m -> msg_ok m ->
  msg_like m m' /\ portable_message m' /\ msg_ok m'.
Proof.
  induction 1 as [m|ser sers m t m1 m2 sh sh1 sh2 Es Ed _ IH]; intros Hs Hp Hok; [split; [apply msg_like_refl|done]|].
  apply Forall_cons in Hs as [Hs Hss]. destruct (one_hop ser sh sh1 sh2 m Hs Hp Hok) as (t' & m1' & Es' & Ed' & Hl & Hp1 & Hok1).
  rewrite Es in Es'. injection Es' as <-. rewrite Ed in Ed'. injection Ed' as <-.
  destruct (IH Hss Hp1 Hok1) as (Hl' & H'). split; [by eapply msg_like_trans|done].
Qed.
Lemma handed_goes sers m : Forall serializer sers -> portable_message m -> msg_ok m -> exists m', handed_on sers m m'.
Proof.
  revert m. induction sers as [|ser sers IH]; intros m Hs Hp Hok; [exists m; constructor|].
  apply Forall_cons in Hs as [Hs Hss]. destruct (one_hop ser sh_id sh_id sh_id m Hs Hp Hok) as (t & m1 & Es & Ed & _ & Hp1 & Hok1).
  destruct (IH m1 Hss Hp1 Hok1) as (m' & H'). exists m'. by econstructor.
Qed.
Lemma hands_carry sers1 sers2 m m1 : Forall serializer (sers1 ++ sers2) -> portable_message m -> msg_ok m ->
  handed_on sers1 m m1 -> msg_like m m1 /\ exists m2, handed_on sers2 m1 m2.
Proof.
  intros Hs Hp Hok H. apply Forall_app in Hs as [H1 H2]. destruct (handed_like _ _ _ H H1 Hp Hok) as (? & ? & ?).
  split; [done|]. by apply handed_goes.
Qed.
End hands.
