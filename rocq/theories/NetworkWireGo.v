(** The network with serializers never gets stuck: if what the clients send can
    be encoded, so can what the router sends. *)
From Verif Require Import Prelude Value Msg IdGen Types PathMatch Broker Dealer Session Mutex Network.
From Verif Require Import WireSpec MsgSpec NetworkSpec NetworkWire MsgWire WireFacts NetworkWireProofs NetworkWireIds NetworkWireSim.

Local Open Scope string_scope.
Local Open Scope list_scope.
Local Open Scope N_scope.

Definition fld_self (f : fld) : Prop :=
  match f with
  | FId n => small n
  | FDict (Some m) | FKwArgs (Some m) => exists m', wire_map m m'
  | FArgs (Some l) => exists l', Forall2 wire l l'
  | _ => True
  end.
Definition self (m : message) : Prop := Forall fld_self (msg_fields m).

Lemma wire_map_self m : (forall k v, assoc k m = Some v -> wire v v) -> wire_map m m.
Proof. intros H k. destruct (assoc k m) eqn:E; constructor. by eapply H. Qed.
Lemma wire_map_image m m' : wire_map m m' -> wire_map m' m'.
Proof.
  intros H. apply wire_map_self. intros k v E. specialize (H k). rewrite E in H. inversion H; subst. by eapply wire_image.
Qed.
Lemma wire_list_image l l' : Forall2 wire l l' -> Forall2 wire l' l'.
Proof. induction 1; constructor; [by eapply wire_image|done]. Qed.
Lemma vid_wire n : small n -> wire (vid n) (vid n).
Proof. intros H. constructor; [done|]. unfold fits, small in *. cbn. unfold two64 in *. lia. Qed.

Lemma same_self m m' : wireable m -> msg_ok m -> msg_same m m' -> self m'.
Proof.
  intros Hw Hok H. assert (Forall2 fld_same (msg_fields m) (msg_fields m')) as Hf.
  { destruct m; try (destruct Hw; fail); exact (proj1 (proj2 H)). }
  pose proof (fields_ok _ Hok Hw) as Hk. unfold self. clear -Hf Hk.
  induction Hf as [|f f' fs fs' H Hf IH]; [constructor|]. inversion Hk; subst. constructor; [|by apply IH].
  destruct f as [| |[]|[]|[]], f' as [| |[]|[]|[]]; cbn in *; try done; subst; try done.
  - eexists. by eapply wire_map_image.
  - eexists. by eapply wire_list_image.
  - by exists [].
  - eexists. by eapply wire_map_image.
Qed.

Lemma ex_carried m : Forall (fun v => exists v', wire v v') (marshal m) -> exists l, carried m l.
Proof.
  unfold carried. induction (marshal m) as [|v l IH]; intros H; [by exists []|].
  inversion H as [|? ? [v' Hv] Hl]; subst. destruct (IH Hl) as [l' Hl']. exists (v' :: l'). by constructor.
Qed.
Lemma ex_vid n : small n -> exists v', wire (vid n) v'. Proof. intros. eexists. by apply vid_wire. Qed.
Lemma ex_str s : exists v', wire (VStr s) v'. Proof. eexists. constructor. Qed.
Lemma ex_map m : (exists m', wire_map m m') -> exists v', wire (VMap (Some m)) v'.
Proof. intros [m' H]. eexists. by constructor. Qed.
Lemma ex_slice l : (exists l', Forall2 wire l l') -> exists v', wire (VSlice (Some l)) v'.
Proof. intros [m' H]. eexists. by constructor. Qed.
Lemma ex_tail a k : fld_self (FArgs a) -> fld_self (FKwArgs k) -> Forall (fun v => exists v', wire v v') (tail_args a k).
Proof.
  intros Ha Hk. unfold tail_args. destruct a as [a|], k as [k|]; cbn in *;
    repeat (constructor; [first [by apply ex_slice|by apply ex_map|apply ex_slice; exists []; constructor]|]); constructor.
Qed.

Lemma self_carried m : self m -> msg_ok m -> wireable m -> exists l, carried m l.
Proof.
  intros Hs Hok Hw. pose proof (fields_ok _ Hok Hw) as Hk. apply ex_carried. clear Hok. unfold self in Hs.
  destruct m; try (destruct Hw; fail); cbn [msg_fields] in *.
  all: repeat match goal with
    | H : Forall _ (_ :: _) |- _ => apply Forall_cons in H as [? H]
    end.
  all: cbn [marshal app].
  all: try match goal with |- Forall _ (_ :: _) => idtac end.
  all: repeat match goal with |- Forall _ (?x :: ?l) => apply Forall_cons; split end.
  all: try (by apply ex_vid).
  all: try (apply ex_str).
  all: try (apply ex_vid; reflexivity).
  all: try (by apply ex_tail).
  all: try match goal with |- exists v', wire (VMap ?o) v' =>
      destruct o as [mm|]; [apply ex_map; assumption|exfalso; match goal with H : fld_ok (FDict None) |- _ => by apply H end] end.
  all: try constructor.
Qed.

(** * What the router sends *)
Lemma details_self ds : (forall k v, assoc k ds = Some v -> wire v v) -> fld_self (FDict (Some ds)).
Proof. intros H. exists ds. by apply wire_map_self. Qed.
Ltac assoc_cases :=
  let k := fresh "k" in let v := fresh "v" in
  intros k v; cbn [assoc];
  repeat match goal with |- context [String.eqb ?a ?b] => destruct (String.eqb a b) end; intros [= <-].

Lemma self_simple m : msg_ok m -> Forall (fun f => match f with FId _ | FStr _ => True
  | FDict (Some []) => True | FArgs None | FKwArgs None => True | _ => False end) (msg_fields m) ->
  wireable m -> self m.
Proof.
  intros Hok Hf Hw. pose proof (fields_ok _ Hok Hw) as Hk. unfold self. clear -Hf Hk.
  induction Hf as [|f fs H Hf IH]; [constructor|]. inversion Hk; subst. constructor; [|by apply IH].
  destruct f as [| |[[]|]|[]|[]]; cbn in *; try done. exists []. apply wire_map_self. done.
Qed.

Lemma answers_self o c m b d s outs : answers o c m b d = Ret s outs -> msg_ok m -> self m -> msg_bin m = no_bin ->
  small c -> bok b -> dok d -> Forall (fun a => self (fst a)) outs.
Proof.
  intros H Hok Hs Hbin Hc Hb Hd. destruct s as [b' d'].
  destruct (answers_ok _ _ _ _ _ _ _ _ H Hok Hb Hd) as (_ & _ & Hoo).
  destruct m; cbn [answers] in H; try (injection H as _ _ <-; constructor).
  - (* ERROR *)
    unfold dstep, d_receive_message, d_error in H. destruct (negb _); [injection H as _ _ <-; constructor|].
    destruct (d_pending d !! _) as [p|] eqn:Ep; [|injection H as _ _ <-; constructor].
    injection H as _ _ <-. constructor; [|constructor]. unfold self in *. cbn [msg_fields fst] in *.
    repeat match goal with H : Forall _ (_ :: _) |- _ => apply Forall_cons in H as [? H] end.
    cbn. repeat constructor; try done; [by eapply dok_pend|]. destruct (er_details m); [done|].
    cbn. exists []. by apply wire_map_self.
  - (* PUBLISH *)
    unfold bstep, b_receive_publish in H. unfold self in Hs. cbn [msg_fields] in Hs.
    repeat match goal with H : Forall _ (_ :: _) |- _ => apply Forall_cons in H as [? H] end.
    destruct (b_by_session b !! c); [|injection H as _ _ <-; constructor].
    assert (small (next_id (b_idgen b))) as Hn by by apply next_id_small, bok_gen.
    set (ak := match mget (pu_options m) opt_acknowledge with VBool true => _ | _ => None end) in H.
    assert (Forall (fun a => self (fst a)) match ak with Some a => [a] | None => [] end) as Hak.
    { subst ak. destruct (mget _ _) as [|[]| | | | | | | | |]; try constructor; [|constructor].
      repeat constructor; done. }
    clearbody ak.
    assert (forall s l dt rs, b_heap (set_bidgen (next_id (b_idgen b)) b) !! l = Some s -> fld_self (FDict (Some dt)) ->
      Forall (fun a => self (fst a)) (map (fun r : N => (MEvent (new_event (sub_id s) (next_id (b_idgen b)) (Some dt) (pu_args m) (pu_kwargs m)), r)) rs)) as Hev.
    { intros s l dt rs' Es Hdt. assert (small (sub_id s)) by by eapply bok_sub. apply Forall_map.
      apply Forall_true. intros x. unfold self. cbn. repeat constructor; done. }
    destruct (b_find _ _ _) as [l|]; [|by injection H as _ _ <-].
    destruct (b_heap _ !! l) as [s|] eqn:Es; [|done].
    destruct (decide _); [by injection H as _ _ <-|].
    destruct (b_details _); [destruct (b_sessions _ !! c); [|done]|]; injection H as _ _ <-;
      (apply Forall_app; split; [eapply Hev; [exact Es|]|done]).
    + apply details_self. assoc_cases; first [by apply vid_wire|constructor].
    + apply details_self. done.
  - (* SUBSCRIBE *)
    unfold bstep, b_receive_message, b_subscribe in H.
    repeat (case_match; try discriminate); simplify_eq; first [exact (Forall_nil_2 _)|
      inversion Hoo as [|? ? [Ho Hw]]; subst; apply Forall_cons; split;
        [apply self_simple; [done| |done]; repeat constructor|constructor]].
  - (* UNSUBSCRIBE *)
    unfold bstep, b_receive_message, b_unsubscribe in H.
    repeat (case_match; try discriminate); simplify_eq; first [exact (Forall_nil_2 _)|
      inversion Hoo as [|? ? [Ho Hw]]; subst; apply Forall_cons; split;
        [apply self_simple; [done| |done]; repeat constructor|constructor]].
  - (* CALL *)
    assert (forall (d1 : dealer) i g dt callee, d_send d1 m i g dt callee = d_send d1 m i g dt callee) as _ by done.
    unfold dstep, d_receive_message in H. destruct (d_call o d c m) as [d1 r|] eqn:E; [|done].
    assert (match r with DMsg a to => self a | _ => True end) as Hr.
    { assert (forall a to, r = DMsg a to -> out_ok (a, to)) as Hro.
      { intros a to ->. injection H as _ _ <-. by inversion Hoo. }
      clear H Hoo. unfold d_call in E. cbn [msg_bin] in Hbin.
      destruct (d_find _ _ _) as [l|].
      2: { injection E as _ <-. destruct (Hro _ _ eq_refl). apply self_simple; [done| |done]. repeat constructor. }
      destruct (d_heap d !! l) as [g|]; [|done].
      destruct (decide _).
      { injection E as _ <-. destruct (Hro _ _ eq_refl). apply self_simple; [done| |done]. repeat constructor. }
      destruct (d_pick o g) as [[callee nx]|]; [|done].
      destruct (d_allocate _ c m callee) as [d2 inv].
      unfold self in Hs. cbn [msg_fields] in Hs.
      repeat match goal with H : Forall _ (_ :: _) |- _ => apply Forall_cons in H as [? H] end.
      assert (forall dt, fld_self (FDict (Some dt)) -> d_send d2 m inv (g_id g) dt callee = Ret d1 r ->
        match r with DMsg a to => self a | _ => True end) as Hsend.
      { intros dt Hdt. unfold d_send. destruct (d_sessions d2 !! callee); [|by intros [= _ <-]].
        rewrite Hbin. cbn [bp_binary no_bin andb]. intros [= _ <-]. destruct (Hro _ _ eq_refl) as [Ho _].
        unfold self. cbn in Ho |- *. inversion Ho as [|? ? ? Ho2]; subst. inversion Ho2; subst. repeat constructor; done. }
      assert (forall who, fld_self (FDict (Some (d_details_map c m who)))) as Hdt.
      { intros who. apply details_self. unfold d_details_map. intros k v.
        destruct (bool_opt _ _), (bool_opt _ _), who; cbn [app assoc];
        repeat match goal with |- context [String.eqb ?a ?b] => destruct (String.eqb a b) end; intros [= <-];
        first [by apply vid_wire|constructor]. }
      destruct (d_details d2); [destruct (d_sessions d2 !! c); [|done]|]; by eapply Hsend. }
    destruct r; injection H as _ _ <-; constructor; [done|constructor].
  - (* REGISTER *)
    unfold dstep, d_receive_message, d_register in H.
    repeat (case_match; try discriminate); simplify_eq; first [exact (Forall_nil_2 _)|
      inversion Hoo as [|? ? [Ho Hw]]; subst; apply Forall_cons; split;
        [apply self_simple; [done| |done]; repeat constructor|constructor]].
  - (* UNREGISTER *)
    unfold dstep, d_receive_message, d_unregister in H.
    repeat (case_match; try discriminate); simplify_eq; first [exact (Forall_nil_2 _)|
      inversion Hoo as [|? ? [Ho Hw]]; subst; apply Forall_cons; split;
        [apply self_simple; [done| |done]; repeat constructor|constructor]].
  - (* YIELD *)
    unfold dstep, d_receive_message, d_yield in H. cbn [msg_bin] in Hbin. rewrite Hbin in H. cbn [bp_binary no_bin andb] in H.
    unfold self in Hs. cbn [msg_fields] in Hs.
    repeat match goal with H : Forall _ (_ :: _) |- _ => apply Forall_cons in H as [? H] end.
    destruct (d_pending d !! _) as [p|] eqn:Ep; [|injection H as _ _ <-; constructor].
    assert (small (pe_request p)) as Hp by by eapply dok_pend.
    set (more := pe_receive p && _) in *. clearbody more.
    destruct (d_sessions _ !! pe_caller p) as [s|]; injection H as _ _ <-; constructor; [|constructor].
    unfold self. destruct more; cbn; repeat constructor; try done.
    + eexists. apply wire_map_self. assoc_cases. constructor.
    + eexists. apply wire_map_self. done.
Qed.

(** * Every step can be made *)
Section go.
Context {PL : Platform}.

Definition known_small (w : wnet) : Prop := forall c cl, w_clients w !! c = Some cl -> small c.

Lemma send_all outs cs : Forall (fun a : message * N => exists l, carried (fst a) l) outs ->
  exists cs', sent_out outs cs cs'.
Proof.
  intros H. assert (exists ls, Forall2 (fun (a : message * N) (l : list value * N) => carried (fst a) (fst l) /\ snd l = snd a) outs ls) as [ls Hls].
  { induction H as [|a outs [l Hl] H IH]; [by exists []|]. destruct IH as [ls Hls]. exists ((l, snd a) :: ls). by constructor. }
  clear H. exists (map_imap (fun x cl => Some (WClient (wc_session cl) (wc_up cl)
    (wc_down cl ++ omap (fun y : list value * N => if snd y =? x then Some (fst y) else None) ls))) cs).
  intros x. rewrite map_lookup_imap. destruct (cs !! x) as [cl|]; cbn; [|done].
  eexists. split; [|reflexivity]. clear cl. unfold answers_for.
  induction Hls as [|[a to] [l to'] outs ls [Hc Ht] Hls IH]; cbn in *; [constructor|]. subst to'.
  destruct (to =? x); cbn; [by constructor|done].
Qed.

Lemma go_step n w e : winv n w -> known_small w -> ordinary_event e -> encodable_event e ->
  exists w', wstep w e w' /\ known_small w'.
Proof.
  intros Hi Hk Ho He.
  assert (forall o op w, w_clients (wcall_broker o op w) = w_clients w) as Cb.
  { intros. unfold wcall_broker. by destruct (bstep _ _ _). }
  assert (forall o op w, w_clients (wcall_dealer o op w) = w_clients w) as Cd.
  { intros. unfold wcall_dealer. by destruct (dstep _ _ _). }
  assert (forall c cl0 x w', w_clients w !! c = Some cl0 -> w_clients w' = <[c := x]> (w_clients w) -> known_small w') as Kins.
  { intros c cl0 x w' Hc E k cl. rewrite E, lookup_insert_Some. intros [[<- _]|[_ ?]]; by eapply Hk. }
  destruct e as [d|o c|c m|o c|c|p c]; cbn [ordinary_event encodable_event] in *.
  - eexists. split; [constructor|]. intros k cl. rewrite Cd, Cb. cbn. rewrite lookup_insert_Some.
    intros [[<- _]|[_ ?]]; [exact He|by eapply Hk].
  - eexists. split; [constructor|]. intros k cl. rewrite Cd, Cb. cbn. rewrite lookup_delete_Some. intros [_ ?]. by eapply Hk.
  - destruct (w_clients w !! c) as [cl|] eqn:E; [|exists w; split; [by constructor|done]].
    destruct He as [l Hl]. destruct (sstep (wc_session cl) (SSend (Ok "") m)) as [s r] eqn:Es.
    destruct r as [out|er|x].
    + eexists. split; [by eapply ws_send|]. by eapply Kins.
    + eexists. split; [by eapply ws_send_refused|]. by eapply Kins.
    + eexists. split; [by eapply ws_send_refused|]. by eapply Kins.
  - destruct (w_clients w !! c) as [wcl|] eqn:E.
    2: { exists w. split; [|done]. apply ws_route_nothing. congruence. }
    destruct (wc_up wcl) as [|l up] eqn:Eup.
    { exists w. split; [|done]. apply ws_route_nothing. congruence. }
    pose proof (wi_clients _ _ Hi c) as Hc. rewrite E in Hc. inversion Hc as [ncl ? (Es & Hu & Hd) E1 E2|]; subst.
    rewrite Eup in Hu. apply Forall2_cons_inv_r in Hu as (m0 & up' & ((Hok & Hbin & Hmeth) & Hca & Hw) & Hu & Eu).
    destruct (deserialize_wire sh_id sh_id m0 l Hok Hca) as (m & Hm & Hs).
    pose proof (read_plain _ _ _ _ Hm) as Hb. pose proof (same_self _ _ Hw Hok Hs) as Hself.
    destruct (like_ok _ _ (same_like _ _ Hw Hs) Hw Hok) as [Hok' Hw'].
    destruct (answers o c m (w_broker w) (w_dealer w)) as [[b d] outs|x] eqn:Ea.
    + destruct Hi as [I1 I2 I3 I4 I5 I6 I7 I8].
      assert (Forall (fun a : message * N => exists l, carried (fst a) l) outs) as Hcar.
      { rewrite I1, I2 in Ea. destruct (answers_ok _ _ _ _ _ _ _ _ Ea Hok' I3 I4) as (_ & _ & Hoo).
        pose proof (answers_self _ _ _ _ _ _ _ Ea Hok' Hself Hb (Hk _ _ E) I3 I4) as Hos.
        clear -Hoo Hos. induction Hoo as [|a outs [Ha1 Ha2] Hoo IH]; [constructor|]. inversion Hos; subst. constructor; [|by apply IH].
        by apply self_carried. }
      destruct (send_all outs (<[c := WClient (wc_session wcl) up (wc_down wcl)]> (w_clients w)) Hcar) as [cs' Hcs'].
      eexists. split; [by eapply ws_route|]. intros k cl Hkl. cbn in Hkl. specialize (Hcs' k).
      destruct (<[c := _]> (w_clients w) !! k) as [cl'|] eqn:El; [|congruence].
      apply lookup_insert_Some in El as [[<- _]|[_ ?]]; by eapply Hk.
    + eexists. split; [by eapply ws_route_crash|]. by eapply Kins.
  - destruct (w_clients w !! c) as [wcl|] eqn:E.
    2: { exists w. split; [|done]. apply ws_deliver_nothing. congruence. }
    destruct (wc_down wcl) as [|l down] eqn:Edn.
    { exists w. split; [|done]. apply ws_deliver_nothing. congruence. }
    destruct (deserialize_decoded sh_id sh_id l) as [m|er|x] eqn:Ed.
    + destruct (sstep (wc_session wcl) (SReceive (Ok m))) as [s r] eqn:Es.
      eexists. split; [by eapply ws_deliver|]. by eapply Kins.
    + eexists. split; [eapply (ws_deliver_unread w c wcl l down sh_id sh_id); try done; congruence|]. by eapply Kins.
    + eexists. split; [eapply (ws_deliver_unread w c wcl l down sh_id sh_id); try done; congruence|]. by eapply Kins.
  - eexists. split; [constructor|]. intros k cl. rewrite Cd, Cb. apply Hk.
Qed.

Lemma go n w es : winv n w -> known_small w -> Forall ordinary_event es -> Forall encodable_event es ->
  exists w', wrun w es w'.
Proof.
  revert n w. induction es as [|e es IH]; intros n w Hi Hk Ho He; [exists w; constructor|].
  inversion Ho as [|? ? Ho1 Ho2]; inversion He as [|? ? He1 He2]; subst.
  destruct (go_step n w e Hi Hk Ho1 He1) as (w1 & Hs & Hk1).
  destruct (sim_step n w e w1 Hi Ho1 Hs) as [Hi1 _].
  destruct (IH _ _ Hi1 Hk1 Ho2 He2) as [w' Hr]. exists w'. by econstructor.
Qed.

Lemma never_stuck es : Forall ordinary_event es -> Forall encodable_event es -> exists w, wrun empty_wnet es w.
Proof. intros Ho He. eapply go; [apply winv_empty| |done..]. intros c cl H. cbn in H. by rewrite lookup_empty in H. Qed.
End go.
