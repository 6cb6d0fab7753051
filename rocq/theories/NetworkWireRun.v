(** A codec, and the network with it as a function: for running examples. *)
From Verif Require Import Prelude Value Msg IdGen Types PathMatch Broker Dealer Session Mutex Network.
From Verif Require Import WireSpec MsgSpec NetworkSpec NetworkWire MsgWire WireFacts NetworkWireProofs NetworkWireIds NetworkWireSim.

From Verif Require Import FloatSame.

Local Open Scope string_scope.
Local Open Scope list_scope.
Local Open Scope N_scope.

(** A codec in the style of msgpack: integers come back as int64, or as uint64
    if they are too big for that. *)
Definition int_back (z : Z) : value :=
  if ((kmin KInt64 <=? z) && (z <=? kmax KInt64))%Z then VInt KInt64 z else VInt KUint64 z.
Definition method_of (n : N) : option string :=
  match n with
  | 0 => None
  | Npos p => match decode p with
              | Some s => if bool_decide (encode s = p) then Some s else None
              | None => None
              end
  end.
Fixpoint back (v : value) : value :=
  match v with
  | VInt _ z => int_back z
  | VSlice None | VMap None | VStrs None => VNil
  | VSlice (Some l) => VSlice (Some (map back l))
  | VMap (Some m) => VMap (Some (map (fun x => (fst x, back (snd x))) m))
  | VStrs (Some l) => VSlice (Some (map VStr l))
  | VOther n => match method_of n with Some s => VStr s | None => v end
  | _ => v
  end.
Fixpoint can (v : value) : bool :=
  match v with
  | VInt _ z => (kmin KInt64 <=? z)%Z && (z <=? kmax KUint64)%Z
  | VSlice (Some l) => forallb can l
  | VMap (Some m) => forallb (fun x => can (snd x)) m
  | VOther n => match method_of n with Some _ => true | None => false end
  | _ => true
  end.

Lemma method_of_method s : method_of (Npos (encode s)) = Some s.
Proof. cbn. rewrite decode_encode. by rewrite bool_decide_true. Qed.
Lemma method_of_some n s : method_of n = Some s -> VOther n = VMethod s.
Proof.
  destruct n as [|p]; cbn; [done|]. destruct (decode p) as [s'|]; [|done]. case_bool_decide; [|done].
  intros [= <-]. unfold VMethod. by subst.
Qed.

Lemma assoc_map (f : value -> value) k m :
  assoc k (map (fun x : string * value => (fst x, f (snd x))) m) = f <$> assoc k m.
Proof. induction m as [|[k' v] m IH]; cbn; [done|]. by destruct (String.eqb k k'). Qed.

Lemma back_wire v : can v = true -> wire v (back v).
Proof.
  remember (vsize v) as n eqn:Hn. revert v Hn.
  induction (lt_wf n) as [n _ IH]. intros v -> H.
  destruct v as [|b|k z|f|f|s|b|[l|]|[m|]|[l|]|x]; cbn [back] in *; try (by constructor);
    try (constructor; apply float_same_refl).
  - cbn in H. unfold int_back.
    destruct ((kmin KInt64 <=? z) && (z <=? kmax KInt64))%Z eqn:E; constructor; try done; unfold fits; cbn in *; lia.
  - constructor. cbn in H. rewrite forallb_forall in H.
    assert (forall y, y ∈ l -> wire y (back y)) as Hl.
    { intros y Hy. apply (IH (vsize y)); [|done|]; [cbn; apply vsize_in in Hy; lia|]. by apply H, elem_of_list_In. }
    clear -Hl. induction l as [|y l IHl]; cbn; constructor; [apply Hl; left|]. apply IHl. intros. apply Hl. by right.
  - constructor. cbn in H. rewrite forallb_forall in H. intros k. rewrite assoc_map.
    destruct (assoc k m) as [y|] eqn:E; cbn; constructor.
    apply (IH (vsize y)); [cbn; apply vsize_assoc in E; lia|done|].
    assert (exists k', (k', y) ∈ m) as [k' Hin].
    { clear -E. induction m as [|[k' v] m IHm]; cbn in E; [done|]. destruct (String.eqb k k').
      - injection E as ->. exists k'. left.
      - destruct (IHm E) as [k2 ?]. exists k2. by right. }
    by apply (H (k', y)), elem_of_list_In.
  - cbn in H. destruct (method_of x) as [s|] eqn:E; [|done]. apply method_of_some in E as ->. constructor.
Qed.

(** The list a message comes back as; and whether it can be encoded. *)
Definition encode_msg (m : message) : list value := map back (marshal m).
Definition can_msg (m : message) : bool := forallb can (marshal m).
Lemma encode_carried m : can_msg m = true -> carried m (encode_msg m).
Proof.
  unfold can_msg, carried, encode_msg. rewrite forallb_forall. intros H.
  assert (forall v, v ∈ marshal m -> wire v (back v)) as Hl.
  { intros v Hv. apply back_wire, H. by apply elem_of_list_In. }
  clear H. induction (marshal m) as [|v l IH]; cbn; constructor; [apply Hl; left|]. apply IH. intros. apply Hl. by right.
Qed.

(** * The network as a function *)
Section run.
Context {PL : Platform}.

Definition xstep (w : wnet) (e : nevent) : wnet :=
  match e with
  | NJoin d =>
      wcall_dealer any_oracle (DAdd d) (wcall_broker any_oracle (BAdd d)
        (wset_clients (<[se_id d := WClient new_session [] []]> (w_clients w)) w))
  | NLeave o c =>
      wcall_dealer o (DRemove c) (wcall_broker o (BRemove c) (wset_clients (delete c (w_clients w)) w))
  | NDisclose p c => wcall_dealer any_oracle (DDisclose c) (wcall_broker any_oracle (BDisclose p) w)
  | NSend c m =>
      match w_clients w !! c with
      | None => w
      | Some cl =>
          match sstep (wc_session cl) (SSend (Ok "") m) with
          | (s, Ok _) =>
              wset_clients (<[c := WClient s (wc_up cl ++ [encode_msg m]) (wc_down cl)]> (w_clients w)) w
          | (s, _) => wset_clients (<[c := WClient s (wc_up cl) (wc_down cl)]> (w_clients w)) w
          end
      end
  | NRoute o c =>
      match w_clients w !! c with
      | Some (WClient s (l :: up) down) =>
          let cs := <[c := WClient s up down]> (w_clients w) in
          match deserialize_decoded sh_id sh_id l with
          | Ok m =>
              match answers o c m (w_broker w) (w_dealer w) with
              | Ret (b, d) outs =>
                  WNet (map_imap (fun x cl => Some (WClient (wc_session cl) (wc_up cl)
                          (wc_down cl ++ map encode_msg (answers_for x outs)))) cs)
                    b d (w_read w) (w_rejected w) (w_unread w) (w_crashed w)
              | Crash x => wset_crashed (x :: w_crashed w) (wset_clients cs w)
              end
          | _ => wset_unread ((c, l) :: w_unread w) (wset_clients cs w)
          end
      | _ => w
      end
  | NDeliver c =>
      match w_clients w !! c with
      | Some (WClient s up (l :: down)) =>
          match deserialize_decoded sh_id sh_id l with
          | Ok m =>
              let (s', r) := sstep s (SReceive (Ok m)) in
              WNet (<[c := WClient s' up down]> (w_clients w)) (w_broker w) (w_dealer w)
                (w_read w ++ [(c, m)])
                (match r with Ok _ => w_rejected w | _ => (c, m) :: w_rejected w end)
                (w_unread w) (w_crashed w)
          | _ => wset_unread ((c, l) :: w_unread w) (wset_clients (<[c := WClient s up down]> (w_clients w)) w)
          end
      | _ => w
      end
  end.
Fixpoint xrun (w : wnet) (es : list nevent) : wnet :=
  match es with [] => w | e :: es' => xrun (xstep w e) es' end.

(** Everything that is encoded in a step can be. *)
Definition xcan (w : wnet) (e : nevent) : bool :=
  match e with
  | NSend c m => can_msg m
  | NRoute o c =>
      match w_clients w !! c with
      | Some (WClient s (l :: up) down) =>
          match deserialize_decoded sh_id sh_id l with
          | Ok m =>
              match answers o c m (w_broker w) (w_dealer w) with
              | Ret _ outs => forallb (fun a => can_msg (fst a)) outs
              | Crash _ => true
              end
          | _ => true
          end
      | _ => true
      end
  | _ => true
  end.
Fixpoint xcans (w : wnet) (es : list nevent) : bool :=
  match es with [] => true | e :: es' => xcan w e && xcans (xstep w e) es' end.

Lemma xstep_sound w e : xcan w e = true -> wstep w e (xstep w e).
Proof.
  intros H. destruct e as [d|o c|c m|o c|c|p c]; cbn [xstep xcan] in *.
  - constructor.
  - constructor.
  - destruct (w_clients w !! c) as [cl|] eqn:E; [|by constructor].
    destruct (sstep (wc_session cl) (SSend (Ok "") m)) as [s r] eqn:Es.
    apply encode_carried in H. destruct r as [out|e|x].
    + by eapply ws_send.
    + by eapply ws_send_refused.
    + by eapply ws_send_refused.
  - destruct (w_clients w !! c) as [[s up down]|] eqn:E; [|apply ws_route_nothing; congruence].
    destruct up as [|l up]; [apply ws_route_nothing; intros cl; rewrite E; by intros [= <-]|].
    destruct (deserialize_decoded sh_id sh_id l) as [m|er|x] eqn:Ed.
    + destruct (answers o c m (w_broker w) (w_dealer w)) as [[b d] outs|x] eqn:Ea.
      * eapply (ws_route w o c (WClient s (l :: up) down) l up sh_id sh_id m); try done.
        intros k. cbn [wc_session wc_down]. rewrite map_lookup_imap.
        destruct (<[c := _]> (w_clients w) !! k) as [cl|]; cbn; [|done].
        eexists. split; [|reflexivity]. rewrite forallb_forall in H.
        assert (forall a, a ∈ answers_for k outs -> can_msg a = true) as Ho.
        { intros a Ha. unfold answers_for in Ha. apply elem_of_list_omap in Ha as ([a' to] & Hin & Ha). cbn in Ha.
          destruct (to =? k); [|done]. injection Ha as <-. apply (H (a', to)). by apply elem_of_list_In. }
        clear -Ho. induction (answers_for k outs) as [|a l IH]; cbn; constructor; [apply encode_carried, Ho; left|].
        apply IH. intros. apply Ho. by right.
      * by eapply (ws_route_crash w o c (WClient s (l :: up) down) l up sh_id sh_id m).
    + eapply (ws_route_unread w o c (WClient s (l :: up) down) l up sh_id sh_id); try done. congruence.
    + eapply (ws_route_unread w o c (WClient s (l :: up) down) l up sh_id sh_id); try done. congruence.
  - destruct (w_clients w !! c) as [[s up down]|] eqn:E; [|apply ws_deliver_nothing; congruence].
    destruct down as [|l down]; [apply ws_deliver_nothing; intros cl; rewrite E; by intros [= <-]|].
    destruct (deserialize_decoded sh_id sh_id l) as [m|er|x] eqn:Ed.
    + destruct (sstep s (SReceive (Ok m))) as [s' r] eqn:Es.
      by eapply (ws_deliver w c (WClient s up (l :: down)) l down sh_id sh_id m).
    + eapply (ws_deliver_unread w c (WClient s up (l :: down)) l down sh_id sh_id); try done. congruence.
    + eapply (ws_deliver_unread w c (WClient s up (l :: down)) l down sh_id sh_id); try done. congruence.
  - constructor.
Qed.
Lemma xrun_sound w es : xcans w es = true -> wrun w es (xrun w es).
Proof.
  revert w. induction es as [|e es IH]; intros w H; cbn in *; [constructor|].
  apply andb_true_iff in H as [H1 H2]. econstructor; [by apply xstep_sound|by apply IH].
Qed.

End run.
