(** The network down to the bytes as a function: for running examples. *)
From Coq Require Import Ascii.
From Verif Require Import Prelude Value Msg IdGen Types PathMatch Broker Dealer Session Mutex Network Connection.
From Verif Require Import BaseSpec WireSpec MsgSpec JsonSpec JsonSafe AuthSpec BinarySpec BinaryMsg Portable PortableFacts NetworkSpec NetworkWire NetworkBytes
  NetworkBytesIds NetworkEx BrokerSpec DealerSpec DealerEx NetworkWireEx.
From Verif Require JsonFacts.

Local Open Scope string_scope.
Local Open Scope list_scope.
Local Open Scope N_scope.

Section run.
Context {PL : Platform} (sers : N -> Z).

Fixpoint send_out (outs : list (message * N)) (cs : gmap N bclient) (un : list (N * message)) : gmap N bclient * list (N * message) :=
  match outs with
  | [] => (cs, un)
  | (m, to) :: outs' =>
      match cs !! to with
      | None => send_out outs' cs un
      | Some cl =>
          match serialize_as (sers to) sh_id m with
          | Ok t => send_out outs' (<[to := BClient (bc_session cl) (bc_up cl) (bc_down cl ++ [t])]> cs) un
          | _ => send_out outs' cs ((to, m) :: un)
          end
      end
  end.
Lemma send_out_sound outs cs un cs' un' : send_out outs cs un = (cs', un') -> sends sers outs cs un cs' un'.
Proof.
  revert cs un. induction outs as [|[m to] outs IH]; intros cs un H; cbn in H; [injection H as <- <-; constructor|].
  destruct (cs !! to) as [cl|] eqn:E; [|apply se_gone; auto].
  destruct (serialize_as (sers to) sh_id m) as [t|e|w] eqn:Es.
  - eapply se_sent; eauto.
  - eapply (se_unsent _ m to _ _ _ _ _ cl sh_id); eauto. congruence.
  - eapply (se_unsent _ m to _ _ _ _ _ cl sh_id); eauto. congruence.
Qed.
Definition bytes_do (x : bnet) (e : nevent) : bnet :=
  match e with
  | NJoin d =>
      xcall_dealer any_oracle (DAdd d) (xcall_broker any_oracle (BAdd d)
        (xset_clients (<[se_id d := BClient new_session [] []]> (x_clients x)) x))
  | NLeave o c => xcall_dealer o (DRemove c) (xcall_broker o (BRemove c) (xset_clients (delete c (x_clients x)) x))
  | NDisclose p c => xcall_dealer any_oracle (DDisclose c) (xcall_broker any_oracle (BDisclose p) x)
  | NSend c m =>
      match x_clients x !! c with
      | None => x
      | Some cl =>
          let (s, r) := sstep (bc_session cl) (SSend (serialize_as (sers c) sh_id m) m) in
          xset_clients (<[c := BClient s (bc_up cl ++ match r with Ok (SData t) => [t] | _ => [] end) (bc_down cl)]> (x_clients x)) x
      end
  | NRoute o c =>
      match x_clients x !! c with
      | Some (BClient s (t :: up) down) =>
          let cs := <[c := BClient s up down]> (x_clients x) in
          match deserialize_as (sers c) sh_id sh_id t with
          | Ok m =>
              match answers o c m (x_broker x) (x_dealer x) with
              | Ret (b, d) outs =>
                  let (cs, un) := send_out outs cs (x_unsent x) in
                  BNet cs b d (x_read x) (x_rejected x) (x_unread x) un (x_crashed x)
              | Crash w => xset_crashed (w :: x_crashed x) (xset_clients cs x)
              end
          | _ => xset_unread ((c, t) :: x_unread x) (xset_clients cs x)
          end
      | _ => x
      end
  | NDeliver c =>
      match x_clients x !! c with
      | Some (BClient s up (t :: down)) =>
          match deserialize_as (sers c) sh_id sh_id t with
          | Ok m =>
              let (s', r) := sstep s (SReceive (Ok m)) in
              BNet (<[c := BClient s' up down]> (x_clients x)) (x_broker x) (x_dealer x)
                (x_read x ++ [(c, m)])
                (match r with Ok _ => x_rejected x | _ => (c, m) :: x_rejected x end)
                (x_unread x) (x_unsent x) (x_crashed x)
          | _ => xset_unread ((c, t) :: x_unread x) (xset_clients (<[c := BClient s up down]> (x_clients x)) x)
          end
      | _ => x
      end
  end.
Fixpoint bytes_run (x : bnet) (es : list nevent) : bnet :=
  match es with [] => x | e :: es' => bytes_run (bytes_do x e) es' end.

Lemma bytes_do_sound x e : xstep sers x e (bytes_do x e).
Proof.
  destruct e as [d|o c|c m|o c|c|p c]; cbn [bytes_do]; try (constructor; fail).
  - destruct (x_clients x !! c) as [cl|] eqn:E; [|by constructor].
    destruct (sstep (bc_session cl) (SSend (serialize_as (sers c) sh_id m) m)) as [s r] eqn:Es. by eapply xs_send.
  - destruct (x_clients x !! c) as [[s up down]|] eqn:E; [|apply xs_route_nothing; congruence].
    destruct up as [|t up]; [apply xs_route_nothing; intros cl; rewrite E; by intros [= <-]|].
    destruct (deserialize_as (sers c) sh_id sh_id t) as [m|er|w] eqn:Ed.
    + destruct (answers o c m (x_broker x) (x_dealer x)) as [[b d] outs|w] eqn:Ea.
      * destruct (send_out outs _ _) as [cs un] eqn:Eo.
        eapply (xs_route sers x o c (BClient s (t :: up) down) t up sh_id sh_id m); try done. by apply send_out_sound.
      * by eapply (xs_route_crash sers x o c (BClient s (t :: up) down) t up sh_id sh_id m).
    + eapply (xs_route_unread sers x o c (BClient s (t :: up) down) t up sh_id sh_id); try done. congruence.
    + eapply (xs_route_unread sers x o c (BClient s (t :: up) down) t up sh_id sh_id); try done. congruence.
  - destruct (x_clients x !! c) as [[s up down]|] eqn:E; [|apply xs_deliver_nothing; congruence].
    destruct down as [|t down]; [apply xs_deliver_nothing; intros cl; rewrite E; by intros [= <-]|].
    destruct (deserialize_as (sers c) sh_id sh_id t) as [m|er|w] eqn:Ed.
    + destruct (sstep s (SReceive (Ok m))) as [s' r] eqn:Es.
      eapply (xs_deliver sers x c (BClient s up (t :: down)) t down sh_id sh_id m); try done. by rewrite Ed.
    + eapply (xs_deliver_unread sers x c (BClient s up (t :: down)) t down sh_id sh_id); try done. congruence.
    + eapply (xs_deliver_unread sers x c (BClient s up (t :: down)) t down sh_id sh_id); try done. congruence.
Qed.
Lemma bytes_run_sound x es : xrun_bytes sers x es (bytes_run x es).
Proof.
  revert x. induction es as [|e es IH]; intros x; cbn; [constructor|]. econstructor; [apply bytes_do_sound|apply IH].
Qed.
End run.

(** * Whether something is portable *)
Fixpoint portableb (v : value) : bool :=
  match v with
  | VNil | VBool _ => true
  | VInt k z => (Z.abs z <=? 2 ^ 53)%Z && (kmin k <=? z)%Z && (z <=? kmax k)%Z && (match k with KInt16 => false | _ => true end)
                && negb ((match k with KInt => true | _ => false end) && (- 32768 <=? z)%Z && (z <? -128)%Z)
  | VF64 (FFin m e) => (Z.abs m <? 2 ^ 53)%Z && (-1074 <=? e)%Z && (e <=? 971)%Z
  | VStr s => plain s
  | VSlice (Some l) => forallb portableb l
  | VMap (Some m) => forallb (fun kv => plain (fst kv) && portableb (snd kv)) m && bool_decide (NoDup (map fst m))
  | VSlice None | VMap None => true
  | _ => false
  end.
Lemma portableb_sound v : portableb v = true -> portable v.
Proof.
  remember (WireFacts.vsize v) as n eqn:Hn. revert v Hn. induction (lt_wf n) as [n _ IH]. intros v -> H.
  destruct v as [|b|k z|f|f|s|b|[l|]|[m|]|l|x]; cbn [portableb] in H; try done; try (by constructor).
  - rewrite !andb_true_iff, negb_true_iff, !andb_false_iff in H. destruct H as [[[[H1 H2] H3] H4] H5].
    constructor; [lia|]. split; [unfold fits; lia|]. split; [by intros ->|]. intros (-> & ?). destruct H5 as [[?|?]|?]; lia || done.
  - destruct f as [m e| |]; try done. rewrite !andb_true_iff in H. constructor. exists m, e. split; [apply FloatSame.float_same_refl|lia].
  - constructor. by apply plain_name.
  - apply po_slice. cbn. rewrite forallb_forall in H. apply Forall_forall. intros y Hy.
    eapply (IH (WireFacts.vsize y)); [cbn; apply WireFacts.vsize_in in Hy; lia|done|]. by apply H, elem_of_list_In.
  - apply po_slice. constructor.
  - apply andb_true_iff in H as [H Hn]. apply bool_decide_eq_true in Hn. apply po_map; [|done]. cbn.
    rewrite forallb_forall in H. apply Forall_forall. intros [k y] Hy. pose proof Hy as Hz. apply elem_of_list_In, H in Hz.
    apply andb_true_iff in Hz as [? ?]. split; [by apply plain_name|]. apply vsize_snd in Hy.
    eapply (IH (WireFacts.vsize y)); [cbn in *; lia|done|done].
  - apply po_map; constructor.
Qed.
Definition fieldb (f : fld) : bool :=
  let ok v := portableb v && (widest v <=? 131072) && (nesting v <=? 31) in
  match f with
  | FId n => n <=? 2 ^ 53
  | FStr s => plain s
  | FDict m | FKwArgs m => ok (VMap m)
  | FArgs a => ok (VSlice a)
  end.
Lemma fieldb_sound f : fieldb f = true -> portable_field f.
Proof.
  assert (forall v, portableb v && (widest v <=? 131072) && (nesting v <=? 31) = true -> fits_all v) as E.
  { intros v. rewrite !andb_true_iff, !N.leb_le. intros [[H1 H2] H3]. split; [by apply portableb_sound|done]. }
  destruct f; cbn [fieldb portable_field]; try apply E; [by rewrite N.leb_le|apply plain_name].
Qed.
Definition portable_eventb (e : nevent) : bool :=
  match e with
  | NSend _ m => forallb fieldb (msg_fields m) && match m with MHello _ | MAuthenticate _ | MAbort _ => false | _ => true end
  | NJoin d => (se_id d <=? 2 ^ 53) && plain (se_authid d) && plain (se_authrole d)
  | _ => true
  end.
Lemma portable_events_sound es : forallb portable_eventb es = true -> Forall portable_event es.
Proof.
  rewrite forallb_forall. intros H. apply Forall_forall. intros e He. apply elem_of_list_In, H in He.
  destruct e as [d| |c m| | |]; try done; cbn [portable_eventb portable_event] in *.
  - rewrite !andb_true_iff, N.leb_le in He. destruct He as [[H1 H2] H3]. split; [done|]. by split; apply plain_name.
  - apply andb_true_iff in He as [Hf Hm]. assert (Forall portable_field (msg_fields m)) as F.
    { rewrite forallb_forall in Hf. apply Forall_forall. intros f Hx. by apply fieldb_sound, Hf, elem_of_list_In. }
    destruct m; try done.
Qed.

(** * Runs *)

(** 1 has JSON, 2 MessagePack, the others CBOR. *)
Definition three (c : N) : Z :=
  if c =? 1 then SerializerJson else if c =? 2 then SerializerMsgpack else SerializerCbor.
Lemma three_serializers c : serializer (three c).
Proof. unfold three, serializer. repeat case_match; auto. Qed.

(** 2 and 3 subscribe, and 1 publishes; 3 serves a procedure, and 2 calls it. *)
Definition load : list value :=
  [VInt KInt 42; VF64 (FFin 3 (-1)); VStr "x"; VNil;
   VMap (Some [("a", VSlice (Some [VInt KUint16 7])); ("b", VBool true)])].
Definition run_three : list nevent :=
  njoins [1; 2; 3] ++ [NDisclose true true] ++
  say 2 (MSubscribe (Subscribe 1 (Some []) "t")) [2] ++ say 3 (MSubscribe (Subscribe 1 (Some []) "t")) [3] ++
  say 1 (MPublish (Publish 1 (Some [flag "acknowledge"]) "t" (Some load) None)) [1; 2; 3] ++
  nreg 3 2 "p" [] ++ ncall 2 2 "p" [] 3 ++ nyield 3 2 [] 2.

(** 3 publishes infinity, 1 subscribed; 1 publishes a deep list, 3 subscribed; 2
    publishes a byte string, 1 subscribed. *)
Inductive failure : Type := NotSent | NotRead | Changed.
Fixpoint deep (n : nat) : value := VSlice (Some (match n with O => [] | S n' => [deep n'] end)).
Definition share (from to : N) (v : value) : list nevent :=
  njoins [from; to] ++ say to (MSubscribe (Subscribe 1 (Some []) "t")) [to] ++
  say from (MPublish (Publish 1 (Some []) "t" (Some [v]) None)) [to].
Definition run_lost (x : failure) : list nevent :=
  match x with
  | NotSent => share 3 1 (VF64 (FInf false))
  | NotRead => share 1 3 (deep 40)
  | Changed => share 2 1 (VBytes "yz")
  end.

Lemma deep_json n : json_safe (deep n).
Proof. induction n as [|n IH]; cbn; apply js_slice; repeat constructor; done. Qed.
Lemma t_text : text "t".
Proof. apply JsonFacts.ascii_text. repeat constructor. Qed.

Ltac each_field := repeat (apply Forall_cons; split; [|]); cbn [field_fits field_fits_json]; try apply Forall_nil_2.
Lemma empty_made d ints strs bins : widest (VMap d) = 0 -> default [] d = [] -> made_of ints strs bins (VMap d).
Proof. intros _ E. apply mo_map; rewrite E; constructor. Qed.
Lemma lost_fits x : Forall (fits_event three) (run_lost x).
Proof.
  assert (forall s, s = "t" -> text s /\ shorter (2 ^ 64) s) as Ht by (intros s ->; split; [apply t_text|done]).
  destruct x; unfold run_lost, share, njoins, say; cbn [map app];
    repeat (apply Forall_cons; split; [cbn [fits_event]; try exact Logic.I; try (split; [|split]; intros E; try discriminate E)|]);
    try apply Forall_nil_2; (split; [|exact Logic.I]); cbn [msg_fields pu_request pu_options pu_topic pu_args pu_kwargs su_request su_options su_topic];
    each_field; try done; try apply t_text; try (by apply Ht).
  all: try (split; [apply js_map; constructor|by vm_compute]).
  all: try (split; [apply js_slice; cbn; repeat constructor; apply deep_json|by vm_compute]).
  all: try (split; [|try split; by vm_compute]; apply mo_map; constructor).
  all: try (split; [|try split; by vm_compute]; apply mo_slice; cbn; apply Forall_cons; split; [|constructor]).
  - apply mo_f64. eexists _, _. split; [exact (ie_inf 11 52 false)|done].
  - apply mo_bytes. done.
Qed.

Lemma event_bytes_differ : ~ Forall2 msg_like
  [MSubscribed (Subscribed 1 1); MEvent (Event 1 2 (Some []) (Some [VBytes "yz"]) None)]
  [MSubscribed (Subscribed 1 1); MEvent (Event 1 2 (Some []) (Some [VStr "eXo="]) None)].
Proof.
  intros H. apply Forall2_cons in H as [_ H]. apply Forall2_cons in H as [[_ H] _]. cbn in H.
  do 3 (apply Forall2_cons in H as [_ H]). apply Forall2_cons in H as [H _].
  cbn in H. apply Forall2_cons in H as [[H|H] _]; [done|inversion H].
Qed.
(** What becomes of it. *)
Definition lost (f : failure) {PL : Platform} (es : list nevent) (x : bnet) : Prop :=
  match f with
  | NotSent => x_unsent x <> []
  | NotRead => x_unread x <> []
  | Changed => x_unsent x = [] /\ x_unread x = [] /\ x_crashed x = []
      /\ exists c, ~ Forall2 msg_like (delivered c empty_net es) (read_by c (x_read x))
  end.
Lemma all_lost (PL : Platform) f : Forall ordinary_event (run_lost f) /\ Forall (fits_event three) (run_lost f)
  /\ lost f (run_lost f) (bytes_run three empty_bnet (run_lost f)).
Proof.
  split; [apply ordinary_events_sound; destruct f; by vm_compute|]. split; [apply lost_fits|].
  destruct f; cbn [lost]; [by vm_compute|by vm_compute|].
  split; [by vm_compute|]. split; [by vm_compute|]. split; [by vm_compute|]. exists 1.
  replace (delivered 1 empty_net (run_lost Changed)) with [MSubscribed (Subscribed 1 1); MEvent (Event 1 2 (Some []) (Some [VBytes "yz"]) None)] by by vm_compute.
  replace (read_by 1 (x_read (bytes_run three empty_bnet (run_lost Changed)))) with [MSubscribed (Subscribed 1 1); MEvent (Event 1 2 (Some []) (Some [VStr "eXo="]) None)] by by vm_compute.
  exact event_bytes_differ.
Qed.
