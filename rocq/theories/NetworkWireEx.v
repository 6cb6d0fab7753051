(** Runs through serializers, for the examples; and the rules that are needed. *)
From Verif Require Import Prelude Value Msg IdGen Types PathMatch Broker Dealer Session Mutex Network.
From Verif Require Import BrokerSpec DealerSpec WireSpec MsgSpec NetworkSpec NetworkWire NetworkWireRun DealerEx NetworkEx.

Local Open Scope string_scope.
Local Open Scope list_scope.
Local Open Scope N_scope.

(** [ordinary_event] with one of its rules left out. *)
Inductive wrule : Type := Dictionaries | NoBinary | NoMethod.
Definition ordinary_but (x : wrule) (e : nevent) : Prop :=
  match e with
  | NSend _ m => (x = Dictionaries \/ msg_ok m) /\ (x = NoBinary \/ bp_binary (msg_bin m) = false)
      /\ (x = NoMethod \/ forall k s, mget (options_of m) k <> VMethod s)
  | _ => True
  end.

Definition plain_options (m : message) : bool :=
  match options_of m with
  | None => true
  | Some l => forallb (fun x => match snd x with VOther _ => false | _ => true end) l
  end.
Lemma plain_options_sound m : plain_options m = true -> forall k s, mget (options_of m) k <> VMethod s.
Proof.
  unfold plain_options, mget. destruct (options_of m) as [l|]; [|done]. intros H k s.
  induction l as [|[k' v] l IH]; cbn in *; [done|]. apply andb_true_iff in H as [H1 H2].
  destruct (String.eqb k k'); [by destruct v|by apply IH].
Qed.
Definition small_ids (m : message) : bool :=
  forallb (fun f => match f with FId n => n <? 18446744073709551616 | FDict None => false | _ => true end) (msg_fields m)
  && match m with MAbort _ => false | _ => true end.
Lemma small_ids_sound m : small_ids m = true -> msg_ok m.
Proof.
  unfold small_ids. rewrite andb_true_iff, forallb_forall. intros [H Ha].
  assert (Forall fld_ok (msg_fields m)) as Hf.
  { apply Forall_forall. intros f Hf. apply elem_of_list_In, H in Hf. destruct f as [n| |[]|[]|[]]; cbn in *; try done.
    apply N.ltb_lt in Hf. unfold two64. lia. }
  destruct m; try done.
Qed.
Definition ordinaryb (m : message) : bool := small_ids m && negb (bp_binary (msg_bin m)) && plain_options m.
Definition ordinary_eventb (e : nevent) : bool := match e with NSend _ m => ordinaryb m | _ => true end.
Lemma ordinary_events_sound es : forallb ordinary_eventb es = true -> Forall ordinary_event es.
Proof.
  rewrite forallb_forall. intros H. apply Forall_forall. intros e He. apply elem_of_list_In, H in He.
  destruct e; try done. cbn in *. unfold ordinaryb in He. rewrite !andb_true_iff in He. destruct He as [[H1 H2] H3].
  split; [by apply small_ids_sound|]. split; [by destruct (bp_binary _)|]. by apply plain_options_sound.
Qed.

Definition ordinary_butb (x : wrule) (e : nevent) : bool :=
  match e with
  | NSend _ m => (match x with Dictionaries => true | _ => small_ids m end)
      && (match x with NoBinary => true | _ => negb (bp_binary (msg_bin m)) end)
      && (match x with NoMethod => true | _ => plain_options m end)
  | _ => true
  end.
Lemma ordinary_but_sound x es : forallb (ordinary_butb x) es = true -> Forall (ordinary_but x) es.
Proof.
  rewrite forallb_forall. intros H. apply Forall_forall. intros e He. apply elem_of_list_In, H in He.
  destruct e; try done. cbn in *. rewrite !andb_true_iff in He. destruct He as [[H1 H2] H3]. split; [|split].
  - destruct x; [by left|right; by apply small_ids_sound..].
  - destruct x; [|by left|]; right; by destruct (bp_binary _).
  - destruct x; [| |by left]; right; by apply plain_options_sound.
Qed.

(** 1 serves a procedure and 2 calls it with progressive results; 2 subscribes
    by prefix and 1 publishes, with arguments of many kinds; 1 gives the
    procedure up; 2 calls in vain. *)
Definition many : list value :=
  [VNil; VBool true; VInt KInt8 (-5); VInt KUint64 18446744073709551615; VF32 (FFin 1 (-1)); VStr "x";
   VBytes "yz"; VSlice None; VMap (Some [("a", VSlice (Some [VInt KUint16 7])); ("b", VStrs (Some ["c"; "d"]))]);
   VMethod "ticket"].
Definition run_wire : list nevent :=
  njoins [1; 2] ++ [NDisclose true true] ++ nreg 1 1 "p" [] ++
  say 2 (MSubscribe (Subscribe 1 (Some [opt "match" "prefix"]) "t.")) [2] ++
  ncall 2 2 "p" [flag "receive_progress"] 1 ++ nyield 1 2 [flag "progress"] 2 ++ nyield 1 2 [] 2 ++
  say 1 (MPublish (Publish 2 (Some [flag "acknowledge"]) "t.u" (Some many) None)) [1; 2] ++
  nunreg 1 3 1 ++ ncall 2 4 "p" [] 2.

(** One run for every rule broken. *)
Definition static_peer (n : N) : session_details :=
  new_session_details n "realm1" "john" "user" "ticket" true None None.
Definition run_odd (x : wrule) : list nevent :=
  match x with
  | Dictionaries => njoins [1] ++ say 1 (MSubscribe (Subscribe 1 None "t")) [1]
  | NoBinary => NJoin (static_peer 1) :: njoins [2] ++ nreg 1 1 "p" [] ++
      [NSend 2 (MCall (new_call_binary 2 None "p" "payload" 1)); NRoute e0 2]
  | NoMethod => njoins [1] ++ say 1 (MSubscribe (Subscribe 1 (Some [("match", VMethod "prefix")]) "t")) [1]
  end.

Section ex.
Context {PL : Platform}.

Lemma every_wire_rule_needed x : exists es w, Forall (ordinary_but x) es /\ wrun empty_wnet es w
  /\ ~ net_like (nrun empty_net es) w.
Proof.
  exists (run_odd x), (xrun empty_wnet (run_odd x)). split; [|split; [apply xrun_sound; by destruct x; vm_compute|]].
  - apply ordinary_but_sound. by destruct x; vm_compute.
  - intros H. destruct x.
    + apply nl_unread in H. by vm_compute in H.
    + pose proof (nl_clients _ _ H 1) as Hc.
      assert (exists s u d0 d1 us ws wu w0 w1,
        n_clients (nrun empty_net (run_odd NoBinary)) !! 1 = Some (Client s u [MInvocation d0] us)
        /\ w_clients (xrun empty_wnet (run_odd NoBinary)) !! 1 = Some (WClient ws wu [w0])
        /\ in_details d0 = Some [("x_payload_serializer", VInt KUint64 1)]
        /\ deserialize_decoded sh_id sh_id w0 = Ok (MInvocation d1) /\ in_details d1 = Some []
        /\ w1 = ()) as (s & u & d0 & d1 & us & ws & wu & w0 & w1 & E1 & E2 & E3 & E4 & E5 & _).
      { do 9 eexists. split; [vm_compute; reflexivity|]. split; [vm_compute; reflexivity|]. split; [reflexivity|].
        split; [vm_compute; reflexivity|]. split; reflexivity. }
      rewrite E1, E2 in Hc. inversion Hc as [? ? (_ & _ & Hd) |]; subst. cbn in Hd. inversion Hd as [|? ? ? ? Hr]; subst.
      destruct (Hr sh_id sh_id) as (m' & Em & _ & Hf). rewrite E4 in Em. injection Em as <-.
      cbn in Hf. rewrite E3, E5 in Hf. inversion Hf as [|? ? ? ? _ Hf1]; subst. inversion Hf1 as [|? ? ? ? _ Hf2]; subst.
      inversion Hf2 as [|? ? ? ? Hm]; subst. cbn in Hm. specialize (Hm "x_payload_serializer"). cbn in Hm. inversion Hm.
    + apply nl_broker in H. apply (f_equal (fun b => bool_decide (b_prefix b = ∅))) in H. by vm_compute in H.
Qed.
End ex.
