(** Properties C97 and C98: pre-encoded payloads and the message constructors. *)
From Verif Require Import Prelude Value Msg IdGen Types BaseSpec WireSpec MsgSpec MsgWire Dealer DealerSpec DealerEx
  Construct ConstructSpec ConstructProofs PassThrough.

Local Open Scope string_scope.
Local Open Scope N_scope.

(** ** C97 *)
Theorem C97_invocation_partial : forall h o sid c d0 d outs v callee, N.of_nat (length h) < two53 ->
  drun new_dealer h = Ret d0 outs -> dstep o d0 (DReceive sid (MCall c)) = Ret d (DMsg (MInvocation v) callee) ->
  bp_binary (ca_bin c) = true ->
  exists s, present_as (dtrace_of h outs) callee s
    /\ if se_static s
       then in_bin v = ca_bin c
            /\ mget (in_details v) "x_payload_serializer" = VInt KUint64 (Z.of_N (bp_serializer (ca_bin c)))
       else in_bin v = no_bin /\ in_args v = ca_args c /\ in_kwargs v = ca_kwargs c
            /\ mget (in_details v) "x_payload_serializer" = VNil.
Proof. exact invocation_passes. Qed.
Theorem C97_result_partial : forall h o sid y d0 d outs r to, N.of_nat (length h) <= two53 ->
  drun new_dealer h = Ret d0 outs -> dstep o d0 (DReceive sid (MYield y)) = Ret d (DMsg (MResult r) to) ->
  bp_binary (yi_bin y) = true ->
  exists s, present_as (dtrace_of h outs) to s
    /\ if se_static s
       then re_bin r = yi_bin y
            /\ mget (re_details r) "x_payload_serializer" = VInt KUint64 (Z.of_N (bp_serializer (yi_bin y)))
       else re_bin r = no_bin /\ re_args r = yi_args y /\ re_kwargs r = yi_kwargs y
            /\ mget (re_details r) "x_payload_serializer" = VNil.
Proof. exact result_passes. Qed.
Example C97_ex :
  next_result h_bin e0 (bin_call 20 "static")
  = Some (DMsg (MInvocation (Invocation 3 2 (Some [("x_payload_serializer", VInt KUint64 3)]) None None
                               (BinPay true 3 "xyz"))) 2)
  /\ next_result (h_bin ++ hist [bin_call 20 "static"])%list e0 (bin_yield 3)
     = Some (DMsg (MResult (Result 20 (Some [("x_payload_serializer", VInt KUint64 2)]) None None
                               (BinPay true 2 "abc"))) 3).
Proof. split; vm_compute; reflexivity. Qed.
(** To a session without a static serializer: nothing of the payload, and
    nothing that says so. *)
Theorem C97_dynamic_refuted : exists h sid c d0 d outs v callee,
  drun new_dealer h = Ret d0 outs /\ dstep e0 d0 (DReceive sid (MCall c)) = Ret d (DMsg (MInvocation v) callee)
  /\ ca_bin c = BinPay true 3 "xyz"
  /\ in_bin v = no_bin /\ in_args v = None /\ in_kwargs v = None /\ in_details v = Some [].
Proof.
  exists h_bin, 3, (new_call_binary 20 None "dynamic" "xyz" 3), (after h_bin),
    (next_after h_bin e0 (bin_call 20 "dynamic")), (results h_bin), (Invocation 3 1 (Some []) None None no_bin), 1.
  split; [apply ran; vm_compute; reflexivity|].
  split; [apply (stepped h_bin e0 (bin_call 20 "dynamic")); vm_compute; reflexivity|]. by repeat split.
Qed.
(** None of the library's serializers carries it: Marshal leaves it out, and
    nothing that is read back has one. *)
Theorem C97_marshal_drops : forall (PL : Platform) m b sh l m', marshal (with_bin m b) = marshal m
  /\ (Forall2 wire (marshal (with_bin m b)) l -> to_message sh l = Ok m' -> msg_bin m' = no_bin).
Proof. intros PL m b sh l m'. exact (marshal_drops m b sh l m'). Qed.

(** ** C98 *)
Theorem C98_as_described : forall ops h os b h' os', urun (no_maps, []) ops = Some (h, os) ->
  ustep (h, os) (UBuild b) = Some (h', os') -> exists o, os' = (o :: os)%list /\ view h' o = described h b.
Proof. exact built_as_described. Qed.
Theorem C98_stays_partial : forall ops1 ops2 h os h' os' o, urun (no_maps, []) ops1 = Some (h, os) ->
  urun (h, os) ops2 = Some (h', os') -> o ∈ os -> Forall (spares o) ops2 -> view h' o = view h o.
Proof. exact built_stays. Qed.
Theorem C98_own_maps_partial : forall ops1 ops2 h os h' os' a l, urun (no_maps, []) ops1 = Some (h, os) ->
  urun (h, os) ops2 = Some (h', os') -> mh_maps h !! a = Some l ->
  exists l', mh_maps h' !! a = Some l'
    /\ (forall k, k <> "x_payload_serializer" -> assoc k l' = assoc k l)
    /\ ((forall b, UBuild b ∈ ops2 -> marks b <> Some a) -> l' = l).
Proof. exact own_maps_keep. Qed.
(** Two calls with one options map: the second changes what the first says
    about its payload. *)
Theorem C98_shared_options_refuted : exists ops1 ops2 h os h' os' o,
  urun (no_maps, []) ops1 = Some (h, os) /\ urun (h, os) ops2 = Some (h', os') /\ o ∈ os
  /\ view h o = MCall (Call 1 (Some [("timeout", VInt KInt 5); ("x_payload_serializer", VInt KUint64 1)])
                         "p" None None (BinPay true 1 "xyz"))
  /\ view h' o = MCall (Call 1 (Some [("timeout", VInt KInt 5); ("x_payload_serializer", VInt KUint64 2)])
                         "p" None None (BinPay true 1 "xyz")).
Proof.
  exists two_calls, second_call. eexists _, _, _, _, _. split; [reflexivity|]. split; [reflexivity|].
  split; [apply elem_of_list_here|]. split; vm_compute; reflexivity.
Qed.
(** What a peer can read. *)
Theorem C98_readable_iff : forall h b, Forall (valid h) (passed b) -> ids_small (described h b) ->
  msg_ok (described h b) <-> ~ unreadable b.
Proof. exact described_ok. Qed.
Theorem C98_readable_partial : forall (PL : Platform) h b sh sh' l, Forall (valid h) (passed b) ->
  ids_small (described h b) -> ~ unreadable b -> Forall2 wire (marshal (described h b)) l ->
  exists m, deserialize_decoded sh sh' l = Ok m /\ msg_same (described h b) m.
Proof. intros PL h b sh sh' l Hv Hi Hr. apply deserialize_wire. by apply described_ok. Qed.
Theorem C98_unreadable_rejected : forall (PL : Platform) sh h b l, Forall (valid h) (passed b) -> unreadable b ->
  Forall2 wire (marshal (described h b)) l -> ids_small (described h b) -> exists e, to_message sh l = Err e.
Proof. exact (@unreadable_rejected). Qed.
Theorem C98_nil_refuted : exists b, Forall (valid no_maps) (passed b)
  /\ forall (PL : Platform) sh l, Forall2 wire (marshal (described no_maps b)) l -> exists e, to_message sh l = Err e.
Proof.
  exists (NewWelcome 5 None). split; [by repeat constructor|]. intros PL sh l H.
  apply (unreadable_rejected sh no_maps (NewWelcome 5 None) l); [by repeat constructor|exact I|exact H|].
  by repeat constructor.
Qed.
Example C98_ex :
  views (two_calls ++ [UMap [("x", VStr "y")]; UBuild (NewYield 7 None (Some [VStr "z"]) (Some 1));
                       UBuild (NewWelcome 5 None); UBuild (NewEvent 1 2 (Some 1) None (Some 0))])%list
  = [MEvent (Event 1 2 (Some [("x", VStr "y")]) None
               (Some [("timeout", VInt KInt 5); ("x_payload_serializer", VInt KUint64 1)]));
     MWelcome (Welcome 5 None);
     MYield (Yield 7 (Some []) (Some [VStr "z"]) (Some [("x", VStr "y")]) no_bin);
     MCall (Call 1 (Some [("timeout", VInt KInt 5); ("x_payload_serializer", VInt KUint64 1)]) "p" None None
              (BinPay true 1 "xyz"))]
  /\ unreadable (NewWelcome 5 None) /\ ~ unreadable (NewYield 7 None (Some [VStr "z"]) (Some 1)).
Proof. split; [vm_compute; reflexivity|]. split; [exact I|intros []]. Qed.

(** * Assumptions *)
Print Assumptions C97_invocation_partial.
Print Assumptions C97_result_partial.
Print Assumptions C97_dynamic_refuted.
Print Assumptions C97_marshal_drops.
Print Assumptions C98_as_described.
Print Assumptions C98_stays_partial.
Print Assumptions C98_own_maps_partial.
Print Assumptions C98_shared_options_refuted.
Print Assumptions C98_readable_iff.
Print Assumptions C98_readable_partial.
Print Assumptions C98_unreadable_rejected.
Print Assumptions C98_nil_refuted.
