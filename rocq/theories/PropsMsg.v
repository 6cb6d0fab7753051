(** Properties C06-C11: messages on the wire. *)
From Verif Require Import Prelude Value Msg BaseSpec WireSpec MsgSpec BaseFacts MsgFacts MsgParse MsgProof MsgWire.

(** ** C06: every message survives marshalling, a value-preserving serializer
    and ToMessage, under every iteration order of the validators. *)
Theorem C06_wire_roundtrip : forall (PL : Platform) sh m l,
  msg_ok m -> Forall2 wire (marshal m) l ->
  exists m', to_message sh l = Ok m' /\ msg_same m m'.
Proof. exact (@message_wire). Qed.
(** The Deserialize methods parse twice; that changes nothing. *)
Theorem C06_deserialize_roundtrip : forall (PL : Platform) sh sh' m l,
  msg_ok m -> Forall2 wire (marshal m) l ->
  exists m', deserialize_decoded sh sh' l = Ok m' /\ msg_same m m'.
Proof. exact (@deserialize_wire). Qed.
(** A CALL with keyword arguments only, an id above 2^32 re-encoded as a
    float64 by JSON, nested payload. *)
Example C06_ex :
  let c := new_call 9007199254740992 None "com.add" None (Some [("x", VSlice (Some [VInt KInt 1]))]) in
  let l := [VF64 (FFin 48 0); VF64 (FFin 1 53); VMap (Some []); VStr "com.add"; VSlice (Some []);
            VMap (Some [("x", VSlice (Some [VF64 (FFin 1 0)]))])] in
  msg_ok (MCall c) /\ Forall2 wire (marshal (MCall c)) l
  /\ to_message (PL := amd64) sh_rev l =
     Ok (MCall (Call 9007199254740992 (Some []) "com.add" (Some [])
                 (Some [("x", VSlice (Some [VF64 (FFin 1 0)]))]) no_bin)).
Proof.
  split; [|split; [|reflexivity]].
  - repeat constructor. discriminate.
  - cbn. repeat constructor; try discriminate.
    intros k. cbn. destruct (String.eqb k "x"); repeat constructor; discriminate.
Qed.
(** Re-encoding the id as an int16 is not survived. *)
Theorem C06_int16_refuted : forall (PL : Platform) sh, exists m l,
  msg_ok m /\ l = [VInt KUint64 35; VInt KInt16 300] /\ marshal m = [VInt KUint64 35; VInt KUint64 300]
  /\ exists e, to_message sh l = Err e.
Proof. exact (@int16_rejected). Qed.

(** ** C07: dispatch by type code.  The hypothesis on the platform says that an
    out-of-range float does not happen to become a small code: it holds on amd64
    (see the example), where such floats become 2^63. *)
Theorem C07_dispatch : forall (PL : Platform) sh l m,
  (forall f, 100 <= f2u_oor f) -> Forall go_value l ->
  to_message sh l = Ok m ->
  mtype m ∈ map r_code wamp_table
  /\ exists v vs, l = v :: vs /\ number v (Z.of_N (mtype m)).
Proof. exact (@dispatch). Qed.
Theorem C07_codes_distinct : NoDup (map r_code wamp_table).
Proof. exact table_nodup. Qed.
(** Any other number, and anything that is not a number, is an error. *)
Theorem C07_unknown_code_rejected : forall (PL : Platform) sh v vs,
  ~ (exists c, c ∈ map r_code wamp_table /\ reads_id v c) ->
  exists e, to_message sh (v :: vs) = Err e.
Proof. exact (@dispatch_unknown). Qed.
Example C07_ex_platform : forall f, 100 <= f2u_oor (Platform := amd64) f.
Proof. intros f. discriminate. Qed.
Example C07_ex : to_message (PL := amd64) sh_id [VF64 (FFin 67 0); VInt KInt 7] = Ok (MUnregistered (Unregistered 7))
  /\ to_message (PL := amd64) sh_id [VInt KInt 7; VInt KInt 7] = Err "unknown message"
  /\ to_message (PL := amd64) sh_id [VStr "67"; VInt KInt 7] = Err "unknown message".
Proof. split; [|split]; reflexivity. Qed.

(** ** C08: exactly the lists of the WAMP table are accepted, with exactly
    their contents. *)
Theorem C08_exact_acceptance : forall (PL : Platform) sh l m,
  to_message sh l = Ok m <-> list_is_message l m.
Proof. exact (@to_message_iff). Qed.
Example C08_ex : list_is_message (PL := amd64)
  [VInt KInt 8; VInt KInt 48; VF64 (FFin 5 1); VMap None; VStr "wamp.error.x"; VSlice (Some [VNil])]
  (MError (Error 48 10 None "wamp.error.x" (Some [VNil]) None)).
Proof. apply (to_message_iff sh_id). reflexivity. Qed.
Example C08_ex_not : ~ exists m, list_is_message (PL := amd64)
  [VInt KInt 8; VInt KInt 48; VInt KInt 10; VMap None; VStr "e"; VMap None] m.
Proof. intros [m H]. apply (to_message_iff sh_id) in H. discriminate H. Qed.

(** ** C09: the lists on which decoding panics, exactly. *)
Theorem C09_panics_exactly_partial : forall (PL : Platform) sh l,
  (exists w, to_message sh l = Panic w) <->
  l = [] \/ exists v v1, l = [v; v1] /\ (reads_id v 1 \/ reads_id v 5).
Proof. exact (@to_message_panics_reads). Qed.
Theorem C09_panics_refuted : forall (PL : Platform) sh,
  (exists w, to_message sh [] = Panic w)
  /\ (exists w, to_message sh [VInt KInt 1; VStr "realm1"] = Panic w)
  /\ (exists w, to_message sh [VInt KInt 5; VStr "signature"] = Panic w).
Proof. exact (@panic_witnesses). Qed.

(** ** C10: iteration order is irrelevant, also for the second parse. *)
Theorem C10_order_irrelevant : forall (PL : Platform) sh1 sh2 l,
  to_message sh1 l = to_message sh2 l.
Proof. exact (@to_message_orders). Qed.
Theorem C10_parse_order_irrelevant : forall (PL : Platform) sh1 sh2 t l,
  parse sh1 t l = parse sh2 t l.
Proof. exact (@parse_orders). Qed.
Theorem C10_second_parse_irrelevant : forall (PL : Platform) sh sh' l,
  deserialize_decoded sh sh' l = to_message sh l.
Proof. exact (@deserialize_is_to_message). Qed.
(** The hypothesis-free statement is about orders that really differ. *)
Example C10_ex : shuf sh_rev (vs_spec (VSpec 2 3 [(1%nat, VkRealm); (2%nat, VkDetails)]))
  <> shuf sh_id (vs_spec (VSpec 2 3 [(1%nat, VkRealm); (2%nat, VkDetails)])).
Proof. discriminate. Qed.

(** ** C11: an ABORT with keyword arguments and no positional ones is never
    accepted by the peer. *)
Theorem C11_abort_kwargs_refuted : forall (PL : Platform) sh d reason kw l,
  Forall2 wire (marshal (MAbort (new_abort d reason None (Some kw)))) l ->
  exists e, to_message sh l = Err e.
Proof. exact (@abort_kwargs_rejected). Qed.
(** With positional arguments (even an empty list) it is. *)
Theorem C11_abort_args_partial : forall (PL : Platform) sh d reason args kw l,
  Forall2 wire (marshal (MAbort (new_abort (Some d) reason (Some args) (Some kw)))) l ->
  exists a, to_message sh l = Ok (MAbort a)
    /\ exists args' kw', ab_args a = Some args' /\ ab_kwargs a = Some kw'
       /\ Forall2 wire args args' /\ wire_map kw kw'.
Proof. exact (@abort_args_accepted). Qed.
Example C11_ex : Forall2 wire
  (marshal (MAbort (new_abort None "wamp.error.x" None (Some []))))
  [VInt KInt 3; VMap (Some []); VStr "wamp.error.x"; VNil; VMap (Some [])].
Proof. cbn. repeat constructor; try discriminate; intros k; cbn; constructor. Qed.

(** * Assumptions *)
Print Assumptions C06_wire_roundtrip.
Print Assumptions C06_deserialize_roundtrip.
Print Assumptions C06_int16_refuted.
Print Assumptions C07_dispatch.
Print Assumptions C07_codes_distinct.
Print Assumptions C07_unknown_code_rejected.
Print Assumptions C08_exact_acceptance.
Print Assumptions C09_panics_exactly_partial.
Print Assumptions C09_panics_refuted.
Print Assumptions C10_order_irrelevant.
Print Assumptions C10_parse_order_irrelevant.
Print Assumptions C10_second_parse_irrelevant.
Print Assumptions C11_abort_kwargs_refuted.
Print Assumptions C11_abort_args_partial.
