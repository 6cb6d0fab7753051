(** Properties C131 and C132: CBOR and MessagePack in full; C119 for all bytes. *)
From Coq Require Import Ascii.
From Verif Require Import Prelude Value Msg BaseSpec WireSpec MsgSpec PathMatchSpec JsonSpec JsonFacts JsonSafe JsonRound JsonGrammar JsonTree PathUtf8 AuthSpec AuthProofs
  Payload Encoding Binary BinarySpec BinaryRound BinaryLaws BinaryGrammar BinaryExact BinaryExactLaws.

Local Open Scope string_scope.
Local Open Scope list_scope.
Local Open Scope N_scope.

(** ** C131: CBOR. *)
(** Every item that is a list of at most 32 levels is read, as what it stands for. *)
Theorem C131_reads : forall (PL : Platform) sh1 sh2 s l, stands cbor_dialect (Some 32) s (VSlice (Some l)) ->
  exists l', Forall2 alike l l' /\ bin_unmarshal cbor s = Ok (Some l')
    /\ cbor_deserialize sh1 sh2 s = deserialize_decoded sh1 sh2 l'.
Proof.
  intros PL sh1 sh2 s l (l' & A & E)%cbor_unmarshal_complete. exists l'. split; [done|]. split; [done|].
  unfold cbor_deserialize, bin_deserialize. by rewrite E.
Qed.
(** Nothing else is. *)
Theorem C131_only : forall (PL : Platform) sh1 sh2 s m, cbor_deserialize sh1 sh2 s = Ok m ->
  exists l, stands cbor_dialect (Some 32) s (VSlice (Some l)) /\ bin_unmarshal cbor s = Ok (Some l)
    /\ deserialize_decoded sh1 sh2 l = Ok m.
Proof.
  intros PL sh1 sh2 s m. unfold cbor_deserialize, bin_deserialize. destruct (bin_unmarshal cbor s) as [l|e|w] eqn:E; [|done|done].
  apply cbor_unmarshal_sound in E as H. destruct l as [l|]; [|done]. intros D. by exists l.
Qed.
Theorem C131_refuses : forall s, (forall l, ~ stands cbor_dialect (Some 32) s (VSlice (Some l))) ->
  ~ stands cbor_dialect (Some 32) s VNil -> exists e, bin_unmarshal cbor s = Err e.
Proof. exact cbor_unmarshal_refuses. Qed.
(** An item stands for one value, and it does not begin another item. *)
Theorem C131_unambiguous : forall d s x v w, stands cbor_dialect d s v -> stands cbor_dialect d (s ++ x)%string w ->
  x = "" /\ exists u, alike v u /\ alike w u.
Proof. exact cbor_unambiguous. Qed.
(** [35, 66] as a list whose end is marked, and the same message. *)
Example C131_ex : stands cbor_dialect (Some 32) (be 6 0x9f18231842ff) (VSlice (Some [VInt KUint64 35; VInt KUint64 66]))
  /\ cbor_deserialize (PL := amd64) sh_id sh_id (be 6 0x9f18231842ff) = Ok (MUnsubscribed (Unsubscribed 66)).
Proof.
  split; [|vm_compute; reflexivity].
  apply (st_open_list cbor_dialect (Some 32) (Some 31) (byte1 159) [be 2 0x1823; be 2 0x1842] [VInt KUint64 35; VInt KUint64 66] (byte1 255));
    [done|done| |done].
  constructor; [|constructor; [|constructor]]; apply st_atom, cv_atom.
  - apply (ci_unsigned 35). apply (ca_long 0 24 1 (byte1 0x23)); [apply elem_of_list_here|done].
  - apply (ci_unsigned 66). apply (ca_long 0 24 1 (byte1 0x42)); [apply elem_of_list_here|done].
Qed.
(** A text in chunks; a repeated key; a simple value; a list without an end. *)
Example C131_ex_more :
  bin_unmarshal cbor (be 5 0x9f7f616162) = Err "malformed"
  /\ bin_unmarshal cbor (be 7 0x817f61616162ff) = Ok (Some [VStr "ab"])
  /\ bin_unmarshal cbor (be 8 0x81bf616b01616b02 +:+ be 1 0xff) = Ok (Some [VMap (Some [("k", VInt KUint64 2)])])
  /\ bin_unmarshal cbor (be 3 0x81f8ff) = Ok (Some [VOther 0])
  /\ bin_unmarshal cbor (be 3 0x81f818) = Err "malformed"
  /\ bin_unmarshal cbor (be 2 0x9f01) = Err "malformed".
Proof. repeat split; vm_compute; reflexivity. Qed.

(** ** C132: MessagePack. *)
Theorem C132_reads : forall (PL : Platform) sh1 sh2 s l, stands mp_dialect None s (VSlice (Some l)) ->
  exists l', Forall2 alike l l' /\ bin_unmarshal msgpack s = Ok (Some l')
    /\ msgpack_deserialize sh1 sh2 s = deserialize_decoded sh1 sh2 l'.
Proof.
  intros PL sh1 sh2 s l (l' & A & E)%(mp_unmarshal_complete s ""). rewrite sapp_nil in E. exists l'. split; [done|]. split; [done|].
  unfold msgpack_deserialize, bin_deserialize. by rewrite E.
Qed.
Theorem C132_only : forall (PL : Platform) sh1 sh2 s m, msgpack_deserialize sh1 sh2 s = Ok m ->
  exists t r l, s = (t ++ r)%string /\ stands mp_dialect None t (VSlice (Some l)) /\ bin_unmarshal msgpack t = Ok (Some l)
    /\ deserialize_decoded sh1 sh2 l = Ok m.
Proof. exact (@mp_deserialize_only). Qed.
Theorem C132_unambiguous : forall d s x v w, stands mp_dialect d s v -> stands mp_dialect d (s ++ x)%string w ->
  x = "" /\ exists u, alike v u /\ alike w u.
Proof. exact mp_unambiguous. Qed.
(** Not only items: after an item anything may follow. *)
Theorem C132_exact_refuted : exists s m, msgpack_deserialize (PL := amd64) sh_id sh_id s = Ok m
  /\ forall v, ~ stands mp_dialect None s v.
Proof.
  exists (be 3 0x922342 +:+ be 1 0xc0), (MUnsubscribed (Unsubscribed 66)). split; [vm_compute; reflexivity|]. intros v H.
  assert (I : stands mp_dialect None (be 3 0x922342) (VSlice (Some [VInt KInt8 35; VInt KInt8 66]))).
  { apply (st_list mp_dialect None None (byte1 0x92) [byte1 0x23; byte1 0x42]); [done|apply (mc_fix 144 220 221 2); done|].
    constructor; [|constructor; [|constructor]]; apply st_atom, mv_atom; [by apply (mi_positive 35)|by apply (mi_positive 66)]. }
  by destruct (mp_unambiguous _ _ _ _ _ I H).
Qed.
(** The time; other extensions are refused. *)
Example C132_ex : bin_unmarshal msgpack (be 7 0x91d6ff00000000) = Ok (Some [VOther 0])
  /\ stands mp_dialect None (be 7 0x91d6ff00000000) (VSlice (Some [VOther 0]))
  /\ bin_unmarshal msgpack (be 7 0x91d60500000000) = Err "malformed"
  /\ bin_unmarshal msgpack (be 8 0x9182a16b01c4016b +:+ be 1 0x02) = Ok (Some [VMap (Some [("k", VInt KInt8 2)])]).
Proof.
  split; [vm_compute; reflexivity|]. split; [|repeat split; vm_compute; reflexivity].
  apply (st_list mp_dialect None None (byte1 0x91) [byte1 214 +:+ byte1 255 +:+ be 4 0]); [done|apply (mc_fix 144 220 221 1); done|].
  constructor; [|constructor]. apply st_atom. apply (mv_time (byte1 214)). by left.
Qed.

(** ** C119 for all bytes, not only those of messages. *)
Theorem C119_cbor_all : forall s x l, bin_unmarshal cbor s = Ok l -> x <> "" -> exists e, bin_unmarshal cbor (s ++ x)%string = Err e.
Proof. exact cbor_no_more. Qed.
Theorem C119_msgpack_all_refuted : forall s x l, bin_unmarshal msgpack s = Ok l -> bin_unmarshal msgpack (s ++ x)%string = Ok l.
Proof. exact mp_more_ignored. Qed.
Example C119_ex_all : bin_unmarshal cbor (be 3 0x9f01ff) = Ok (Some [VInt KUint64 1]).
Proof. vm_compute; reflexivity. Qed.

(** * Assumptions *)
Print Assumptions C131_reads.
Print Assumptions C131_only.
Print Assumptions C131_refuses.
Print Assumptions C131_unambiguous.
Print Assumptions C132_reads.
Print Assumptions C132_only.
Print Assumptions C132_unambiguous.
Print Assumptions C132_exact_refuted.
Print Assumptions C119_cbor_all.
Print Assumptions C119_msgpack_all_refuted.
