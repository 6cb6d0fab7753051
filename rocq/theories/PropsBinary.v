(** Properties C115-C121: the bytes of CBOR and MessagePack. *)
From Coq Require Import Ascii ZifyN ZifyNat.
From Verif Require Import Prelude Value Msg BaseSpec WireSpec MsgSpec PathMatchSpec JsonSpec JsonSafe AuthSpec AuthProofs
  Payload PayloadFacts Encoding JsonFacts JsonRound Binary BinarySpec BinaryRound BinaryLaws BinaryMsg.

Local Open Scope string_scope.
Local Open Scope list_scope.
Local Open Scope N_scope.

(** ** C115: messages through CBOR. *)
Theorem C115_cbor_roundtrip : forall (PL : Platform) sh sh1 sh2 m,
  msg_ok m -> message_fits_cbor m ->
  exists s m', cbor_serialize sh m = Ok s
    /\ (exists l, item cbor_layout s (VSlice (Some l)) /\ Forall2 wire (marshal m) l)
    /\ cbor_deserialize sh1 sh2 s = Ok m' /\ msg_same m m'.
Proof. exact (@message_through_cbor). Qed.
(** What others write is read as meant. *)
Theorem C115_cbor_reads : forall s l, item cbor_layout s (VSlice (Some l)) ->
  widest (VSlice (Some l)) <= 131072 -> nesting (VSlice (Some l)) <= 32 ->
  bin_unmarshal cbor s = Ok (Some l).
Proof.
  intros. by apply (item_list_unmarshal cbor cbor_layout 131072 cbor_reads_atom cbor_reads_list cbor_reads_dict cbor_reads_key).
Qed.
Definition sample : message :=
  MCall (new_call 9007199254740993 None "com.add" (Some [VBytes "ab"; VInt KInt (-500); VF32 (FFin 12800000 (-7))])
    (Some [("y", VSlice (Some [VNil; VBool true])); ("x", VMap None)])).
Lemma sample_floats : ieee_float 8 23 (FFin 12800000 (-7)).
Proof. eexists _, (FFin 12800000 (-7)). split; [exact (ie_normal 8 23 false 143 12800000 ltac:(lia) ltac:(lia))|]. cbn. lia. Qed.
Lemma sample_made (ints : ikind -> Z -> Prop) (strs bins : string -> Prop) : ints KInt (-500)%Z -> (forall s, Forall (fun c => byte c < 128) (chars s) -> shorter 100 s -> strs s) ->
  bins "ab" -> made_of ints strs bins (VSlice (Some [VBytes "ab"; VInt KInt (-500); VF32 (FFin 12800000 (-7))]))
  /\ made_of ints strs bins (VMap (Some [("y", VSlice (Some [VNil; VBool true])); ("x", VMap None)])).
Proof.
  intros Hi Hs Hb. split.
  - apply mo_slice. repeat (apply Forall_cons; split); try apply Forall_nil; try exact I.
    + by apply mo_bytes.
    + by apply mo_int.
    + apply mo_f32, sample_floats.
  - apply mo_map.
    + repeat (apply Forall_cons; split); try apply Forall_nil; try exact I.
      * split; [apply Hs; [repeat constructor|done]|]. apply mo_slice. repeat constructor.
      * split; [apply Hs; [repeat constructor|done]|]. apply mo_map; constructor.
    + cbn. repeat (apply NoDup_cons; split; [set_solver|]). apply NoDup_nil_2.
Qed.
Example C115_ex : msg_ok sample /\ message_fits_cbor sample
  /\ cbor_serialize sh_id sample
     = Ok (be 13 0x8618301b0020000000000001a0 +:+ be 8 0x67636f6d2e616464
           +:+ be 12 0x834261623901f3fa47c35000 +:+ be 8 0xa2617982f6f56178 +:+ be 1 0xf6)
  /\ cbor_serialize sh_rev sample
     = Ok (be 13 0x8618301b0020000000000001a0 +:+ be 8 0x67636f6d2e616464
           +:+ be 12 0x834261623901f3fa47c35000 +:+ be 9 0xa26178f6617982f6f5)
  /\ cbor_deserialize (PL := amd64) sh_id sh_rev
       (be 13 0x8618301b0020000000000001a0 +:+ be 8 0x67636f6d2e616464
           +:+ be 12 0x834261623901f3fa47c35000 +:+ be 9 0xa26178f6617982f6f5)
     = Ok (MCall (Call 9007199254740993 (Some []) "com.add"
         (Some [VBytes "ab"; VInt KInt64 (-500); VF64 (FFin 12800000 (-7))])
         (Some [("x", VNil); ("y", VSlice (Some [VNil; VBool true]))]) no_bin)).
Proof.
  split; [repeat constructor; discriminate|]. split; [|split; [|split]; vm_compute; reflexivity].
  assert (T : forall s, Forall (fun c => byte c < 128) (chars s) -> shorter 100 s -> text s /\ shorter (2 ^ 64) s).
  { intros s H L. split; [by apply ascii_text|]. unfold shorter in *. lia. }
  destruct (sample_made fits (fun s => text s /\ shorter (2 ^ 64) s) (shorter (2 ^ 64))) as [A B]; [done|exact T|done|].
  split; [|exact I]. repeat (apply Forall_cons; split); try apply Forall_nil; try exact I; cbn [field_fits].
  - reflexivity.
  - split; [apply mo_map; constructor|]. cbn. lia.
  - apply T; [repeat constructor|done].
  - split; [exact A|]. cbn. lia.
  - split; [exact B|]. cbn. lia.
Qed.
(** Examples of RFC 8949, appendix A; the last is an argument longer than need be. *)
Example C115_rfc :
  bin_text cbor sh_id (VInt KInt 1000000) = be 5 0x1a000f4240
  /\ bin_text cbor sh_id (VInt KInt64 (-9223372036854775808)) = be 9 0x3b7fffffffffffffff
  /\ bin_text cbor sh_id (VF64 (FFin 4953959590107546 (-52))) = be 9 0xfb3ff199999999999a
  /\ bin_text cbor sh_id (VF64 (FInf true)) = be 3 0xf9fc00
  /\ bin_text cbor sh_id (VMap (Some [("a", VInt KInt 1); ("b", VSlice (Some [VInt KInt 2; VInt KInt 3]))]))
     = be 9 0xa26161016162820203
  /\ bin_unmarshal cbor (be 8 0x84f9040018180120) = Ok (Some [VF64 (FFin 1024 (-24)); VInt KUint64 24; VInt KUint64 1; VInt KInt64 (-1)])
  /\ bin_unmarshal cbor (be 4 0x81190001) = Ok (Some [VInt KUint64 1]).
Proof. vm_compute. repeat split. Qed.

(** ** C116: messages through MessagePack. *)
Theorem C116_msgpack_roundtrip : forall (PL : Platform) sh sh1 sh2 m,
  msg_ok m -> message_fits_msgpack m ->
  exists s m', msgpack_serialize sh m = Ok s
    /\ (exists l, item mp_layout s (VSlice (Some l)) /\ Forall2 wire (marshal m) l)
    /\ msgpack_deserialize sh1 sh2 s = Ok m' /\ msg_same m m'.
Proof. exact (@message_through_msgpack). Qed.
Theorem C116_msgpack_reads : forall s l, item mp_layout s (VSlice (Some l)) ->
  widest (VSlice (Some l)) < 2 ^ 32 -> bin_unmarshal msgpack s = Ok (Some l).
Proof.
  intros. apply (item_list_unmarshal msgpack mp_layout (2 ^ 32 - 1) mp_reads_atom mp_reads_list mp_reads_dict mp_reads_key);
    [done|lia|done].
Qed.
Example C116_ex : message_fits_msgpack (MCall (new_call 7 None "com.add" (Some [VInt KInt (-100); VInt KUint16 9; VF32 (FInf false)]) None))
  /\ msgpack_serialize sh_id (MCall (new_call 7 None "com.add" (Some [VInt KInt (-100); VInt KUint16 9; VF32 (FInf false)]) None))
     = Ok (be 10 0x95cf0000000000000030 +:+ be 9 0xcf0000000000000007 +:+ be 9 0x80a7636f6d2e616464
           +:+ be 11 0x93d09ccd0009ca7f800000)
  /\ bin_unmarshal msgpack (be 11 0x93d09ccd0009ca7f800000) = Ok (Some [VInt KInt8 (-100); VInt KUint16 9; VF32 (FInf false)])
  /\ bin_unmarshal msgpack (be 5 0x92d101f4c0) = Ok (Some [VInt KInt16 500; VNil]).
Proof.
  split; [|vm_compute; repeat split]. split; [|exact I].
  repeat (apply Forall_cons; split); try apply Forall_nil; try exact I; cbn [field_fits].
  - reflexivity.
  - split; [apply mo_map; constructor|]. cbn. lia.
  - done.
  - split; [|cbn; lia]. apply mo_slice. repeat (apply Forall_cons; split); try apply Forall_nil; try exact I.
    + apply mo_int. split; [done|]. split; [done|]. lia.
    + apply mo_int. split; [done|]. split; [done|]. by intros [].
    + apply mo_f32. eexists _, _. split; [exact (ie_inf 8 23 false)|done].
  - split; [apply mo_map; constructor|]. cbn. lia.
Qed.

(** ** C117: what CBOR writes without an error and does not read. *)
Theorem C117_not_text_refuted : forall sh x, ~ text x -> shorter (2 ^ 64) x ->
  exists s e, bin_marshal cbor sh [VStr x] = Ok s /\ bin_unmarshal cbor s = Err e.
Proof. exact cbor_not_text. Qed.
Theorem C117_deep_refuted : forall sh v,
  made_of fits (fun s => text s /\ shorter (2 ^ 64) s) (shorter (2 ^ 64)) v -> widest v <= 131072 -> 31 < nesting v ->
  exists s e, bin_marshal cbor sh [v] = Ok s /\ bin_unmarshal cbor s = Err e.
Proof. exact cbor_deep. Qed.
(** Anything else comes through, including what JSON changes. *)
Theorem C117_values_partial : forall l, N.of_nat (length l) <= 131072 -> Forall (fits_cbor 31) l ->
  forall sh, exists s l', bin_marshal cbor sh l = Ok s /\ item cbor_layout s (VSlice (Some l'))
    /\ bin_unmarshal cbor s = Ok (Some l') /\ Forall2 wire l l'.
Proof. exact cbor_list. Qed.
Fixpoint nest (n : nat) : value := match n with O => VNil | S n => VSlice (Some [nest n]) end.
Example C117_ex : ~ text (String (ascii_of_N 255) "") /\ nesting (nest 32) = 32
  /\ bin_marshal cbor sh_id [VStr (String (ascii_of_N 255) "")] = Ok (be 3 0x8161ff)
  /\ (exists e, bin_unmarshal cbor (be 3 0x8161ff) = Err e)
  /\ bin_unmarshal msgpack (be 3 0x91a1ff) = Ok (Some [VStr (String (ascii_of_N 255) "")])
  /\ (exists e, bin_unmarshal cbor (bin_text cbor sh_id (nest 33)) = Err e)
  /\ (exists l, bin_unmarshal cbor (bin_text cbor sh_id (nest 32)) = Ok l).
Proof.
  split. { intros T. pose proof (utf8_valid_text _ T 1 ltac:(done)) as V. vm_compute in V. discriminate V. }
  split; [vm_compute; reflexivity|]. split; [vm_compute; reflexivity|]. split; [eexists; vm_compute; reflexivity|].
  split; [vm_compute; reflexivity|]. split; eexists; vm_compute; reflexivity.
Qed.

(** ** C118: integers keep their value; in which kind they arrive. *)
Theorem C118_cbor_kinds : forall sh k z, fits k z ->
  exists s k', bin_marshal cbor sh [VInt k z] = Ok s /\ bin_unmarshal cbor s = Ok (Some [VInt k' z])
    /\ (k' = if (0 <=? z)%Z then KUint64 else KInt64).
Proof. exact cbor_integer. Qed.
Theorem C118_msgpack_kinds : forall sh k z, fits k z ->
  exists s k', bin_marshal msgpack sh [VInt k z] = Ok s /\ bin_unmarshal msgpack s = Ok (Some [VInt k' z])
    /\ fits k' z /\ (k' = KInt16 <-> k = KInt16 \/ (k = KInt /\ - 32768 <= z < - 128)%Z).
Proof. exact mp_integer. Qed.
(** AsInt reads them all; AsFloat64 does not read an int -200 sent by MessagePack. *)
Theorem C118_as_int : forall (PL : Platform) sh F k z, F = cbor \/ F = msgpack -> fits k z -> (z < 2 ^ 63)%Z ->
  exists s v, bin_marshal F sh [VInt k z] = Ok s /\ bin_unmarshal F s = Ok (Some [v]) /\ as_int v = (z, true).
Proof.
  intros PL sh F k z HF Hz Hb.
  assert (H : exists s k', bin_marshal F sh [VInt k z] = Ok s /\ bin_unmarshal F s = Ok (Some [VInt k' z]) /\ fits k' z).
  { destruct HF as [-> | ->].
    - destruct (cbor_integer sh k z Hz) as (s & k' & H1 & H2 & ->). eexists s, _. split; [done|]. split; [done|].
      unfold fits, kmin, kmax, two63, two64 in *. destruct (Z.leb_spec 0 z), k; lia.
    - destruct (mp_integer sh k z Hz) as (s & k' & H1 & H2 & H3 & _). eauto. }
  destruct H as (s & k' & H1 & H2 & H3). exists s, (VInt k' z). split; [done|]. split; [done|].
  unfold fits, kmin, kmax in H3. destruct k'; cbn [as_int]; try done; unfold two63, two64 in *;
    repeat match goal with |- context [(?a <=? ?b)%Z] => destruct (Z.leb_spec a b); [|lia] end; done.
Qed.
Theorem C118_as_float_refuted : forall sh z, (- 32768 <= z < - 128)%Z ->
  exists s v, bin_marshal msgpack sh [VInt KInt z] = Ok s /\ bin_unmarshal msgpack s = Ok (Some [v])
    /\ snd (as_float64 v) = false.
Proof.
  intros sh z Hz. destruct (mp_integer sh KInt z) as (s & k' & H1 & H2 & _ & H3).
  - unfold fits, kmin, kmax, two63. lia.
  - destruct H3 as [_ H3]. rewrite H3 in H2 by by right. eauto.
Qed.

(** ** C119: cut and followed messages. *)
Theorem C119_cbor : forall (PL : Platform) sh sh1 sh2 m s, message_fits_cbor m -> cbor_serialize sh m = Ok s ->
  (forall p x, s = (p ++ x)%string -> x <> "" -> exists e, cbor_deserialize sh1 sh2 p = Err e)
  /\ (forall x, x <> "" -> exists e, cbor_deserialize sh1 sh2 (s ++ x)%string = Err e).
Proof. exact (@cbor_exact_bytes). Qed.
Theorem C119_msgpack_partial : forall (PL : Platform) sh sh1 sh2 m s, message_fits_msgpack m -> msgpack_serialize sh m = Ok s ->
  (forall p x, s = (p ++ x)%string -> x <> "" -> exists e, msgpack_deserialize sh1 sh2 p = Err e)
  /\ (forall x, msgpack_deserialize sh1 sh2 (s ++ x)%string = msgpack_deserialize sh1 sh2 s).
Proof. exact (@mp_prefix_bytes). Qed.
Theorem C119_msgpack_refuted : forall (PL : Platform) sh sh1 sh2 m1 m2 s1 s2,
  message_fits_msgpack m1 -> msg_ok m1 -> msgpack_serialize sh m1 = Ok s1 -> msgpack_serialize sh m2 = Ok s2 ->
  exists m, msgpack_deserialize sh1 sh2 (s1 ++ s2)%string = Ok m /\ msg_same m1 m.
Proof.
  intros PL sh sh1 sh2 m1 m2 s1 s2 F O E _. destruct (mp_prefix_bytes sh sh1 sh2 m1 s1 F E) as [_ ->].
  destruct (message_through_msgpack sh sh1 sh2 m1 O F) as (s & m' & E' & _ & D & S). rewrite E in E'. injection E' as <-. eauto.
Qed.
Example C119_ex : exists m, msgpack_deserialize (PL := amd64) sh_id sh_id (be 3 0x922342 +:+ be 2 0xffff) = Ok m
     /\ msgpack_deserialize (PL := amd64) sh_id sh_id (be 3 0x922342) = Ok m
     /\ (exists e, cbor_deserialize (PL := amd64) sh_id sh_id (be 5 0x8218231842 +:+ be 1 0xf6) = Err e)
     /\ (exists e, cbor_deserialize (PL := amd64) sh_id sh_id (be 4 0x82182318) = Err e)
     /\ cbor_deserialize (PL := amd64) sh_id sh_id (be 5 0x8218231842) = Ok m.
Proof. exists (MUnsubscribed (Unsubscribed 66)). repeat split; try eexists; vm_compute; reflexivity. Qed.

(** ** C120: bytes on which the deserializers panic. *)
Theorem C120_panics_partial : forall (PL : Platform) F sh1 sh2 s,
  (exists w, bin_deserialize F sh1 sh2 s = Panic w) <->
  bin_unmarshal F s = Ok None \/ bin_unmarshal F s = Ok (Some [])
  \/ exists v v1, bin_unmarshal F s = Ok (Some [v; v1]) /\ (reads_id v 1 \/ reads_id v 5).
Proof. exact (@bin_deserialize_panics). Qed.
Theorem C120_panics_refuted : forall (PL : Platform) sh1 sh2,
  (exists w, cbor_deserialize sh1 sh2 (byte1 0x80) = Panic w)
  /\ (exists w, cbor_deserialize sh1 sh2 (byte1 0xf6) = Panic w)
  /\ (exists w, cbor_deserialize sh1 sh2 (be 3 0x820160) = Panic w)
  /\ (exists w, msgpack_deserialize sh1 sh2 (byte1 0x90) = Panic w)
  /\ (exists w, msgpack_deserialize sh1 sh2 (byte1 0xc0) = Panic w)
  /\ (exists w, msgpack_deserialize sh1 sh2 (be 3 0x9205a0) = Panic w).
Proof.
  intros PL sh1 sh2. unfold cbor_deserialize, msgpack_deserialize. rewrite !bin_deserialize_panics.
  split; [right; left; reflexivity|]. split; [left; reflexivity|].
  split. { right. right. do 2 eexists. split; [vm_compute; reflexivity|]. left. reflexivity. }
  split; [right; left; reflexivity|]. split; [left; reflexivity|].
  right. right. do 2 eexists. split; [vm_compute; reflexivity|]. right. reflexivity.
Qed.

(** ** C121: payloads through CBOR and MessagePack. *)
Theorem C121_cbor_payload : forall sh args kwargs,
  ~ (slice_len args = 0%nat /\ map_len kwargs = 0%nat) -> fits_cbor 31 (VSlice args) -> fits_cbor 31 (VMap kwargs) ->
  exists b a' k', encode_payload (bin_codec cbor sh) args kwargs = Ok b
    /\ decode_payload (bin_codec cbor sh) b = Ok (a', k') /\ same_args args a' /\ same_kwargs kwargs k'.
Proof. exact cbor_payload. Qed.
Theorem C121_msgpack_payload : forall sh args kwargs,
  ~ (slice_len args = 0%nat /\ map_len kwargs = 0%nat) -> fits_msgpack (VSlice args) -> fits_msgpack (VMap kwargs) ->
  exists b a' k', encode_payload (bin_codec msgpack sh) args kwargs = Ok b
    /\ decode_payload (bin_codec msgpack sh) b = Ok (a', k') /\ same_args args a' /\ same_kwargs kwargs k'.
Proof. exact mp_payload. Qed.
Example C121_ex :
  encode_payload (bin_codec cbor sh_id) None (Some [("k", VBytes "x")]) = Ok (be 7 0x8280a1616b4178)
  /\ decode_payload (bin_codec cbor sh_id) (be 7 0x8280a1616b4178) = Ok (Some [], Some [("k", VBytes "x")])
  /\ encode_payload (bin_codec msgpack sh_id) (Some [VBool true]) None = Ok (be 3 0x9191c3)
  /\ decode_payload (bin_codec msgpack sh_id) (be 3 0x9191c3) = Ok (Some [VBool true], None).
Proof. vm_compute. repeat split. Qed.

(** * Assumptions *)
Print Assumptions C115_cbor_roundtrip.
Print Assumptions C115_cbor_reads.
Print Assumptions C116_msgpack_roundtrip.
Print Assumptions C116_msgpack_reads.
Print Assumptions C117_not_text_refuted.
Print Assumptions C117_deep_refuted.
Print Assumptions C117_values_partial.
Print Assumptions C118_cbor_kinds.
Print Assumptions C118_msgpack_kinds.
Print Assumptions C118_as_int.
Print Assumptions C118_as_float_refuted.
Print Assumptions C119_cbor.
Print Assumptions C119_msgpack_partial.
Print Assumptions C119_msgpack_refuted.
Print Assumptions C120_panics_partial.
Print Assumptions C120_panics_refuted.
Print Assumptions C121_cbor_payload.
Print Assumptions C121_msgpack_payload.
