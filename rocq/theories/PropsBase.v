(** Property theorems C01-C05, C12-C20, C02/C76 (generic part). *)
From Verif Require Import Prelude Value IdGen Rawsocket Payload Mutex.
From Verif Require Import BaseSpec WireSpec BaseFacts RoundFacts MutexFacts PayloadFacts.

(** ** C01 *)
(** [calls n 0] lists the values of n successive NextID calls on a fresh generator. *)
Theorem C01_next_id_counts : forall n i v,
  calls n 0 !! i = Some v -> v = N.of_nat i mod 2 ^ 53 + 1.
Proof. intros n i v H. rewrite (calls_closed n 0 i v); [done|done|done]. Qed.
Theorem C01_all_calls_return : forall n, length (calls n 0) = n.
Proof. exact (fun n => calls_length n 0). Qed.
Theorem C01_wraps : next_id (2 ^ 53) = 1 /\ next_id (2 ^ 53 - 1) = 2 ^ 53.
Proof. done. Qed.
Example C01_ex : calls 4 0 = [1; 2; 3; 4]. Proof. done. Qed.

(** ** C02 *)
(** In every reachable configuration of goroutines [t] making [work t] calls,
    the values returned so far are exactly 1..k, in the order of completion. *)
Theorem C02_next_id_distinct : forall work c,
  creach (fun _ : unit => next_id_body) (cinit 0 work) c ->
  N.of_nat (length (c_results c)) <= 2 ^ 53 ->
  map snd (c_results c) = map (fun i => 1 + N.of_nat i) (seq 0 (length (c_results c)))
  /\ NoDup (map snd (c_results c)).
Proof.
  intros work c H Hlen.
  destruct (mutex_sequential _ next_id_step (fun _ => next_id_body_run) 0 work c H)
    as (_ & Hres & _ & _).
  assert (map snd (c_results c)
          = map (fun i => 1 + N.of_nat i) (seq 0 (length (c_results c)))) as E.
  { rewrite <- Hres, seq_next_ids; rewrite map_length; [done|]. unfold two53. lia. }
  split; [exact E|]. rewrite E. apply NoDup_fmap_2; [|apply NoDup_seq].
  intros x y Hxy. lia.
Qed.
(** Two goroutines, each calling once, with their steps interleaved: the
    second one is already waiting while the first is between read and write. *)
Example C02_ex : exists c,
  creach (fun _ : unit => next_id_body) (cinit 0 (fun t => if (t <? 2)%nat then [()] else [])) c
  /\ map snd (c_results c) = [1; 2] /\ map (fun x => fst (fst x)) (c_results c) = [1%nat; 0%nat].
Proof.
  eexists. split; [|split].
  { eapply creach_step; [eapply creach_step; [eapply creach_step; [eapply creach_step;
     [eapply creach_step; [eapply creach_step; [eapply creach_step; [eapply creach_step;
     [eapply creach_step; [eapply creach_step; [eapply creach_step; [eapply creach_step;
     [apply creach_refl|]|]|]|]|]|]|]|]|]|]|]|].
    - eapply (step_lock _ 1%nat). reflexivity.
    - eapply (step_access _ 1%nat); reflexivity.
    - eapply (step_access _ 1%nat); reflexivity.
    - eapply (step_access _ 1%nat); reflexivity.
    - eapply (step_access _ 1%nat); reflexivity.
    - eapply (step_unlock _ 1%nat); reflexivity.
    - eapply (step_lock _ 0%nat). reflexivity.
    - eapply (step_access _ 0%nat); reflexivity.
    - eapply (step_access _ 0%nat); reflexivity.
    - eapply (step_access _ 0%nat); reflexivity.
    - eapply (step_access _ 0%nat); reflexivity.
    - eapply (step_unlock _ 0%nat); reflexivity. }
  all: reflexivity.
Qed.

(** ** C76: one mutex around every method makes concurrent use sequential. *)
Theorem C76_mutex_linearizable :
  forall (S O R : Type) (body : O -> prog S R) (step : S -> O -> S * R)
         (s0 : S) (work : nat -> list O) (c : config S O R),
  (forall o s, run_prog (body o) s = step s o) ->
  creach body (cinit s0 work) c ->
  (* the finished calls, in the order in which they took the lock, *)
  (exists pending, c_order c = map fst (c_results c) ++ pending
     /\ (length pending <= 1)%nat /\ (pending = [] <-> c_lock c = None))
  (* returned what they return when run one after another, *)
  /\ (seq_run step s0 (map (fun x => snd (fst x)) (c_results c))).2 = map snd (c_results c)
  (* leaving the same state, *)
  /\ (c_lock c = None ->
      (seq_run step s0 (map (fun x => snd (fst x)) (c_results c))).1 = c_shared c)
  (* and each goroutine's calls were made in its own order. *)
  /\ (forall t, of_thread t (c_order c) ++ th_todo (c_threads c t) = work t).
Proof. exact (fun S O R body step s0 work c H => mutex_sequential body step H s0 work c). Qed.

(** ** C03 *)
(** [r] is what rand.Int63n(2^53) may return. *)
Theorem C03_generate_id_partial : forall r, r < 2 ^ 53 ->
  generate_id r <= 2 ^ 53 /\ (r <> 0 -> 1 <= generate_id r).
Proof. unfold generate_id. intros r H. lia. Qed.
(** The random source may return 0 and then the session id is 0. *)
Theorem C03_generate_id_refuted : exists r, r < 2 ^ 53 /\ ~ (1 <= generate_id r <= 2 ^ 53).
Proof. exists 0. unfold generate_id. lia. Qed.

(** ** C04 *)
Theorem C04_as_int_exact : forall (PL : Platform) k z, fits k z ->
  as_int (VInt k z) =
    if bool_decide (- 2 ^ 63 <= z < 2 ^ 63)%Z then (z, true) else (0%Z, false).
Proof. exact (fun PL => as_int_int). Qed.
Theorem C04_as_uint64_exact : forall (PL : Platform) k z, fits k z -> (0 <= z)%Z ->
  k <> KInt16 -> as_uint64 (VInt k z) = (Z.to_N z, true).
Proof.
  intros PL k z Hf Hz Hk. apply as_uint64_int; [done|]. split; [done|]. by eapply fits_nonneg_64.
Qed.
Theorem C04_as_uint64_float_exact : forall (PL : Platform) f z,
  float_is f z -> (0 <= z < 2 ^ 64)%Z ->
  as_uint64 (VF64 f) = (Z.to_N z, true) /\ as_uint64 (VF32 f) = (Z.to_N z, true).
Proof. exact (fun PL => as_uint64_float). Qed.
Theorem C04_as_float64_exact : forall k z, k <> KInt16 -> (Z.abs z <= 2 ^ 53)%Z ->
  as_float64 (VInt k z) = (FFin z 0, true).
Proof. exact as_float64_int. Qed.
Theorem C04_as_int_float_exact : forall (PL : Platform) f z,
  float_is f z -> (- 2 ^ 63 <= z < 2 ^ 63)%Z ->
  as_int (VF64 f) = (z, true) /\ as_int (VF32 f) = (z, true).
Proof. exact (fun PL => as_int_float). Qed.
(** Beyond 2^53, AsFloat64 gives the nearest float64. *)
Theorem C04_as_float64_nearest : forall k z, k <> KInt16 ->
  exists f, as_float64 (VInt k z) = (FFin f 0, true) /\ nearest_even z f.
Proof.
  intros k z Hk. exists (round53 z). split; [by destruct k|apply round53_nearest].
Qed.
(** A conversion that fails gives 0; AsUInt64 and AsFloat64 take all floats and
    all integers but int16. *)
Theorem C04_failed_is_zero : forall (PL : Platform) v,
  ((as_int v).2 = false -> (as_int v).1 = 0%Z)
  /\ ((as_uint64 v).2 = false -> (as_uint64 v).1 = 0)
  /\ ((as_float64 v).2 = false -> (as_float64 v).1 = FFin 0 0).
Proof.
  intros PL v. destruct v as [| |k z|f|f| | | | | |]; try done.
  - destruct k; repeat split; try done; cbn [as_int]; repeat (case_match; try done).
  - destruct f; repeat split; try done; cbn [as_int]; repeat (case_match; try done).
  - destruct f; repeat split; try done; cbn [as_int]; repeat (case_match; try done).
Qed.
Theorem C04_which_are_numbers : forall (PL : Platform) v,
  ((as_uint64 v).2 = true <-> (exists k z, v = VInt k z /\ k <> KInt16) \/ exists f, v = VF64 f \/ v = VF32 f)
  /\ (as_float64 v).2 = (as_uint64 v).2
  /\ (forall f, v = VF64 f \/ v = VF32 f -> as_float64 v = (f, true)).
Proof.
  intros PL v. split; [|split].
  - split.
    + destruct v as [| |k z|f|f| | | | | |]; try discriminate; [|by eauto..].
      intros H. left. exists k, z. split; [done|]. intros ->. discriminate H.
    + intros [(k & z & -> & Hk)|(f & [-> | ->])]; [by destruct k|done..].
  - destruct v as [| |k z|f|f| | | | | |]; try done. by destruct k.
  - by intros f [-> | ->].
Qed.
Example C04_ex_int : as_int (PL := amd64) (VInt KUint64 (2 ^ 63)) = (0%Z, false)
  /\ as_int (PL := amd64) (VInt KUint64 (2 ^ 63 - 1)) = ((2 ^ 63 - 1)%Z, true)
  /\ as_uint64 (PL := amd64) (VF64 (FFin 3 4)) = (48, true)
  /\ as_uint64 (PL := amd64) (VF64 (FFin 96 (-1))) = (48, true).
Proof. done. Qed.

(** The range of every kind. *)
Theorem C04_kind_ranges : forall k z,
  fits k z <-> (if kind_signed k then - 2 ^ (kind_bits k - 1) <= z < 2 ^ (kind_bits k - 1)
                else 0 <= z < 2 ^ kind_bits k)%Z.
Proof. intros k z. destruct k; unfold fits; cbn [kind_signed kind_bits kmin kmax]; unfold two63, two64; lia. Qed.

(** ** C05 *)
Theorem C05_as_uint64_faithful_partial : forall (PL : Platform) v z n,
  number v z -> (0 <= z < 2 ^ 64)%Z -> as_uint64 v = (n, true) -> Z.of_N n = z.
Proof. exact (fun PL => as_uint64_faithful). Qed.
Theorem C05_as_int_faithful_partial : forall (PL : Platform) v n,
  go_value v -> as_int v = (n, true) ->
  exists z, number v z /\ (- 2 ^ 63 <= z <= 2 ^ 63)%Z /\ (z < 2 ^ 63 -> n = z)%Z.
Proof. exact (fun PL => as_int_faithful). Qed.
(** A negative integer is reported ok with a wrong value. *)
Theorem C05_as_uint64_negative_refuted : forall (PL : Platform), exists v z n,
  go_value v /\ number v z /\ as_uint64 v = (n, true) /\ Z.of_N n <> z.
Proof.
  intros PL. exists (VInt KInt64 (-1)), (-1)%Z, 18446744073709551615. by repeat split.
Qed.
(** A non-negative integer that fits is rejected (int16 has no case). *)
Theorem C05_as_uint64_int16_refuted : forall (PL : Platform), exists z,
  fits KInt16 z /\ (0 <= z)%Z /\ (as_uint64 (VInt KInt16 z)).2 = false.
Proof. intros PL. exists 300%Z. by repeat split. Qed.
(** The float64 2^63 is reported ok by AsInt although no int holds it. *)
Theorem C05_as_int_float_refuted : forall (PL : Platform), exists f n,
  float_is f (2 ^ 63)%Z /\ as_int (VF64 f) = (n, true) /\ n <> (2 ^ 63)%Z.
Proof.
  intros PL. exists (FFin 1 63), (f2i_oor (FFin 1 63)).
  split; [done|]. split; [done|]. pose proof (f2i_oor_range (FFin 1 63)) as H.
  unfold two63 in H. intros E. rewrite E in H. by destruct H.
Qed.

(** ** C12 *)
(** An id written as a JSON number and read back is the float nearest to it
    ([round53]); AsUInt64 of that float is the id again. *)
Theorem C12_json_ids_partial : forall (PL : Platform) n, n <= 2 ^ 53 ->
  as_uint64 (VF64 (FFin (round53 (Z.of_N n)) 0)) = (n, true).
Proof.
  intros PL n H. rewrite round53_small by (unfold two53; lia).
  destruct (as_uint64_float (FFin (Z.of_N n) 0) (Z.of_N n)) as [-> _].
  - cbn. lia.
  - unfold two64. lia.
  - by rewrite N2Z.id.
Qed.
Theorem C12_nearest_float : forall z, nearest_even z (round53 z).
Proof. exact round53_nearest. Qed.
Example C12_ex_round : round53 (2 ^ 53 + 1) = (2 ^ 53)%Z /\ round53 (2 ^ 53 + 3) = (2 ^ 53 + 4)%Z
  /\ round53 (- (2 ^ 60 + 65)) = (- (2 ^ 60))%Z.
Proof. done. Qed.
Theorem C12_json_ids_refuted : forall (PL : Platform), exists n, n < 2 ^ 64 /\
  as_uint64 (VF64 (FFin (round53 (Z.of_N n)) 0)) <> (n, true).
Proof. intros PL. exists (2 ^ 53 + 1). split; [done|]. vm_compute. by intros [=]. Qed.

(** ** C13 *)
Theorem C13_payload_roundtrip : forall c args kwargs b,
  delivers c -> ~ (slice_len args = 0%nat /\ map_len kwargs = 0%nat) ->
  encode_payload c args kwargs = Ok b ->
  exists a' k', decode_payload c b = Ok (a', k')
    /\ same_args args a' /\ same_kwargs kwargs k'.
Proof. exact payload_roundtrip. Qed.
(** A codec for one list, to show the hypotheses can be met: kwargs only. *)
Definition toy_codec : codec :=
  Codec (fun l => match l with
                  | [VSlice (Some []); VMap (Some [("k", VInt KUint8 z)])] =>
                      if (z =? 7)%Z then Ok "x" else Err "no"
                  | _ => Err "no" end)
        (fun b => if String.eqb b "x"
                  then Ok (Some [VSlice (Some []); VMap (Some [("k", VF64 (FFin 7 0))])])
                  else Err "no").
Example C13_ex : delivers toy_codec
  /\ encode_payload toy_codec None (Some [("k", VInt KUint8 7)]) = Ok "x"%string
  /\ decode_payload toy_codec "x" = Ok (Some [], Some [("k", VF64 (FFin 7 0))]).
Proof.
  split; [|done]. intros l b. cbn.
  destruct l as [|v1 l]; [done|]. destruct v1 as [| | | | | | |o| | |]; try done.
  destruct o as [[|]|]; try done.
  destruct l as [|v2 l]; [done|]. destruct v2 as [| | | | | | | |o| |]; try done.
  destruct o as [[|[k v] o]|]; try done.
  destruct k as [|a k]; try done. destruct a as [[] [] [] [] [] [] [] []]; try done.
  destruct k; try done.
  destruct v as [| |kd z| | | | | | | |]; try done. destruct kd; try done.
  destruct o; try done. destruct l; try done.
  destruct (Z.eqb_spec z 7) as [->|]; [|done]. intros [=<-]. eexists. split; [done|].
  repeat constructor.
  intros k. cbn. destruct (String.eqb k "k"); constructor. by apply w_int_float.
Qed.

(** ** C14 *)
Theorem C14_payload_inverse_partial : forall cs id c args kwargs b,
  (id = 1 /\ c = c_json cs \/ id = 2 /\ c = c_msgpack cs \/ id = 3 /\ c = c_cbor cs) ->
  delivers c -> ~ (slice_len args = 0%nat /\ map_len kwargs = 0%nat) ->
  serialize_payload cs id args kwargs = Ok b ->
  exists a' k', deserialize_payload cs id b = Ok (a', k')
    /\ same_args args a' /\ same_kwargs kwargs k'.
Proof.
  intros cs id c args kwargs b [[-> ->]|[[-> ->]|[-> ->]]]; apply payload_roundtrip.
Qed.
Theorem C14_raw_payload_inverse_partial : forall cs bs b,
  serialize_payload cs 0 (Some [VBytes bs]) None = Ok b ->
  deserialize_payload cs 0 b = Ok (Some [VBytes bs], Some []).
Proof. intros cs bs b [=<-]. done. Qed.
(** Serializer id 0 takes nothing at all, or one byte string and no keyword
    arguments. *)
Theorem C14_raw_payload_exact_partial : forall cs args kwargs b,
  serialize_payload cs 0 args kwargs = Ok b <->
  map_len kwargs = 0%nat /\ ((slice_len args = 0%nat /\ b = ""%string) \/ args = Some [VBytes b]).
Proof. exact raw_payload_exact. Qed.
Theorem C14_unknown_serializer_partial : forall cs id args kwargs b, 3 < id ->
  (exists e, serialize_payload cs id args kwargs = Err e) /\ (exists e, deserialize_payload cs id b = Err e).
Proof. exact unknown_serializer. Qed.
Example C14_ex_raw : forall cs, exists e,
  serialize_payload cs 0 (Some [VBytes "raw"]) (Some [("k"%string, VNil)]) = Err e
  /\ serialize_payload cs 0 (Some [VBytes "raw"]) (Some []) = Ok "raw"%string.
Proof. intros cs. eexists. split; reflexivity. Qed.
(** The empty payload is accepted by SerializePayload but comes back as one
    empty byte string with serializer id 0, and is an error with any codec that
    rejects empty input (as json, cbor and msgpack do). *)
Theorem C14_empty_payload_refuted : forall cs, exists b a k,
  serialize_payload cs 0 None None = Ok b /\
  deserialize_payload cs 0 b = Ok (a, k) /\ slice_len a <> 0%nat.
Proof. intros cs. by exists ""%string, (Some [VBytes ""]), (Some []). Qed.
Theorem C14_empty_payload_codec_refuted : forall cs id c e,
  (id = 1 /\ c = c_json cs \/ id = 2 /\ c = c_msgpack cs \/ id = 3 /\ c = c_cbor cs) ->
  cd_unmarshal c "" = Err e ->
  exists b, serialize_payload cs id None None = Ok b
    /\ deserialize_payload cs id b = Err e.
Proof.
  intros cs id c e [[-> ->]|[[-> ->]|[-> ->]]] H; exists ""%string;
    (split; [done|]); unfold deserialize_payload, decode_payload; cbn; by rewrite H.
Qed.

(** ** C15 *)
(** The payload decoders accept exactly [], [args] and [args, kwargs], and do
    not panic unless the codec does. *)
Theorem C15_decode_exact : forall c b a k,
  decode_payload c b = Ok (a, k) <->
  exists arr, cd_unmarshal c b = Ok arr /\ payload_shape arr a k.
Proof.
  intros c b a k. unfold decode_payload. split.
  - destruct (cd_unmarshal c b) as [arr| |]; [|done..]. intros H%decode_shape. eauto.
  - intros (arr & -> & H). by apply decode_shape.
Qed.
Theorem C15_decode_no_panic : forall c b,
  (forall w, cd_unmarshal c b <> Panic w) -> forall w, decode_payload c b <> Panic w.
Proof.
  intros c b H w. unfold decode_payload. specialize (H w).
  destruct (cd_unmarshal c b); [apply decode_no_panic|done|congruence].
Qed.
(** DecodeCBOR, in contrast, panics exactly on arrays of fewer than two
    elements (unless the single element is not a list, which is an error) ... *)
Theorem C15_decode_cbor_panics_refuted : forall c b,
  (exists w, decode_cbor c b = Panic w) <->
  (exists w, cd_unmarshal c b = Panic w) \/
  cd_unmarshal c b = Ok None \/ cd_unmarshal c b = Ok (Some []) \/
  exists l, cd_unmarshal c b = Ok (Some [VSlice l]).
Proof. exact decode_cbor_panics. Qed.
(** ... and accepts arrays with extra elements. *)
Theorem C15_decode_cbor_extra_refuted : forall c b a k x,
  cd_unmarshal c b = Ok (Some [VSlice a; VMap k; x]) -> decode_cbor c b = Ok (a, k).
Proof. intros c b a k x H. apply decode_cbor_ok. eauto. Qed.
Example C15_ex : decode_cbor (Codec (fun _ => Err "") (fun _ => Ok (Some []))) "\x80"
                 = Panic "index out of range".
Proof. done. Qed.

(** ** C16 *)
Theorem C16_handshake_legal_sizes : forall (PL : Platform) ser size, (0 < size)%Z ->
  (exists b, send_handshake (Handshake ser size) = Ok b) <-> legal_size size.
Proof.
  intros PL ser size Hpos. split.
  - intros [b H]. by eapply (send_handshake_ok_inv (Handshake ser size)).
  - intros (k & Hk & ->). eexists. by apply send_handshake_legal.
Qed.
Theorem C16_handshake_roundtrip : forall (PL : Platform) ser size b, (0 < size)%Z ->
  send_handshake (Handshake ser size) = Ok b ->
  receive_handshake b = Ok (Handshake (ser mod 16) size).
Proof.
  intros PL ser size b Hpos H.
  destruct (send_handshake_ok_inv (Handshake ser size) b Hpos H) as (k & Hk & E).
  cbn in E. subst size. rewrite send_handshake_legal in H by done. injection H as <-.
  assert (0 <= ser mod 16 < 16)%Z as Hs by (apply Z.mod_pos_bound; lia).
  apply receive_handshake_spec.
  { repeat constructor; unfold hs_byte; lia. }
  eexists. split; [done|]. unfold hs_byte.
  rewrite Z.add_comm, Z_mod_plus_full, Z.mod_mod by lia.
  f_equal. f_equal. rewrite Z.div_add, Z.div_small by lia. lia.
Qed.
Example C16_ex : send_handshake (PL := amd64) (Handshake 3 (2 ^ 20)) = Ok [127; 179; 0; 0]%Z.
Proof. done. Qed.

(** ** C17 *)
Theorem C17_receive_handshake_exact : forall data, bytes data ->
  (exists hs, receive_handshake data = Ok hs) <-> exists b, data = [127; b; 0; 0]%Z.
Proof.
  intros data Hb. split.
  - intros [hs (b & -> & _)%receive_handshake_spec]; eauto.
  - intros [b ->]. eexists. apply receive_handshake_spec; eauto.
Qed.
Theorem C17_receive_handshake_canonical : forall (PL : Platform) data hs, bytes data ->
  receive_handshake data = Ok hs ->
  (0 <= hs_serializer hs < 16)%Z /\ legal_size (hs_max hs) /\ send_handshake hs = Ok data.
Proof.
  intros PL data hs Hb (b & -> & ->)%receive_handshake_spec; [|done]. cbn.
  assert (0 <= b < 256)%Z as Hr.
  { inversion Hb as [|? ? ? Hb2]; subst. by inversion Hb2. }
  pose proof (Z.div_mod b 16 ltac:(lia)) as E.
  pose proof (Z.mod_pos_bound b 16 ltac:(lia)) as Hm.
  assert (9 <= b / 16 + 9 <= 24)%Z by lia.
  repeat split; [lia|lia|by eexists|].
  rewrite send_handshake_legal by done. unfold hs_byte.
  rewrite Z.mod_mod by lia. do 3 f_equal. lia.
Qed.
Theorem C17_receive_handshake_no_panic : forall data w, receive_handshake data <> Panic w.
Proof. intros data w. unfold receive_handshake. repeat case_match; done. Qed.
Example C17_ex : receive_handshake [127; 241; 0; 0]%Z = Ok (Handshake 1 (2 ^ 24)).
Proof. done. Qed.

(** ** C18 *)
Theorem C18_header_roundtrip : forall k n, (0 <= k < 256)%Z -> (0 <= n < 2 ^ 24)%Z ->
  receive_header (send_header (Header k n)) = Ok (Header k n).
Proof. intros k n Hk Hn. rewrite header_roundtrip by done. by rewrite Z.mod_small. Qed.
Theorem C18_header_four_bytes : forall h, length (send_header h) = 4%nat /\ bytes (send_header h).
Proof.
  intros [k n]. unfold send_header, hd_kind, hd_length. rewrite int_to_bytes_closed.
  split; [done|]. repeat constructor; try (apply Z.mod_pos_bound; lia).
Qed.
Theorem C18_header_injective : forall k n k' n',
  (0 <= k < 256)%Z -> (0 <= n < 2 ^ 24)%Z -> (0 <= k' < 256)%Z -> (0 <= n' < 2 ^ 24)%Z ->
  send_header (Header k n) = send_header (Header k' n') -> k = k' /\ n = n'.
Proof.
  intros k n k' n' Hk Hn Hk' Hn' E.
  pose proof (C18_header_roundtrip k n Hk Hn) as H1.
  rewrite E, C18_header_roundtrip in H1 by done. by injection H1 as -> ->.
Qed.
Example C18_ex : send_header (Header 2 66051) = [2; 1; 2; 3]%Z. Proof. done. Qed.

(** ** C19 *)
Theorem C19_lengths_partial : forall k M n, legal_size M -> (0 <= k < 256)%Z ->
  (0 <= n <= M)%Z -> n <> (2 ^ 24)%Z ->
  receive_header (send_header (Header k n)) = Ok (Header k n).
Proof.
  intros k M n (e & He & ->) Hk Hn Hne. apply C18_header_roundtrip; [done|].
  assert (2 ^ e <= 2 ^ 24)%Z by (apply Z.pow_le_mono_r; lia). lia.
Qed.
(** With the largest negotiable size the maximal message is framed as empty. *)
Theorem C19_lengths_refuted : exists M n, legal_size M /\ (0 <= n <= M)%Z /\
  receive_header (send_header (Header 0 n)) = Ok (Header 0 0) /\ n <> 0%Z.
Proof.
  exists (2 ^ 24)%Z, (2 ^ 24)%Z. repeat split; try done. by exists 24%Z.
Qed.

(** ** C20 *)
Theorem C20_illegal_sizes_partial : forall (PL : Platform) ser size, (0 < size)%Z ->
  ~ legal_size size -> exists e, send_handshake (Handshake ser size) = Err e.
Proof. exact (fun PL ser size => send_handshake_pos_illegal (Handshake ser size)). Qed.
Theorem C20_zero_refuted : exists ser size w, (size <= 0)%Z /\
  send_handshake (PL := amd64) (Handshake ser size) = Panic w.
Proof. by exists 1%Z, 0%Z, "negative shift amount"%string. Qed.
Theorem C20_negative_refuted : forall ser size, (size <= 0)%Z ->
  send_handshake (PL := amd64) (Handshake ser size) = Panic "negative shift amount".
Proof.
  intros ser size H. unfold send_handshake, ProtocolMaxMsgSize, int_log2. cbn [hs_max].
  destruct (Z.ltb_spec (2 ^ 24) size); [lia|].
  destruct (Z.ltb_spec 0 size); [lia|]. by destruct (size =? 0)%Z.
Qed.
Example C20_ex : ~ legal_size 768 /\
  exists e, send_handshake (PL := amd64) (Handshake 1 768) = Err e.
Proof.
  split; [|by eexists]. intros (k & Hk & E).
  assert (2 ^ 9 <= 2 ^ k)%Z by (apply Z.pow_le_mono_r; lia).
  destruct (Z.eq_dec k 9) as [->|]; [done|].
  assert (2 ^ 10 <= 2 ^ k)%Z by (apply Z.pow_le_mono_r; lia). lia.
Qed.

(** ** C110 *)
Theorem C110_as_string : forall v s b, as_string v = (s, b) <->
  (b = true /\ v = VStr s) \/ (b = false /\ s = ""%string /\ forall t, v <> VStr t).
Proof. intros v s b. destruct v; cbn; split; naive_solver. Qed.
Theorem C110_as_bool : forall v x b, as_bool v = (x, b) <->
  (b = true /\ v = VBool x) \/ (b = false /\ x = false /\ forall t, v <> VBool t).
Proof. intros v x b. destruct v; cbn; split; naive_solver. Qed.
Theorem C110_to : forall v, to_string v = (as_string v).1 /\ to_bool v = (as_bool v).1.
Proof. done. Qed.
Theorem C110_anys_to_strings : forall l,
  (forall r, anys_to_strings l = Ok r <-> l = map VStr r)
  /\ ((exists e, anys_to_strings l = Err e) <-> exists v, v ∈ l /\ forall s, v <> VStr s).
Proof. exact anys_to_strings_spec. Qed.
Example C110_ex : anys_to_strings [VStr "a"; VStr ""] = Ok ["a"; ""]%string
  /\ (exists e, anys_to_strings [VStr "a"; VMethod "ticket"] = Err e) /\ as_string (VMethod "ticket") = (""%string, false).
Proof. split; [done|]. split; [by eexists|done]. Qed.

(** * Assumptions *)
Print Assumptions C01_next_id_counts.
Print Assumptions C01_all_calls_return.
Print Assumptions C01_wraps.
Print Assumptions C02_next_id_distinct.
Print Assumptions C76_mutex_linearizable.
Print Assumptions C03_generate_id_partial.
Print Assumptions C03_generate_id_refuted.
Print Assumptions C04_as_int_exact.
Print Assumptions C04_as_uint64_exact.
Print Assumptions C04_as_uint64_float_exact.
Print Assumptions C04_as_float64_exact.
Print Assumptions C04_as_int_float_exact.
Print Assumptions C04_as_float64_nearest.
Print Assumptions C04_failed_is_zero.
Print Assumptions C04_which_are_numbers.
Print Assumptions C04_kind_ranges.
Print Assumptions C05_as_uint64_faithful_partial.
Print Assumptions C05_as_int_faithful_partial.
Print Assumptions C05_as_uint64_negative_refuted.
Print Assumptions C05_as_uint64_int16_refuted.
Print Assumptions C05_as_int_float_refuted.
Print Assumptions C12_json_ids_partial.
Print Assumptions C12_nearest_float.
Print Assumptions C12_json_ids_refuted.
Print Assumptions C13_payload_roundtrip.
Print Assumptions C14_payload_inverse_partial.
Print Assumptions C14_raw_payload_inverse_partial.
Print Assumptions C14_raw_payload_exact_partial.
Print Assumptions C14_unknown_serializer_partial.
Print Assumptions C14_empty_payload_refuted.
Print Assumptions C14_empty_payload_codec_refuted.
Print Assumptions C15_decode_exact.
Print Assumptions C15_decode_no_panic.
Print Assumptions C15_decode_cbor_panics_refuted.
Print Assumptions C15_decode_cbor_extra_refuted.
Print Assumptions C16_handshake_legal_sizes.
Print Assumptions C16_handshake_roundtrip.
Print Assumptions C17_receive_handshake_exact.
Print Assumptions C17_receive_handshake_canonical.
Print Assumptions C17_receive_handshake_no_panic.
Print Assumptions C18_header_roundtrip.
Print Assumptions C18_header_four_bytes.
Print Assumptions C18_header_injective.
Print Assumptions C19_lengths_partial.
Print Assumptions C19_lengths_refuted.
Print Assumptions C20_illegal_sizes_partial.
Print Assumptions C20_zero_refuted.
Print Assumptions C20_negative_refuted.
Print Assumptions C110_as_string.
Print Assumptions C110_as_bool.
Print Assumptions C110_to.
Print Assumptions C110_anys_to_strings.
