(** Properties C111-C114: JSON texts. *)
From Coq Require Import Ascii.
From Verif Require Import Prelude Value Msg BaseSpec WireSpec MsgSpec PathMatchSpec PathUtf8 Encoding EncodingFacts AuthSpec JsonSpec JsonSafe
  Payload PayloadFacts Json JsonFacts JsonRound JsonValues JsonMsg.

Local Open Scope string_scope.
Local Open Scope list_scope.
Local Open Scope N_scope.

(** ** C111: a message written by the JSON serializer is read back by it. *)
Theorem C111_json_roundtrip : forall (PL : Platform) sh sh' m,
  msg_ok m -> message_fits_json m ->
  exists s m', json_serialize m = Ok s /\ json_deserialize sh sh' s = Ok m' /\ msg_same m m'.
Proof. exact (@message_through_json). Qed.
(** The values of a list one by one. *)
Theorem C111_json_values : forall l, Forall fits_json l ->
  exists s l', json_marshal l = Ok s /\ json_unmarshal s = Ok (Some l') /\ Forall2 wire l l'.
Proof.
  intros l H. apply json_list_reads; (eapply Forall_impl; [exact H|]); by intros v [].
Qed.
Definition sample : message :=
  MCall (new_call 9007199254740992 None "com.add" (Some [VStr "a""b"; VInt KInt8 (-7); VBool true])
    (Some [("y", VSlice (Some [VNil])); ("x", VMap None)])).
Example C111_ex : msg_ok sample /\ message_fits_json sample
  /\ json_serialize sample
     = Ok "[48,9007199254740992,{},""com.add"",[""a\""b"",-7,true],{""x"":null,""y"":[null]}]"
  /\ json_deserialize (PL := amd64) sh_id sh_rev
       " [4.8e1 , 9007199254740992,{},""com.add"",[""a\u0022b"",-7,true],{""x"":null,""y"":[null]}] "
     = Ok (MCall (Call 9007199254740992 (Some []) "com.add"
         (Some [VStr "a""b"; VF64 (FFin (-7) 0); VBool true])
         (Some [("x", VNil); ("y", VSlice (Some [VNil]))]) no_bin)).
Proof.
  split; [repeat constructor; discriminate|]. split; [|split; [vm_compute; reflexivity|vm_compute; reflexivity]].
  assert (T : forall s, Forall (fun c => byte c < 128) (chars s) -> text s) by apply ascii_text.
  split; [|exact I]. repeat (apply Forall_cons; split); try apply Forall_nil; try exact I; cbn [field_fits_json].
  - discriminate.
  - split; [apply js_map; constructor|reflexivity].
  - apply T; repeat constructor.
  - split; [|reflexivity]. apply js_slice. repeat (apply Forall_cons; split); try apply Forall_nil; try exact I.
    + apply js_str, T. repeat constructor.
    + apply js_int. discriminate.
    + apply js_bool.
  - split; [|reflexivity]. apply js_map. repeat (apply Forall_cons; split); try apply Forall_nil; try exact I.
    + split; [apply T; repeat constructor|]. apply js_slice. repeat constructor.
    + split; [apply T; repeat constructor|]. apply js_map. constructor.
Qed.

(** ** C112: what the JSON serializer changes without an error. *)
Theorem C112_bytes_refuted : forall b, exists s t,
  json_marshal [VBytes b] = Ok s /\ json_unmarshal s = Ok (Some [VStr t]) /\ b64_canonical t b.
Proof. exact json_bytes_arrive. Qed.
Theorem C112_strings_partial : forall x, exists s t,
  json_marshal [VStr x] = Ok s /\ json_unmarshal s = Ok (Some [VStr t]) /\ repaired x t.
Proof. exact json_string_arrives. Qed.
Theorem C112_distinct_refuted : exists x y, x <> y /\ json_marshal [VStr x] = json_marshal [VStr y].
Proof. exists (chr 255), (chr 254). split; [discriminate|]. vm_compute. reflexivity. Qed.
Theorem C112_large_refuted : exists z l, (0 <= z < 2 ^ 63)%Z
  /\ json_marshal [VInt KInt64 z] = Ok "[9007199254740993]"
  /\ json_unmarshal "[9007199254740993]" = Ok (Some l) /\ l = [VF64 (FFin 9007199254740992 0)].
Proof. exists 9007199254740993%Z. eexists. split; [lia|]. vm_compute. repeat split. Qed.

(** ** C113: texts on which the JSON deserializer panics, exactly. *)
Theorem C113_json_panics_partial : forall (PL : Platform) sh sh' s,
  (exists w, json_deserialize sh sh' s = Panic w) <->
  json_unmarshal s = Ok None \/ json_unmarshal s = Ok (Some [])
  \/ exists v v1, json_unmarshal s = Ok (Some [v; v1]) /\ (reads_id v 1 \/ reads_id v 5).
Proof. exact (@json_deserialize_panics). Qed.
Theorem C113_json_panics_refuted : forall (PL : Platform) sh sh',
  (exists w, json_deserialize sh sh' "null" = Panic w)
  /\ (exists w, json_deserialize sh sh' " [ ]" = Panic w)
  /\ (exists w, json_deserialize sh sh' "[1,""realm1""]" = Panic w).
Proof.
  intros PL sh sh'. rewrite !json_deserialize_panics. split; [left; reflexivity|].
  split; [right; left; reflexivity|]. right. right. do 2 eexists. split; [vm_compute; reflexivity|]. left. left.
  cbn. lia.
Qed.

(** ** C114: JSON payloads. *)
Theorem C114_json_payload : forall args kwargs,
  ~ (slice_len args = 0%nat /\ map_len kwargs = 0%nat) ->
  fits_json (VSlice args) -> fits_json (VMap kwargs) ->
  exists b a' k', encode_payload json_codec args kwargs = Ok b
    /\ decode_payload json_codec b = Ok (a', k') /\ same_args args a' /\ same_kwargs kwargs k'.
Proof. exact json_payload. Qed.
Theorem C114_empty : exists b e,
  encode_payload json_codec None None = Ok b /\ decode_payload json_codec b = Err e.
Proof. do 2 eexists. split; reflexivity. Qed.
Example C114_ex :
  encode_payload json_codec None (Some [("k", VInt KUint8 7)]) = Ok "[[],{""k"":7}]"
  /\ decode_payload json_codec "[[],{""k"":7}]" = Ok (Some [], Some [("k", VF64 (FFin 7 0))]).
Proof. vm_compute. split; reflexivity. Qed.

(** * Assumptions *)
Print Assumptions C111_json_roundtrip.
Print Assumptions C111_json_values.
Print Assumptions C112_bytes_refuted.
Print Assumptions C112_strings_partial.
Print Assumptions C112_distinct_refuted.
Print Assumptions C112_large_refuted.
Print Assumptions C113_json_panics_partial.
Print Assumptions C113_json_panics_refuted.
Print Assumptions C114_json_payload.
Print Assumptions C114_empty.
