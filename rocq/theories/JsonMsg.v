(** Proofs: messages and payloads through JSON. *)
From Coq Require Import Ascii.
From Verif Require Import Prelude Value Msg BaseSpec WireSpec MsgSpec MsgWire PathMatchSpec PathUtf8 Encoding EncodingFacts AuthSpec
  AuthProofs JsonSpec JsonFacts JsonSafe Payload PayloadFacts Json JsonRound JsonValues.

Local Open Scope string_scope.
Local Open Scope list_scope.
Local Open Scope N_scope.

Lemma fits_id n : n <= 2 ^ 53 -> fits_json (vid n).
Proof. intros H. split; [|done]. constructor. rewrite Z.abs_eq by lia. lia. Qed.
Lemma fits_str s : text s -> fits_json (VStr s).
Proof. intros H. split; [by constructor|done]. Qed.
Lemma fits_code n : n < 100 -> fits_json (vid n).
Proof. intros H. apply fits_id. lia. Qed.
Lemma fits_empty : fits_json (VSlice (Some [])).
Proof. split; [apply js_slice; constructor|done]. Qed.
Lemma fits_nil : fits_json (VSlice None).
Proof. split; [apply js_slice; constructor|done]. Qed.
Lemma fits_or_empty m : fits_json (VMap m) -> fits_json (VMap (or_empty m)).
Proof. destruct m; [done|]. intros _. split; [apply js_map; constructor|done]. Qed.

Ltac each := repeat first [apply Forall_cons; split | apply Forall_nil; exact I | assumption | apply fits_empty | apply fits_nil].
Lemma fits_tail a k : fits_json (VSlice a) -> fits_json (VMap k) -> Forall fits_json (tail_args a k).
Proof. intros Ha Hk. unfold tail_args. destruct a, k; cbn; each. Qed.
Lemma fits_tail_abort a k : fits_json (VSlice a) -> fits_json (VMap k) -> Forall fits_json (tail_args_abort a k).
Proof. intros Ha Hk. unfold tail_args_abort. destruct a, k; cbn; each. Qed.

Lemma message_fits m : message_fits_json m -> Forall fits_json (marshal m).
Proof.
  intros [F H]. destruct m; cbn [msg_fields marshal] in *;
    repeat match goal with F : Forall _ (_ :: _) |- _ =>
      let A := fresh "A" in let B := fresh "B" in apply Forall_cons in F as [A B]; cbn [field_fits_json] in A end;
    cbn [app];
    repeat first [apply Forall_cons; split | apply Forall_nil; exact I | apply fits_tail | apply fits_tail_abort
      | apply fits_code; reflexivity | apply fits_id; assumption | apply fits_str; assumption | apply fits_or_empty | assumption].
  match goal with |- context [he_authextra ?x] => rename x into h end.
  destruct H as (H1 & H2 & H3 & H4 & H5 & H6).
  assert (T : forall s, Forall (fun c => byte c < 128) (chars s) -> text s) by apply ascii_text.
  assert (E1 : json_safe (VMap (or_empty (he_authextra h)))).
  { destruct (he_authextra h); [done|apply js_map; constructor]. }
  assert (E2 : nesting (VMap (or_empty (he_authextra h))) < 9999).
  { destruct (he_authextra h); [done|cbn; lia]. }
  split.
  - constructor. cbn [default from_option id]. 
    repeat first [apply Forall_cons; split | apply Forall_nil; exact I]; cbn [fst snd];
      (split; [apply T; repeat constructor|]); try assumption; by constructor.
  - cbn [nesting map snd foldr]. cbn [nesting] in E2, H6. destruct (he_authmethods h); lia.
Qed.

Theorem message_through_json `{PL : Platform} sh sh' m : msg_ok m -> message_fits_json m ->
  exists s m', json_serialize m = Ok s /\ json_deserialize sh sh' s = Ok m' /\ msg_same m m'.
Proof.
  intros Hok Hf%message_fits. destruct (json_list_reads (marshal m)) as (s & l & E & D & W).
  - eapply Forall_impl; [exact Hf|]. by intros v [].
  - eapply Forall_impl; [exact Hf|]. by intros v [].
  - destruct (deserialize_wire sh sh' m l Hok W) as (m' & Hm & Hs). exists s, m'. split; [done|]. split; [|done].
    unfold json_deserialize. rewrite D. exact Hm.
Qed.

(** ** Bytes and broken strings *)
Lemma json_bytes_text b : json_text (VBytes b) = json_string (b64_encode b).
Proof. cbn [json_text]. rewrite json_plain; [done|]. eapply canonical_plain, encode_canonical. Qed.

Lemma one_string s t v : json_text v = json_string s -> has_text v = true -> repaired s t ->
  exists j, json_marshal [v] = Ok j /\ json_unmarshal j = Ok (Some [VStr t]).
Proof.
  intros E H R. eexists. split; [unfold json_marshal; cbn [forallb]; rewrite H; reflexivity|].
  cbn [json_text map String.concat]. rewrite E.
  assert (J : jreads 0 (json_string s) (VStr t)).
  { intros fuel rest Hf _. destruct fuel as [|f]; [pose proof (starts_length _ (starts_string s)); lia|].
    cbn [Json.read_value]. rewrite starts_skip by apply starts_string. rewrite json_string_app.
    change (byte """" =? 34) with true. cbv iota. destruct (unquote_literal s) as (t' & R' & ->).
    by rewrite (repaired_fun s t t'). }
  pose proof (list_reads 0 [json_string s] [VStr t]) as L. cbn [String.concat] in L. unfold json_unmarshal.
  assert (M : jreads 10000 ("[" ++ json_string s ++ "]")%string (VSlice (Some [VStr t]))).
  { replace 10000 with (1 + 9999) by reflexivity. apply (list_reads 9999 [json_string s] [VStr t]).
    constructor; [|constructor]. split; [apply starts_string|]. intros fuel rest Hf Hr.
    pose proof (starts_length _ (starts_string s)).
    specialize (J fuel rest Hf Hr). destruct fuel as [|f]; [lia|]. cbn [Json.read_value] in J |- *.
    rewrite starts_skip in J |- * by apply starts_string. rewrite json_string_app in J |- *. exact J. }
  rewrite <- (sapp_nil ("[" ++ json_string s ++ "]")%string) at 2. rewrite M; [done|lia|by left].
Qed.
Lemma json_string_arrives s : exists j t, json_marshal [VStr s] = Ok j /\ json_unmarshal j = Ok (Some [VStr t])
  /\ repaired s t.
Proof.
  destruct (unquote_literal s) as (t & R & _). destruct (one_string s t (VStr s)) as (j & H1 & H2); eauto.
Qed.
Lemma json_bytes_arrive b : exists j t, json_marshal [VBytes b] = Ok j /\ json_unmarshal j = Ok (Some [VStr t])
  /\ b64_canonical t b.
Proof.
  destruct (one_string (b64_encode b) (b64_encode b) (VBytes b)) as (j & H1 & H2).
  - apply json_bytes_text.
  - done.
  - apply text_repaired, plain_text. eapply canonical_plain, encode_canonical.
  - exists j, (b64_encode b). split; [done|]. split; [done|apply encode_canonical].
Qed.

(** ** Panics *)
Lemma json_unmarshal_no_panic s w : json_unmarshal s <> Panic w.
Proof. unfold json_unmarshal. repeat case_match; discriminate. Qed.
Lemma json_deserialize_panics `{PL : Platform} sh sh' s :
  (exists w, json_deserialize sh sh' s = Panic w) <->
  json_unmarshal s = Ok None \/ json_unmarshal s = Ok (Some [])
  \/ exists v v1, json_unmarshal s = Ok (Some [v; v1]) /\ (reads_id v 1 \/ reads_id v 5).
Proof.
  unfold json_deserialize. pose proof (json_unmarshal_no_panic s) as NP.
  destruct (json_unmarshal s) as [l|e|w0] eqn:E.
  - rewrite deserialize_is_to_message, to_message_panics_reads. destruct l as [l|]; cbn [default from_option id].
    + split.
      * intros [->|(v & v1 & -> & H)]; [by right; left|]. right. right. eauto.
      * intros [?|[[= ->]|(v & v1 & [= ->] & H)]]; [done|by left|]. right. eauto.
    + split; [by left|]. intros _. by left.
  - split; [by intros []|]. intros [?|[?|(? & ? & ? & _)]]; done.
  - by destruct (NP w0).
Qed.

(** ** Payloads *)
Lemma json_payload args kwargs :
  ~ (slice_len args = 0%nat /\ map_len kwargs = 0%nat) ->
  fits_json (VSlice args) -> fits_json (VMap kwargs) ->
  exists b a' k', encode_payload json_codec args kwargs = Ok b
    /\ decode_payload json_codec b = Ok (a', k') /\ same_args args a' /\ same_kwargs kwargs k'.
Proof.
  intros Hne Ha Hk.
  assert (Hl : Forall fits_json (prepare_for_encode args kwargs)).
  { unfold prepare_for_encode. repeat case_match; cbn; each. }
  destruct (json_list_reads (prepare_for_encode args kwargs)) as (s & l & E & D & W).
  - eapply Forall_impl; [exact Hl|]. by intros v [].
  - eapply Forall_impl; [exact Hl|]. by intros v [].
  - assert (Hp : exists a' k', decode (Some l) = Ok (a', k') /\ same_args args a' /\ same_kwargs kwargs k').
    { unfold prepare_for_encode in W.
      destruct args as [[|x a]|]; destruct kwargs as [[|y m]|]; cbn in Hne, W; try (exfalso; tauto).
      all: apply Forall2_cons_inv_l in W as (v1 & r1 & (a1 & -> & H1)%wire_slice_inv & W & ->).
      all: try (apply Forall2_cons_inv_l in W as (v2 & r2 & (m' & -> & H2)%wire_map_inv & W & ->)).
      all: apply Forall2_nil_inv_l in W as ->.
      all: cbn [decode]; do 2 eexists; split; [reflexivity|]; cbn; try (inversion H1; subst); eauto 10. }
    destruct Hp as (a' & k' & Hd & H1 & H2). exists s, a', k'. split.
    + unfold encode_payload. destruct (length (prepare_for_encode args kwargs) =? 0)%nat eqn:L; [|exact E].
      exfalso. apply Hne. unfold prepare_for_encode in L. destruct args as [[|]|], kwargs as [[|]|]; try discriminate L; done.
    + split; [|done]. unfold decode_payload. cbn [cd_unmarshal json_codec]. by rewrite D.
Qed.
