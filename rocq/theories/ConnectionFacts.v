(** Proofs: messages over a RawSocket connection. *)
From Coq Require Import Ascii.
From Verif Require Import Prelude Value Msg BaseSpec WireSpec MsgSpec Rawsocket BaseFacts RawStream RawStreamFacts PathMatch
  JsonSafe Json JsonRound JsonMsg Binary BinarySpec BinaryRound BinaryLaws BinaryMsg Connection ConnectionSpec.

Lemma of_to_bytes s : of_bytes (to_bytes s) = s.
Proof.
  unfold of_bytes, to_bytes. rewrite map_map. transitivity (string_of_list_ascii (list_ascii_of_string s)).
  - f_equal. induction (list_ascii_of_string s) as [|c l IH]; [done|]. cbn [map]. rewrite IH, N2Z.id, ascii_N_embedding. done.
  - apply string_of_list_ascii_of_string.
Qed.
Lemma to_bytes_length s : length (to_bytes s) = String.length s.
Proof. unfold to_bytes. rewrite map_length. induction s as [|c s IH]; [done|]. cbn. by f_equal. Qed.

Lemma message_through `{PL : Platform} ser sh sh1 sh2 m : msg_ok m -> message_fits ser m ->
  exists s m', serialize_as ser sh m = Ok s /\ deserialize_as ser sh1 sh2 s = Ok m' /\ msg_same m m'.
Proof.
  intros Hm [[-> H]|[[-> H]|[-> H]]]; unfold serialize_as, deserialize_as; cbn [Z.eqb].
  - exact (message_through_json sh1 sh2 m Hm H).
  - destruct (message_through_msgpack sh sh1 sh2 m Hm H) as (s & m' & H1 & _ & H2 & H3). by exists s, m'.
  - destruct (message_through_cbor sh sh1 sh2 m Hm H) as (s & m' & H1 & _ & H2 & H3). by exists s, m'.
Qed.

Lemma frames_through `{PL : Platform} ser sh sh1 sh2 l : Forall (sendable ser sh) l ->
  exists fs, frames_of ser sh l = Ok fs /\ Forall writable fs
    /\ Forall2 (fun m r => exists m', r = Ok m' /\ msg_same m m') (said l) (messages_read ser sh1 sh2 fs).
Proof.
  induction 1 as [|x l Hx H (fs & E & W & F)]; [exists []; by repeat constructor|]. destruct x as [m|k p]; cbn [frames_of frame_of said].
  - destruct Hx as (Hm & Hf & Hl). destruct (message_through ser sh sh1 sh2 m Hm Hf) as (s & m' & E1 & E2 & S).
    rewrite E1, E. eexists. split; [done|]. split.
    + constructor; [|done]. split; [cbn; unfold MessageWamp; lia|]. cbn [snd]. rewrite to_bytes_length. by apply Hl.
    + unfold messages_read. rewrite filter_cons_True by done. cbn [map snd]. rewrite of_to_bytes, E2. constructor; [by exists m'|exact F].
  - destruct Hx as [Hk Hp]. rewrite E. eexists. split; [done|]. split.
    + constructor; [|done]. split; [cbn; lia|done].
    + unfold messages_read. rewrite filter_cons_False; [exact F|]. cbn. unfold MessageWamp. lia.
Qed.

Lemma open_chunks chunks hs s : fold_left feed_conn chunks (Open hs s) = Open hs (fold_left feed chunks s).
Proof. revert s. induction chunks as [|c chunks IH]; intros s; [done|]. cbn [fold_left feed_conn]. apply IH. Qed.
Lemma read_waiting chunks hs h fs : length h = 4%nat -> receive_handshake h = Ok hs -> Forall writable fs ->
  forall buf, (length buf < 4)%nat -> buf ++ concat chunks = h ++ write_frames fs ->
  fold_left feed_conn chunks (Waiting buf) = Open hs (fs, []).
Proof.
  intros Lh Rh W. induction chunks as [|c chunks IH]; intros buf Hb E.
  - cbn [concat] in E. rewrite app_nil_r in E. apply (f_equal length) in E. rewrite app_length in E. lia.
  - cbn [fold_left feed_conn concat] in E |- *. rewrite app_assoc in E.
    destruct (Nat.ltb_spec (length (buf ++ c)) 4) as [L|L]; [by apply IH|].
    assert (T : take 4 (buf ++ c) = h).
    { apply (f_equal (take 4)) in E. rewrite take_app_le, (take_app_alt h) in E by lia. exact E. }
    rewrite T, Rh, open_chunks. f_equal.
    assert (D : drop 4 (buf ++ c) ++ concat chunks = write_frames fs).
    { apply (f_equal (drop 4)) in E. rewrite drop_app_le, (drop_app_alt h) in E by lia. exact E. }
    transitivity (feed_all (drop 4 (buf ++ c) :: chunks)); [done|]. apply stream_roundtrip; [done|]. exact D.
Qed.

Lemma connection_carries `{PL : Platform} ser size sh sh1 sh2 l chunks :
  legal_size size -> (1 <= ser <= 3)%Z -> Forall (sendable ser sh) l ->
  exists b, write_connection (Handshake ser size) sh l = Ok b
    /\ (concat chunks = b -> exists fs, read_connection chunks = Open (Handshake ser size) (fs, [])
         /\ Forall2 (fun m r => exists m', r = Ok m' /\ msg_same m m') (said l) (messages_read ser sh1 sh2 fs)).
Proof.
  intros Hs Hser Hl. destruct (frames_through ser sh sh1 sh2 l Hl) as (fs & E & W & F).
  assert (exists h, send_handshake (Handshake ser size) = Ok h /\ length h = 4%nat /\ receive_handshake h = Ok (Handshake ser size))
    as (h & Sh & Lh & Rh).
  { destruct Hs as (k & Hk & ->). eexists. split; [by apply send_handshake_legal|]. split; [done|].
    apply receive_handshake_spec; [repeat constructor; unfold hs_byte; pose proof (Z.mod_pos_bound ser 16); lia|].
    eexists. split; [done|]. unfold hs_byte. rewrite (Z.mod_small ser 16) by lia.
    rewrite Z.add_comm, Z_mod_plus_full, (Z.mod_small ser 16), Z.div_add, Z.div_small by lia. do 2 f_equal. lia. }
  unfold write_connection. rewrite Sh. cbn [hs_serializer]. rewrite E. eexists. split; [done|].
  intros C. exists fs. split; [|exact F]. apply (read_waiting chunks _ h fs); [done|done|done|cbn; lia|exact C].
Qed.
