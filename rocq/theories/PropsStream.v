(** Property theorems C89. *)
From Verif Require Import Prelude Value Rawsocket RawStream BaseSpec RawStreamFacts.

(** ** C89 *)
(** However the bytes are cut into reads, the frames written come out, nothing
    more, and no byte is left; a payload has fewer than 2^24 bytes. *)
Theorem C89_roundtrip_partial : forall fs chunks, Forall writable fs ->
  concat chunks = write_frames fs -> feed_all chunks = (fs, []).
Proof. exact stream_roundtrip. Qed.
(** Any bytes at all: the frames read and the bytes kept are exactly what
    arrived, and what is kept does not start with a whole frame. *)
Theorem C89_lossless : forall chunks fs r, bytes (concat chunks) -> feed_all chunks = (fs, r) ->
  concat chunks = write_frames fs ++ r /\ Forall writable fs
  /\ (forall f rest, r = write_frame f ++ rest -> ~ writable f).
Proof. exact stream_lossless. Qed.
(** Frames once handed over stay. *)
Theorem C89_prefix : forall chunks more fs r, feed_all chunks = (fs, r) ->
  exists gs r', feed_all (chunks ++ more) = (fs ++ gs, r').
Proof. exact stream_prefix. Qed.
(** The largest message a handshake can allow is announced as empty, and its
    payload is read as frames of their own: whoever chooses the payload
    chooses them. *)
Theorem C89_smuggling_refuted : exists k payload fs,
  (0 <= k < 256)%Z /\ Z.of_nat (length payload) = (2 ^ 24)%Z
  /\ feed_all [write_frame (k, payload)] = ((k, []) :: fs, []) /\ fs <> [].
Proof. exact smuggling. Qed.
Theorem C89_smuggled : forall k fs, (0 <= k < 256)%Z -> Forall writable fs ->
  Z.of_nat (length (write_frames fs)) = (2 ^ 24)%Z ->
  feed_all [write_frame (k, write_frames fs)] = ((k, []) :: fs, []).
Proof. exact smuggled. Qed.
Example C89_ex : let fs := [(0, [10; 20; 30]); (1, []); (2, [0; 0; 0; 1; 7])]%Z in
  write_frames fs = [0; 0; 0; 3; 10; 20; 30; 1; 0; 0; 0; 2; 0; 0; 5; 0; 0; 0; 1; 7]%Z
  /\ feed_all [[0; 0]; [0; 3; 10]; []; [20; 30; 1; 0; 0; 0; 2]; [0; 0; 5; 0; 0; 0; 1; 7]]%Z = (fs, [])
  /\ feed_all [[0; 0]; [0; 3; 10]; []; [20; 30; 1; 0; 0; 0; 2]; [0; 0; 5; 0; 0; 0]]%Z
     = ([(0, [10; 20; 30]); (1, [])]%Z, [2; 0; 0; 5; 0; 0; 0]%Z).
Proof. by vm_compute. Qed.

(** * Assumptions *)
Print Assumptions C89_roundtrip_partial.
Print Assumptions C89_lossless.
Print Assumptions C89_prefix.
Print Assumptions C89_smuggling_refuted.
Print Assumptions C89_smuggled.
