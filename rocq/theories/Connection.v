(** A RawSocket connection with its handshake and serializer.  /repo has the
    pieces (transports/rawsocket.go, serializers/*.go) and leaves joining them
    to its user; this is the way they are meant to be joined: a handshake that
    names the serializer, then frames, of which those of kind MessageWamp hold
    one serialized message each. *)
From Coq Require Import Ascii.
From Verif Require Import Prelude Value Msg Rawsocket RawStream PathMatch Json Binary.

(** The bytes of a text and back. *)
Definition to_bytes (s : string) : list Z := map (fun c => Z.of_N (N_of_ascii c)) (list_ascii_of_string s).
Definition of_bytes (b : list Z) : string := string_of_list_ascii (map (fun z => ascii_of_N (Z.to_N z)) b).

(** transports/rawsocket.go:14-20. *)
Definition SerializerJson : Z := 1.
Definition SerializerMsgpack : Z := 2.
Definition SerializerCbor : Z := 3.
Definition MessageWamp : Z := 0.

(** The serializer a handshake names. *)
Definition serialize_as (ser : Z) (sh : shuffle) (m : message) : res string :=
  if (ser =? SerializerJson)%Z then json_serialize m
  else if (ser =? SerializerMsgpack)%Z then msgpack_serialize sh m
  else if (ser =? SerializerCbor)%Z then cbor_serialize sh m
  else Err "unknown serializer".
Definition deserialize_as `{PL : Platform} (ser : Z) (sh sh' : shuffle) (s : string) : res message :=
  if (ser =? SerializerJson)%Z then json_deserialize sh sh' s
  else if (ser =? SerializerMsgpack)%Z then msgpack_deserialize sh sh' s
  else if (ser =? SerializerCbor)%Z then cbor_deserialize sh sh' s
  else Err "unknown serializer".

(** What a peer writes: messages, and frames of other kinds (MessagePing,
    MessagePong) in between. *)
Inductive sent : Type := Said (m : message) | Other (kind : Z) (payload : list Z).
Definition frame_of (ser : Z) (sh : shuffle) (x : sent) : res frame :=
  match x with
  | Said m => match serialize_as ser sh m with
              | Ok s => Ok (MessageWamp, to_bytes s)
              | Err e => Err e
              | Panic w => Panic w
              end
  | Other k p => Ok (k, p)
  end.
Fixpoint frames_of (ser : Z) (sh : shuffle) (l : list sent) : res (list frame) :=
  match l with
  | [] => Ok []
  | x :: l' => match frame_of ser sh x with
               | Ok f => match frames_of ser sh l' with Ok fs => Ok (f :: fs) | Err e => Err e | Panic w => Panic w end
               | Err e => Err e
               | Panic w => Panic w
               end
  end.
Definition write_connection `{PL : Platform} (hs : handshake) (sh : shuffle) (l : list sent) : res (list Z) :=
  match send_handshake hs with
  | Ok h => match frames_of (hs_serializer hs) sh l with
            | Ok fs => Ok (h ++ write_frames fs)
            | Err e => Err e
            | Panic w => Panic w
            end
  | Err e => Err e
  | Panic w => Panic w
  end.

(** What a peer reads: four bytes of handshake, then frames; [chunk] is what one
    read on the connection returned. *)
Inductive conn : Type :=
| Waiting (buf : list Z)
| Open (hs : handshake) (s : list frame * list Z)
| Closed (e : string).
Definition feed_conn (c : conn) (chunk : list Z) : conn :=
  match c with
  | Waiting buf =>
      let buf := buf ++ chunk in
      if (length buf <? 4)%nat then Waiting buf
      else match receive_handshake (take 4 buf) with
           | Ok hs => Open hs (feed ([], []) (drop 4 buf))
           | Err e => Closed e
           | Panic w => Closed w
           end
  | Open hs s => Open hs (feed s chunk)
  | Closed e => Closed e
  end.
Definition read_connection (chunks : list (list Z)) : conn := fold_left feed_conn chunks (Waiting []).
(** The messages among the frames. *)
Definition messages_read `{PL : Platform} (ser : Z) (sh sh' : shuffle) (fs : list frame) : list (res message) :=
  map (fun f => deserialize_as ser sh sh' (of_bytes (snd f))) (filter (fun f : frame => fst f = MessageWamp) fs).
