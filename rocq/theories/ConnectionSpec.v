(** What a RawSocket connection carries. *)
From Verif Require Import Prelude Value Msg Rawsocket RawStream BaseSpec MsgSpec JsonSafe BinarySpec Connection.

Definition message_fits (ser : Z) (m : message) : Prop :=
  (ser = SerializerJson /\ message_fits_json m)
  \/ (ser = SerializerMsgpack /\ message_fits_msgpack m)
  \/ (ser = SerializerCbor /\ message_fits_cbor m).
(** The peer may send it: its text, if it is a message, has fewer than 2^24
    bytes; other frames are of another kind. *)
Definition sendable (ser : Z) (sh : shuffle) (x : sent) : Prop :=
  match x with
  | Said m => msg_ok m /\ message_fits ser m
              /\ forall s, serialize_as ser sh m = Ok s -> (Z.of_nat (String.length s) < 2 ^ 24)%Z
  | Other k p => (0 < k < 256)%Z /\ (Z.of_nat (length p) < 2 ^ 24)%Z
  end.
Fixpoint said (l : list sent) : list message :=
  match l with
  | [] => []
  | Said m :: l' => m :: said l'
  | Other _ _ :: l' => said l'
  end.
