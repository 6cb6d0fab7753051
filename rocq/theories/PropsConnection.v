(** Property C125: messages over a RawSocket connection. *)
From Verif Require Import Prelude Value Msg BaseSpec MsgSpec Rawsocket RawStream JsonSafe BinarySpec Connection ConnectionSpec
  ConnectionFacts.

Local Open Scope string_scope.

(** ** C125: however the bytes are cut into reads, the messages arrive. *)
Theorem C125_connection : forall (PL : Platform) ser size sh sh1 sh2 l chunks,
  legal_size size -> (1 <= ser <= 3)%Z -> Forall (sendable ser sh) l ->
  exists b, write_connection (Handshake ser size) sh l = Ok b
    /\ (concat chunks = b -> exists fs, read_connection chunks = Open (Handshake ser size) (fs, [])
         /\ Forall2 (fun m r => exists m', r = Ok m' /\ msg_same m m') (said l) (messages_read ser sh1 sh2 fs)).
Proof. exact (@connection_carries). Qed.
(** An UNSUBSCRIBED and a PUBLISHED with a ping in between, over CBOR. *)
Definition a_conversation : list sent :=
  [Said (MUnsubscribed (Unsubscribed 500)); Other 1 [7; 8]%Z; Said (MPublished (Published 3 4))].
Example C125_ex : Forall (sendable 3 sh_id) a_conversation
  /\ write_connection (PL := amd64) (Handshake 3 512) sh_id a_conversation
  = Ok [127; 3; 0; 0; 0; 0; 0; 6; 130; 24; 35; 25; 1; 244; 1; 0; 0; 2; 7; 8; 0; 0; 0; 4; 131; 17; 3; 4]%Z
  /\ (forall c, c = read_connection [[127]; [3; 0; 0; 0; 0; 0; 6; 130; 24; 35; 25; 1]; []; [244; 1; 0; 0; 2; 7; 8; 0; 0; 0; 4; 131]; [17; 3; 4]]%Z ->
      exists fs, c = Open (Handshake 3 512) (fs, [])
        /\ messages_read (PL := amd64) 3 sh_id sh_id fs = [Ok (MUnsubscribed (Unsubscribed 500)); Ok (MPublished (Published 3 4))]).
Proof.
  split; [|split; [vm_compute; reflexivity|]].
  - constructor; [|constructor; [|constructor; [|constructor]]].
    + split; [repeat (constructor; [vm_compute; reflexivity|]); constructor|]. split; [right; right; split; [done|]; split; [repeat (constructor; [vm_compute; reflexivity|]); constructor|done]|]. intros s E. vm_compute in E. injection E as <-. vm_compute. reflexivity.
    + split; [lia|done].
    + split; [repeat (constructor; [vm_compute; reflexivity|]); constructor|]. split; [right; right; split; [done|]; split; [repeat (constructor; [vm_compute; reflexivity|]); constructor|done]|]. intros s E. vm_compute in E. injection E as <-. vm_compute. reflexivity.
  - intros c ->. exists [(0, [130; 24; 35; 25; 1; 244]); (1, [7; 8]); (0, [131; 17; 3; 4])]%Z. split; vm_compute; reflexivity.
Qed.

(** * Assumptions *)
Print Assumptions C125_connection.
