(** Property C126: JSON messages cut off or followed by something. *)
From Coq Require Import Ascii.
From Verif Require Import Prelude Value Msg WireSpec MsgSpec AuthSpec JsonSpec JsonSafe Json JsonGrammar JsonCut.

Local Open Scope string_scope.
Local Open Scope list_scope.
Local Open Scope N_scope.

(** ** C126: where a JSON message ends. *)
(** White space may follow a message, and nothing else. *)
Theorem C126_followed : forall (PL : Platform) sh sh' s m x, json_deserialize sh sh' s = Ok m ->
  (space x -> json_deserialize sh sh' (s ++ x)%string = Ok m)
  /\ (~ space x -> exists e, json_deserialize sh sh' (s ++ x)%string = Err e).
Proof. exact (@deserialize_followed). Qed.
(** A message with more than white space missing at its end is refused. *)
Theorem C126_cut : forall (PL : Platform) sh sh' p x m, json_deserialize sh sh' (p ++ x)%string = Ok m -> ~ space x ->
  exists e, json_deserialize sh sh' p = Err e.
Proof. exact (@deserialize_cut). Qed.
(** A written message ends at its last byte. *)
Theorem C126_messages : forall (PL : Platform) sh sh' m s p x, msg_ok m -> message_fits_json m -> json_serialize m = Ok s ->
  s = (p ++ x)%string -> x <> "" -> exists e, json_deserialize sh sh' p = Err e.
Proof. exact (@message_cut). Qed.
Example C126_ex :
  json_serialize (MUnsubscribed (Unsubscribed 66)) = Ok "[35,66]"
  /\ json_deserialize (PL := amd64) sh_id sh_id "[35,66]" = Ok (MUnsubscribed (Unsubscribed 66))
  /\ json_deserialize (PL := amd64) sh_id sh_id "[35,66] " = Ok (MUnsubscribed (Unsubscribed 66))
  /\ (exists e, json_deserialize (PL := amd64) sh_id sh_id "[35,66]," = Err e)
  /\ (exists e, json_deserialize (PL := amd64) sh_id sh_id "[35,66][35,67]" = Err e)
  /\ (exists e, json_deserialize (PL := amd64) sh_id sh_id "[35,66" = Err e)
  /\ (exists e, json_deserialize (PL := amd64) sh_id sh_id "[35,6" = Err e)
  /\ space " " /\ ~ space "][35,67]".
Proof.
  repeat split; try (eexists; vm_compute; reflexivity).
  - repeat constructor.
  - intros H. inversion H as [|c l Hc _]. vm_compute in Hc. by repeat (apply elem_of_cons in Hc as [Hc|Hc]; [done|]); apply elem_of_nil in Hc.
Qed.

(** * Assumptions *)
Print Assumptions C126_followed.
Print Assumptions C126_cut.
Print Assumptions C126_messages.
