(** C128 and C129: the network down to the bytes. *)
From Verif Require Import Prelude Value Msg IdGen Types PathMatch Broker Dealer Session Mutex Network Connection.
From Verif Require Import BrokerSpec DealerSpec WireSpec MsgSpec Portable NetworkSpec NetworkWire NetworkBytes NetworkBytesProofs.
From Verif Require Import NetworkFinal NetworkLocal DealerEx NetworkEx NetworkWireEx NetworkBytesRun.

Local Open Scope string_scope.
Local Open Scope list_scope.
Local Open Scope N_scope.

(** ** C128: whatever serializers the clients have, everything goes as without *)
Theorem C128_same : forall (PL : Platform) sers, (forall c, serializer (sers c)) -> forall es x,
  Forall ordinary_event es -> Forall portable_event es -> xrun_bytes sers empty_bnet es x ->
  bnet_like sers (nrun empty_net es) x
  /\ forall c, Forall2 msg_like (delivered c empty_net es) (read_by c (x_read x)).
Proof. exact (@same_through_bytes). Qed.
(** Every run is there. *)
Theorem C128_goes_on : forall (PL : Platform) sers x es, exists x', xrun_bytes sers x es x'.
Proof. exact (@bytes_go_on). Qed.
(** So clients that keep the rules of C82 are in step, and nothing stays unsent or unread. *)
Theorem C128_in_step : forall (PL : Platform) sers, (forall c, serializer (sers c)) -> forall es x,
  Forall ordinary_event es -> Forall portable_event es -> xrun_bytes sers empty_bnet es x ->
  N.of_nat (length es) <= two53 -> carefully empty_net es ->
  x_rejected x = [] /\ x_crashed x = [] /\ x_unread x = [] /\ x_unsent x = [].
Proof. exact (@bytes_in_step). Qed.
(** 1 has JSON, 2 MessagePack, 3 CBOR.  What 1 publishes reaches 2 and 3: its
    integers have become floats in JSON already.  2 calls what 3 registered. *)
Example C128_ex : forall (PL : Platform), exists x,
  (forall c, serializer (three c)) /\ (three 1, three 2, three 3) = (1, 2, 3)%Z
  /\ Forall ordinary_event run_three /\ Forall portable_event run_three /\ carefully empty_net run_three
  /\ xrun_bytes three empty_bnet run_three x
  /\ (forall c, c = 2 \/ c = 3 -> exists d, MEvent (Event 1 2 d
       (Some [VF64 (FFin 5910974510923776 (-47)); VF64 (FFin 6755399441055744 (-52)); VStr "x"; VNil;
              VMap (Some [("a", VSlice (Some [VF64 (FFin 7881299347898368 (-50))])); ("b", VBool true)])]) None)
       ∈ read_by c (x_read x))
  /\ MResult (Result 2 (Some []) (Some [VStr "yo"]) None no_bin) ∈ read_by 2 (x_read x).
Proof.
  intros PL. exists (bytes_run three empty_bnet run_three). split; [exact three_serializers|]. split; [done|].
  split; [apply ordinary_events_sound; by vm_compute|]. split; [apply portable_events_sound; by vm_compute|].
  split; [apply carefullyb_sound; by vm_compute|]. split; [apply bytes_run_sound|]. split.
  - intros c [-> | ->]; eexists; eapply (elem_of_list_lookup_2 _ 1%nat); vm_compute; reflexivity.
  - eapply (elem_of_list_lookup_2 _ 2%nat). vm_compute. reflexivity.
Qed.

(** ** C129: what one serializer carries, the others need not *)

(** Infinity in CBOR is not sent on to a client with JSON. *)
Theorem C129_sent_refuted : forall (PL : Platform), exists sers es x, (forall c, serializer (sers c))
  /\ Forall ordinary_event es /\ Forall (fits_event sers) es /\ xrun_bytes sers empty_bnet es x
  /\ x_unsent x <> [].
Proof.
  intros PL. exists three, (run_lost NotSent), (bytes_run three empty_bnet (run_lost NotSent)).
  destruct (all_lost PL NotSent) as (H1 & H2 & H3). split; [exact three_serializers|]. split; [done|]. split; [done|].
  split; [apply bytes_run_sound|done].
Qed.
(** What JSON carries is sent in CBOR, too deep to be read. *)
Theorem C129_read_refuted : forall (PL : Platform), exists sers es x, (forall c, serializer (sers c))
  /\ Forall ordinary_event es /\ Forall (fits_event sers) es /\ xrun_bytes sers empty_bnet es x
  /\ x_unread x <> [].
Proof.
  intros PL. exists three, (run_lost NotRead), (bytes_run three empty_bnet (run_lost NotRead)).
  destruct (all_lost PL NotRead) as (H1 & H2 & H3). split; [exact three_serializers|]. split; [done|]. split; [done|].
  split; [apply bytes_run_sound|done].
Qed.
(** A byte string in MessagePack becomes another string in JSON, unnoticed. *)
Theorem C129_meaning_refuted : forall (PL : Platform), exists sers es x, (forall c, serializer (sers c))
  /\ Forall ordinary_event es /\ Forall (fits_event sers) es /\ xrun_bytes sers empty_bnet es x
  /\ x_unsent x = [] /\ x_unread x = [] /\ x_crashed x = []
  /\ exists c, ~ Forall2 msg_like (delivered c empty_net es) (read_by c (x_read x)).
Proof.
  intros PL. exists three, (run_lost Changed), (bytes_run three empty_bnet (run_lost Changed)).
  destruct (all_lost PL Changed) as (H1 & H2 & H3). split; [exact three_serializers|]. split; [done|]. split; [done|].
  split; [apply bytes_run_sound|done].
Qed.
(** Portable messages keep their meaning from hand to hand, and can always be
    handed on. *)
Theorem C129_handed_on_partial : forall (PL : Platform) sers1 sers2 m m1, Forall serializer (sers1 ++ sers2) ->
  portable_message m -> msg_ok m -> handed_on sers1 m m1 ->
  msg_like m m1 /\ exists m2, handed_on sers2 m1 m2.
Proof. exact (@hands_carry). Qed.
Example C129_ex : forall (PL : Platform), let m := MPublish (Publish 1 (Some []) "t" (Some load) None) in
  portable_message m /\ msg_ok m
  /\ handed_on [SerializerJson; SerializerCbor; SerializerMsgpack] m (MPublish (Publish 1 (Some []) "t"
       (Some [VF64 (FFin 5910974510923776 (-47)); VF64 (FFin 6755399441055744 (-52)); VStr "x"; VNil;
              VMap (Some [("a", VSlice (Some [VF64 (FFin 7881299347898368 (-50))])); ("b", VBool true)])]) None)).
Proof.
  intros PL m. subst m. assert (Forall portable_event [NSend 1 (MPublish (Publish 1 (Some []) "t" (Some load) None))]) as H
    by (apply portable_events_sound; by vm_compute).
  split; [by apply Forall_cons in H as [H _]|]. split; [repeat constructor; by vm_compute|].
  eapply (ho_hop _ _ _ _ _ _ sh_id sh_id sh_id); [vm_compute; reflexivity|vm_compute; reflexivity|].
  eapply (ho_hop _ _ _ _ _ _ sh_id sh_id sh_id); [vm_compute; reflexivity|vm_compute; reflexivity|].
  eapply (ho_hop _ _ _ _ _ _ sh_id sh_id sh_id); [vm_compute; reflexivity|vm_compute; reflexivity|]. constructor.
Qed.

(** * Assumptions *)
Print Assumptions C128_same.
Print Assumptions C128_goes_on.
Print Assumptions C128_in_step.
Print Assumptions C129_sent_refuted.
Print Assumptions C129_read_refuted.
Print Assumptions C129_meaning_refuted.
Print Assumptions C129_handed_on_partial.
