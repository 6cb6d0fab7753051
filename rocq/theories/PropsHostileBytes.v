(** C135: well-behaved clients among hostile bytes. *)
From Verif Require Import Prelude Value Msg IdGen Types PathMatch Broker Dealer Session Network Connection.
From Verif Require Import Binary MsgSpec BrokerSpec DealerSpec Portable NetworkSpec NetworkWire NetworkBytes NetworkBytesRun.
From Verif Require Import DealerEx NetworkEx Hostile HostileEx HostileBytes HostileBytesProofs HostileBytesEx.

Local Open Scope string_scope.
Local Open Scope list_scope.
Local Open Scope N_scope.

(** ** C135: hostile bytes do no more than hostile messages

    If nothing panicked: the run is one of C104-C106, in which bytes are the
    message they are read as, or nothing; and what a client reads is what it
    reads there. *)
Theorem C135_same_partial : forall (PL : Platform) sers, (forall c, serializer (sers c)) -> forall ys x,
  Forall (fair sers) ys -> yrun sers empty_bnet ys x -> x_crashed x = [] ->
  exists hs, reading sers ys hs /\ bnet_like sers (hrun empty_net hs) x
    /\ forall c, Forall2 msg_like (hread c empty_net hs) (read_by c (x_read x)).
Proof. exact (@hostile_bytes_same). Qed.
(** So the well-behaved ones can read everything, refuse nothing, and get no
    second answer and no answer to a call they did not make. *)
Theorem C135_honest_partial : forall (PL : Platform) sers, (forall c, serializer (sers c)) -> forall honest ys x,
  Forall (fair sers) ys -> yrun sers empty_bnet ys x -> x_crashed x = [] ->
  N.of_nat (length ys) <= two53 -> (forall hs, reading sers ys hs -> decently honest empty_net hs) ->
  x_unread x = [] /\ x_unsent x = []
  /\ forall c, honest c -> (forall a, (c, a) ∉ x_rejected x) /\ NoDup (answer_ids (read_by c (x_read x)))
     /\ forall r, r ∈ answer_ids (read_by c (x_read x)) -> exists m, YNet (NSend c (MCall m)) ∈ ys /\ ca_request m = r.
Proof. exact (@hostile_bytes_honest). Qed.
(** Bytes are read as one message only, and every run goes on. *)
Theorem C135_one_reading : forall (PL : Platform) sers ys hs hs', reading sers ys hs -> reading sers ys hs' -> hs = hs'.
Proof. intros PL sers ys hs hs' ->%reading_one ->%reading_one. done. Qed.
Theorem C135_goes_on : forall (PL : Platform) sers x ys, exists x', yrun sers x ys x'.
Proof. intros. eexists. apply yrunf_sound. Qed.

(** Without [fair]: a hostile client has the router send what a well-behaved
    one cannot read... *)
Theorem C135_unread_refuted : forall (PL : Platform), exists sers honest ys x c t, (forall c, serializer (sers c))
  /\ Forall fair_net ys /\ yrun sers empty_bnet ys x /\ x_crashed x = []
  /\ (forall hs, reading sers ys hs -> decently honest empty_net hs)
  /\ honest c /\ (c, t) ∈ x_unread x.
Proof.
  intros PL. exists three, (fun c => c ∈ the_honest 1), (the_runs 1), (yrunf three empty_bnet (the_runs 1)), 3.
  eexists. split; [exact three_serializers|]. split; [apply runs_fair|]. split; [apply yrunf_sound|].
  split; [by vm_compute|]. split; [apply runs_decent|]. split; [by left|].
  eapply (elem_of_list_lookup_2 _ 0%nat). vm_compute. reflexivity.
Qed.
(** ...or answers a call with what the router cannot send: the call stays
    open, and for the router it is answered. *)
Theorem C135_unsent_refuted : forall (PL : Platform), exists sers honest ys x c r, (forall c, serializer (sers c))
  /\ Forall fair_net ys /\ yrun sers empty_bnet ys x /\ x_crashed x = []
  /\ (forall hs, reading sers ys hs -> decently honest empty_net hs)
  /\ honest c /\ (c, MResult r) ∈ x_unsent x
  /\ d_pending (x_dealer x) = ∅
  /\ exists cl, x_clients x !! c = Some cl /\ re_request r ∈ cs_calls (bc_session cl) /\ bc_down cl = [].
Proof.
  intros PL. exists three, (fun c => c ∈ the_honest 2), (the_runs 2), (yrunf three empty_bnet (the_runs 2)), 1,
    (Result 1 (Some []) (Some [VF64 (FInf false)]) None no_bin). split; [exact three_serializers|]. split; [apply runs_fair|]. split; [apply yrunf_sound|].
  split; [by vm_compute|]. split; [apply runs_decent|]. split; [by left|].
  split; [eapply (elem_of_list_lookup_2 _ 0%nat); vm_compute; reflexivity|].
  split; [apply map_to_list_empty_iff; by vm_compute|].
  exact (not_sent_open PL).
Qed.
(** One byte is enough to make the router panic (C120). *)
Theorem C135_crash_refuted : forall (PL : Platform), exists sers d t x, (forall c, serializer (sers c))
  /\ yrun sers empty_bnet [YNet (NJoin d); YBytes any_oracle (se_id d) t] x /\ String.length t = 1%nat /\ x_crashed x <> [].
Proof.
  intros PL. exists three, (peer 3), (be 1 0x80), (yrunf three empty_bnet [YNet (NJoin (peer 3)); YBytes any_oracle 3 (be 1 0x80)]).
  split; [exact three_serializers|]. split; [apply yrunf_sound|]. by vm_compute.
Qed.

(** 1 and 2 are well-behaved; 3 writes four messages and two byte strings that
    are none.  The answer 1 gets is 3's, the event too; 2's answer comes too late. *)
Example C135_ex : forall (PL : Platform), let x := yrunf three empty_bnet (the_runs 0) in
  Forall (fair three) (the_runs 0) /\ yrun three empty_bnet (the_runs 0) x /\ x_crashed x = []
  /\ (forall hs, reading three (the_runs 0) hs -> decently (fun c => c ∈ [1; 2]) empty_net hs)
  /\ length (the_runs 0) = 22%nat /\ length (flat_map (readf three) (the_runs 0)) = 20%nat
  /\ read_by 1 (x_read x) = [MSubscribed (Subscribed 1 1); MResult (Result 2 (Some []) (Some [VStr "mine"]) None no_bin);
       MEvent (Event 1 2 (Some []) (Some [VStr "news"]) None)].
Proof.
  intros PL x. subst x. split; [apply fair_sound; [apply runs_fair|by vm_compute]|]. split; [apply yrunf_sound|].
  split; [by vm_compute|]. split; [apply (runs_decent PL 0)|]. split; [by vm_compute|]. split; [by vm_compute|]. by vm_compute.
Qed.

(** * Assumptions *)
Print Assumptions C135_same_partial.
Print Assumptions C135_honest_partial.
Print Assumptions C135_one_reading.
Print Assumptions C135_goes_on.
Print Assumptions C135_unread_refuted.
Print Assumptions C135_unsent_refuted.
Print Assumptions C135_crash_refuted.
