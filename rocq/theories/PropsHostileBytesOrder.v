(** C139: messages stay in order behind serializers. *)
From Verif Require Import Prelude Value Msg IdGen Types PathMatch Broker Dealer Session Network Connection.
From Verif Require Import Binary MsgSpec BrokerSpec DealerSpec Portable NetworkSpec NetworkWire NetworkBytes NetworkBytesRun.
From Verif Require Import DealerEx NetworkEx NetworkWireEx Hostile HostileEx HostileBytes HostileBytesProofs HostileBytesEx.
From Verif Require Import HostileOrderSpec HostileOrder HostileBytesOrderSpec HostileBytesOrder HostileBytesOrderEx.

Local Open Scope string_scope.
Local Open Scope list_scope.
Local Open Scope N_scope.

(** ** C139: through the bytes of any serializers, messages stay in order

    What a client has read is, like for like, the beginning of what the broker
    gave out for it, and of what the dealer gave out for it. *)
Theorem C139_reads : forall (PL : Platform) sers, (forall c, serializer (sers c)) -> forall honest ys hs x c,
  Forall (fair sers) ys -> yrun sers empty_bnet ys x -> x_crashed x = [] ->
  N.of_nat (length ys) <= two53 -> reading sers ys hs -> decently honest empty_net hs ->
  let n := hrun empty_net hs in let log := read_by c (x_read x) in
  (exists b, b `prefix_of` in_turn (b_out c) (btr n) /\ Forall2 msg_like b (List.filter from_broker log))
  /\ exists d, d `prefix_of` in_turn (d_out c) (dtr n) /\ Forall2 msg_like d (List.filter (fun a => negb (from_broker a)) log).
Proof. exact (@bytes_reads). Qed.
(** And when nothing is on its way to it, it has read all of that. *)
Theorem C139_arrived : forall (PL : Platform) sers, (forall c, serializer (sers c)) -> forall honest ys hs x c cl,
  Forall (fair sers) ys -> yrun sers empty_bnet ys x -> x_crashed x = [] ->
  N.of_nat (length ys) <= two53 -> reading sers ys hs -> decently honest empty_net hs ->
  x_clients x !! c = Some cl -> bc_down cl = [] ->
  let n := hrun empty_net hs in let log := read_by c (x_read x) in
  Forall2 msg_like (in_turn (b_out c) (btr n)) (List.filter from_broker log)
  /\ Forall2 msg_like (in_turn (d_out c) (dtr n)) (List.filter (fun a => negb (from_broker a)) log).
Proof. exact (@bytes_arrived). Qed.
(** Every event read goes with a publication and carries its payload, and
    those of a well-behaved publisher are in the order it sent them in. *)
Theorem C139_events : forall (PL : Platform) sers, (forall c, serializer (sers c)) -> forall honest ys hs x c,
  Forall (fair sers) ys -> yrun sers empty_bnet ys x -> x_crashed x = [] ->
  N.of_nat (length ys) <= two53 -> reading sers ys hs -> decently honest empty_net hs ->
  exists l, l `prefix_of` in_turn (passed c) (btr (hrun empty_net hs))
    /\ Forall2 (fun y e => carries (snd (fst y)) e) l (events (read_by c (x_read x)))
    /\ forall s, honest s -> sublist (of_publisher s l) (publishes (sent s empty_net hs)).
Proof. exact (@bytes_events). Qed.
(** The publication ids that a client reads go up. *)
Theorem C139_ids : forall (PL : Platform) sers, (forall c, serializer (sers c)) -> forall honest ys hs x c,
  Forall (fair sers) ys -> yrun sers empty_bnet ys x -> x_crashed x = [] ->
  N.of_nat (length ys) <= two53 -> reading sers ys hs -> decently honest empty_net hs ->
  StronglySorted N.lt (map ev_publication (events (read_by c (x_read x)))).
Proof. exact (@bytes_ids). Qed.

(** 2 has read three events: two of 1, in order, and in between one of 3. *)
Example C139_ex : forall (PL : Platform), let x := yrunf three empty_bnet run_mixed in let hs := flat_map (readf three) run_mixed in
  Forall (fair three) run_mixed /\ yrun three empty_bnet run_mixed x /\ x_crashed x = []
  /\ reading three run_mixed hs /\ decently (fun c => c ∈ [1; 2]) empty_net hs
  /\ length run_mixed = 16%nat /\ length hs = 15%nat
  /\ map ev_args (events (read_by 2 (x_read x))) = [Some [VStr "a"]; Some [VStr "x"]; Some [VStr "b"]]
  /\ map ev_publication (events (read_by 2 (x_read x))) = [2; 3; 4]
  /\ map pu_args (publishes (sent 1 empty_net hs)) = [Some [VStr "a"]; Some [VStr "b"]; Some [VStr "c"]]
  /\ option_map bc_down (x_clients x !! 2) = Some [].
Proof.
  intros PL x hs. subst x hs. split; [apply mixed_fair|]. split; [apply yrunf_sound|]. split; [by vm_compute|].
  split; [apply mixed_reading|]. split; [apply (mixed_decent PL), mixed_reading|]. split; [by vm_compute|]. split; [by vm_compute|].
  split; [by vm_compute|]. split; [by vm_compute|]. split; by vm_compute.
Qed.

(** * Assumptions *)
Print Assumptions C139_reads.
Print Assumptions C139_arrived.
Print Assumptions C139_events.
Print Assumptions C139_ids.
