(** A run with publications as messages and as bytes, for the examples. *)
From Verif Require Import Prelude Value Msg IdGen Types PathMatch Broker Dealer Session Network Connection.
From Verif Require Import Binary MsgSpec BrokerSpec DealerSpec Portable NetworkSpec NetworkWire NetworkBytes NetworkBytesRun.
From Verif Require Import DealerEx NetworkEx NetworkWireEx Hostile HostileEx HostileBytes HostileBytesProofs HostileBytesEx HostileOrderSpec.

Local Open Scope string_scope.
Local Open Scope list_scope.
Local Open Scope N_scope.

Definition bpub (r : N) (x : string) : message := MPublish (Publish r (Some []) "t" (Some [VStr x]) None).
(** 1 has JSON, 2 MessagePack, 3 CBOR; 2 is subscribed.  1 publishes three
    times; 3 writes what is no message, and a publication.  2 has read three
    events; the last publication is still on its way to the router. *)
Definition run_mixed : list yevent :=
  map YNet (njoins [1; 2; 3] ++ say 2 (MSubscribe (Subscribe 1 (Some []) "t")) [2] ++
            [NSend 1 (bpub 1 "a"); NSend 1 (bpub 2 "b"); NRoute e0 1]) ++
  [YBytes e0 3 "hello"; forged 3 (bpub 1 "x")] ++
  map YNet [NRoute e0 1; NSend 1 (bpub 3 "c"); NDeliver 2; NDeliver 2; NDeliver 2].
Lemma mixed_fair (PL : Platform) : Forall (fair three) run_mixed.
Proof. apply fair_sound; [apply fair_net_sound; [apply ordinary_events_sound|apply portable_events_sound]|]; by vm_compute. Qed.
Lemma mixed_decent (PL : Platform) hs : reading three run_mixed hs -> decently (fun c => c ∈ [1; 2]) empty_net hs.
Proof. intros ->%reading_one. apply decentlyb_sound. by vm_compute. Qed.
Lemma mixed_reading (PL : Platform) : reading three run_mixed (flat_map (readf three) run_mixed).
Proof.
  destruct (hostile_bytes_same three three_serializers run_mixed _ (mixed_fair PL) (yrunf_sound three _ _)) as (hs & H & _);
    [by vm_compute|]. by rewrite <- (reading_one _ _ _ H).
Qed.
