(** A run in which a client gives up and comes back, for the examples. *)
From Verif Require Import Prelude Value Msg IdGen Types PathMatch Broker Dealer Session Network.
From Verif Require Import BrokerSpec DealerSpec NetworkSpec Hostile DealerEx NetworkEx HostileEx HostileOrderEx.

Local Open Scope string_scope.
Local Open Scope N_scope.

Definition nunsub (c r g : N) : list nevent := say c (MUnsubscribe (Unsubscribe r g)) [c].
(** 2 unsubscribes while 3 publishes and stays subscribed; then subscribes
    again and reads the next event. *)
Definition run_back : list hevent :=
  (map HNet (njoins [1; 2; 3]) ++ [hostile 3 (MSubscribe (Subscribe 1 None "t"))] ++ map HNet (nsub 2 1 "t") ++
   [hostile 1 (apub 1 "a")] ++ map HNet (nunsub 2 2 1 ++ [NDeliver 2]) ++ [hostile 1 (apub 2 "b")] ++ map HNet (nsub 2 3 "t") ++
   [hostile 1 (apub 3 "c"); HNet (NDeliver 2)])%list.
(** 1 gives its registration of "p" up and registers "q"; 2 calls both. *)
Definition run_gone : list hevent :=
  (map HNet (njoins [1; 2; 3] ++ nreg 1 1 "p" [] ++ nunreg 1 2 1) ++ [hostile 2 (MCall (acall 1 "p" []))] ++
   map HNet (nreg 1 3 "q" []) ++ [hostile 2 (MCall (acall 2 "q" [])); HNet (NDeliver 1)])%list.
