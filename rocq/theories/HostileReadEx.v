(** A run in which a client reads replies and events, for the examples. *)
From Verif Require Import Prelude Value Msg IdGen Types PathMatch Broker Dealer Session Network.
From Verif Require Import BrokerSpec DealerSpec NetworkSpec Hostile DealerEx NetworkEx HostileEx HostileOrderEx.

Local Open Scope string_scope.
Local Open Scope N_scope.

(** 2 subscribes to "t" and calls "p" of 1, which sends one result before the
    last; 3 publishes, and answers the invocation again and again. *)
Definition run_read : list hevent :=
  (map HNet (njoins [1; 2; 3] ++ nsub 2 1 "t" ++ nreg 1 1 "p" [] ++ ncall 2 2 "p" [flag "receive_progress"] 1) ++
   [hostile 3 (apub 1 "a"); HNet (NDeliver 2)] ++
   map HNet (nyield 1 2 [flag "progress"] 2 ++ nyield 1 2 [] 2) ++
   [hostile 3 (MYield (ayield 2 [])); hostile 3 (MYield (ayield 2 [flag "progress"])); HNet (NDeliver 2)])%list.
