(** A run with several messages under way, for the examples. *)
From Verif Require Import Prelude Value Msg IdGen Types PathMatch Broker Dealer Session Network.
From Verif Require Import BrokerSpec DealerSpec NetworkSpec Hostile DealerEx NetworkEx HostileEx HostileOrderSpec.

Local Open Scope string_scope.
Local Open Scope N_scope.

Definition apub (r : N) (x : string) : message := MPublish (Publish r None "t" (Some [VStr x]) None).
(** 2 serves a procedure and is subscribed.  1 publishes three times and calls
    twice; 3 publishes in between.  Of what 2 gets, it has read three messages;
    the last publication of 1 is still on its way to the router. *)
Definition run_order : list hevent :=
  (map HNet (njoins [1; 2; 3] ++ nreg 2 1 "p" [] ++ nsub 2 2 "t" ++
     [NSend 1 (apub 1 "a"); NSend 1 (MCall (acall 2 "p" [])); NSend 1 (apub 3 "b"); NRoute e0 1; NRoute e0 1]) ++
   [hostile 3 (apub 1 "x"); HNet (NDeliver 2)] ++
   map HNet [NSend 1 (MCall (acall 4 "p" [])); NSend 1 (apub 5 "c"); NRoute e0 1; NRoute e0 1])%list.
Definition words (l : list event) : list (option (list value)) := map ev_args l.
