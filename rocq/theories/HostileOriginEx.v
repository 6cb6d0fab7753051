(** A run in which a hostile client poses as another, for the examples. *)
From Verif Require Import Prelude Value Msg IdGen Types PathMatch Broker Dealer Session Network.
From Verif Require Import BrokerSpec DealerSpec NetworkSpec Hostile DealerEx NetworkEx HostileEx.

Local Open Scope string_scope.
Local Open Scope N_scope.

(** Identities are disclosed.  3 publishes and calls with options that name 1
    as the source: the event for 2 and the invocation for 1 name 3.  Then 1
    publishes and 2 calls; 3 yields to the invocation that was made for 2, and
    2 gets the result. *)
Definition run_pose : list hevent :=
  (map HNet (njoins [1; 2; 3] ++ [NDisclose true true] ++ nreg 1 1 "p" [] ++ nsub 2 1 "t") ++
   [hostile 3 (MPublish (Publish 1 (Some [("publisher", VInt KUint64 1)]) "t" None None)); HNet (NDeliver 2);
    hostile 3 (MCall (acall 1 "p" [("caller", VInt KUint64 1)])); HNet (NDeliver 1)] ++
   map HNet (npub 1 2 "t" [] [2] ++ ncall 2 2 "p" [] 1) ++
   [hostile 3 (MYield (ayield 3 [])); HNet (NDeliver 2)])%list.
Definition from (a : message) : option value :=
  match a with
  | MEvent e => Some (mget (ev_details e) "publisher")
  | MInvocation v => Some (mget (in_details v) "caller")
  | _ => None
  end.
