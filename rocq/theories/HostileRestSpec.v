(** When nobody sends anything new. *)
From Verif Require Import Prelude Value Msg IdGen Types PathMatch Broker Dealer Session Network.
From Verif Require Import BrokerSpec DealerSpec NetworkSpec Hostile.

Local Open Scope N_scope.

(** An event that moves a message: the router reads one of a client's, or a
    client reads one. *)
Definition moves (n : net) (e : nevent) : Prop :=
  match e with
  | NRoute _ x => exists cl, n_clients n !! x = Some cl /\ cl_up cl <> []
  | NDeliver x => exists cl, n_clients n !! x = Some cl /\ cl_down cl <> []
  | _ => False
  end.
Fixpoint moving (n : net) (es : list nevent) : Prop :=
  match es with [] => True | e :: es' => moves n e /\ moving (nstep n e) es' end.
(** No message is on its way. *)
Definition at_rest (n : net) : Prop :=
  forall x cl, n_clients n !! x = Some cl -> cl_up cl = [] /\ cl_down cl = [].

(** How much there is to do: messages on their way to the router, and from it. *)
Definition ids (n : net) : list N := map fst (map_to_list (n_clients n)).
Definition total (f : client -> nat) (l : list N) (n : net) : nat :=
  sum_list_with (fun x => match n_clients n !! x with Some cl => f cl | None => O end) l.
Definition work (l : list N) (n : net) : nat :=
  (S (2 * length l) * total (fun cl => length (cl_up cl)) l n + total (fun cl => length (cl_down cl)) l n)%nat.
