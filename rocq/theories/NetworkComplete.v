(** What it means that callees do their part and that calls complete. *)
From Verif Require Import Prelude Value Msg IdGen Types PathMatch Broker Dealer Session Network.
From Verif Require Import BrokerSpec DealerSpec NetworkSpec NetworkReplies.

(** The request ids of the INVOCATIONs in a queue; of the messages in a queue
    that end an invocation: a YIELD that is not progress, an ERROR for an
    INVOCATION. *)
Definition inv_ids (q : list message) : list N :=
  omap (fun m => match m with MInvocation v => Some (in_request v) | _ => None end) q.
Definition ending (m : message) : option N :=
  match m with
  | MYield y => if says (yi_options y) "progress" then None else Some (yi_request y)
  | MError x => if er_type x =? tInvocation then Some (er_request x) else None
  | _ => None
  end.
Definition end_ids (q : list message) : list N := omap ending q.

(** The invocations client [c] has read and not ended since: an event adds
    those it reads, takes away the one it ends. *)
Definition owes (c : N) (n : net) (e : nevent) (l : list N) : list N :=
  match e with
  | NDeliver _ => (l ++ inv_ids (delivers c n e))%list
  | NSend x m =>
      match n_clients n !! x, ending m with
      | Some _, Some i => if x =? c then filter (fun j => j <> i) l else l
      | _, _ => l
      end
  | _ => l
  end.
Fixpoint owing_from (c : N) (l : list N) (n : net) (es : list nevent) : list N :=
  match es with [] => l | e :: es' => owing_from c (owes c n e l) (nstep n e) es' end.
Definition owing (c : N) (es : list nevent) : list N := owing_from c [] empty_net es.

(** Nobody leaves with messages to it or from it still on the way. *)
Definition takes_leave (n : net) (e : nevent) : Prop :=
  match e with
  | NLeave _ c => forall cl, n_clients n !! c = Some cl -> cl_up cl = [] /\ cl_down cl = []
  | _ => True
  end.
Fixpoint all_take_leave (n : net) (es : list nevent) : Prop :=
  match es with [] => True | e :: es' => takes_leave n e /\ all_take_leave (nstep n e) es' end.

(** Steps that finish what was begun: a message moves, or somebody ends an
    invocation. *)
Definition finishes (n : net) (e : nevent) : Prop :=
  moves n e \/ exists c m, e = NSend c m /\ is_Some (n_clients n !! c) /\ is_Some (ending m).
Fixpoint all_finish (n : net) (es : list nevent) : Prop :=
  match es with [] => True | e :: es' => finishes n e /\ all_finish (nstep n e) es' end.

(** The invocation a message answers, finally or not; the invocations [c] sent
    answers for. *)
Definition answering (m : message) : option N :=
  match m with
  | MYield y => Some (yi_request y)
  | MError x => if er_type x =? tInvocation then Some (er_request x) else None
  | _ => None
  end.
Definition sends_answer (c : N) (n : net) (e : nevent) : list N :=
  match e with
  | NSend x m =>
      if (x =? c) && bool_decide (is_Some (n_clients n !! x)) then option_list (answering m) else []
  | _ => []
  end.
Fixpoint answers_sent (c : N) (n : net) (es : list nevent) : list N :=
  match es with [] => [] | e :: es' => sends_answer c n e ++ answers_sent c (nstep n e) es' end%list.

(** Everybody answers only invocations it has read, [log c] being what [c] has
    read before. *)
Definition honest (log : N -> list message) (n : net) (e : nevent) : Prop :=
  match e with
  | NSend c m => is_Some (n_clients n !! c) -> forall i, answering m = Some i -> i ∈ inv_ids (log c)
  | _ => True
  end.
Fixpoint honestly (log : N -> list message) (n : net) (es : list nevent) : Prop :=
  match es with
  | [] => True
  | e :: es' => honest log n e /\ honestly (fun c => log c ++ delivers c n e)%list (nstep n e) es'
  end.
