(** What it means that requests are answered, and that a network comes to rest. *)
From Verif Require Import Prelude Value Msg IdGen Types PathMatch Broker Dealer Session Network.
From Verif Require Import BrokerSpec DealerSpec NetworkSpec.

(** The answer a message waits for, the answer a message is: the type of the
    request and its id.  CALL has its own property (C84). *)
Definition asks (m : message) : list (N * N) :=
  match m with
  | MSubscribe x => [(tSubscribe, su_request x)]
  | MUnsubscribe x => [(tUnsubscribe, us_request x)]
  | MRegister x => [(tRegister, rg_request x)]
  | MUnregister x => [(tUnregister, ur_request x)]
  | MPublish x => if says (pu_options x) "acknowledge" then [(tPublish, pu_request x)] else []
  | _ => []
  end.
Definition replies (a : message) : list (N * N) :=
  match a with
  | MSubscribed x => [(tSubscribe, sd_request x)]
  | MUnsubscribed x => [(tUnsubscribe, ud_request x)]
  | MRegistered x => [(tRegister, rd_request x)]
  | MUnregistered x => [(tUnregister, un_request x)]
  | MPublished x => [(tPublish, pd_request x)]
  | MError x => if er_type x =? tCall then [] else [(er_type x, er_request x)]
  | _ => []
  end.

(** The answers client [c] is owed for what its session agrees to send. *)
Definition makes_request (c : N) (n : net) (e : nevent) : list (N * N) :=
  match e with
  | NSend x m =>
      if x =? c then
        match n_clients n !! x with
        | Some cl => match sstep (cl_session cl) (SSend (Ok "") m) with (_, Ok _) => asks m | _ => [] end
        | None => []
        end
      else []
  | _ => []
  end.
Fixpoint requests_made (c : N) (n : net) (es : list nevent) : list (N * N) :=
  match es with [] => [] | e :: es' => makes_request c n e ++ requests_made c (nstep n e) es' end%list.

(** The router, coming to an UNSUBSCRIBE or UNREGISTER, still has the client
    down for what is to be given up. *)
Definition timely (n : net) (e : nevent) : Prop :=
  match e with
  | NRoute o c => forall cl m rest, n_clients n !! c = Some cl -> cl_up cl = m :: rest ->
      match m with
      | MUnsubscribe u => exists t, holds (btr n) c t (us_subscription u)
      | MUnregister u => exists p, owns (dtr n) c p (ur_registration u)
      | _ => True
      end
  | _ => True
  end.
Fixpoint all_timely (n : net) (es : list nevent) : Prop :=
  match es with [] => True | e :: es' => timely n e /\ all_timely (nstep n e) es' end.

(** A rule a client can keep by itself: beside being careful (NetworkSpec.v),
    it gives up a subscription only once. *)
Definition considerate (n : net) (e : nevent) : Prop :=
  careful n e /\
  match e with
  | NSend c (MUnsubscribe u) => forall cl, n_clients n !! c = Some cl ->
      forall r, cs_unsubscribes (cl_session cl) !! r <> Some (us_subscription u)
  | _ => True
  end.
Fixpoint considerately (n : net) (es : list nevent) : Prop :=
  match es with [] => True | e :: es' => considerate n e /\ considerately (nstep n e) es' end.

(** Messages move and nobody sends anything new: the router or a client reads a
    message that is there. *)
Definition moves (n : net) (e : nevent) : Prop :=
  match e with
  | NRoute _ c => exists cl, n_clients n !! c = Some cl /\ cl_up cl <> []
  | NDeliver c => exists cl, n_clients n !! c = Some cl /\ cl_down cl <> []
  | _ => False
  end.
Fixpoint all_moves (n : net) (es : list nevent) : Prop :=
  match es with [] => True | e :: es' => moves n e /\ all_moves (nstep n e) es' end.
Definition at_rest (n : net) : Prop :=
  forall c cl, n_clients n !! c = Some cl -> cl_up cl = [] /\ cl_down cl = [].
