(** Client sessions and a router's broker and dealer, joined by transports.

    /repo has the parts and leaves the joining to its user; this file joins
    the models of the parts in the one way their signatures allow:
      - SendMessage (session.go:49) puts what it accepts on the client's
        transport; what a client reads goes to ReceiveMessage (session.go:128);
      - the router hands SUBSCRIBE and UNSUBSCRIBE to Broker.ReceiveMessage
        (broker.go:102), PUBLISH to Broker.ReceivePublish (broker.go:178), and
        CALL, YIELD, REGISTER, UNREGISTER and ERROR to Dealer.ReceiveMessage
        (dealer.go:161), and sends what they return to whom they say
        (MessageWithRecipient, Publication: types.go); a returned error is
        dropped;
      - a session joins by AddSession and leaves by RemoveSession on both.
    A transport delivers in order and loses nothing; there is one queue in each
    direction per client, and anything may be delayed for any time.  That a
    message arrives as it was sent is C06's subject. *)
From Verif Require Import Prelude Value Msg IdGen Types PathMatch Broker Dealer Session.

(** A client: its Session, what it sent and the router has not read, what the
    router sent and it has not read; and, as a history variable, the request
    ids it has used. *)
Record client : Type := Client {
  cl_session : session; cl_up : list message; cl_down : list message; cl_used : list N }.

(** [n_rejected] collects the messages that a client's ReceiveMessage refused,
    [n_crashed] the panics.  History variables: every session id that ever
    joined, and the calls made on broker and dealer with their results. *)
Record net : Type := Net {
  n_clients : gmap N client;
  n_broker : broker;
  n_dealer : dealer;
  n_rejected : list (N * message);
  n_crashed : list string;
  n_ever : list N;
  n_bh : bhist; n_bouts : list bout;
  n_dh : dhist; n_douts : list dout }.
Definition empty_net : net := Net ∅ new_broker new_dealer [] [] [] [] [] [] [].

Definition nset_clients x n := Net x (n_broker n) (n_dealer n) (n_rejected n) (n_crashed n) (n_ever n) (n_bh n) (n_bouts n) (n_dh n) (n_douts n).
Definition nset_rejected x n := Net (n_clients n) (n_broker n) (n_dealer n) x (n_crashed n) (n_ever n) (n_bh n) (n_bouts n) (n_dh n) (n_douts n).
Definition nset_crashed x n := Net (n_clients n) (n_broker n) (n_dealer n) (n_rejected n) x (n_ever n) (n_bh n) (n_bouts n) (n_dh n) (n_douts n).
Definition nset_ever x n := Net (n_clients n) (n_broker n) (n_dealer n) (n_rejected n) (n_crashed n) x (n_bh n) (n_bouts n) (n_dh n) (n_douts n).

(** A call on the broker, on the dealer. *)
Definition call_broker (o : oracle) (op : bop) (n : net) : net * option bout :=
  match bstep o (n_broker n) op with
  | Ret b out =>
      (Net (n_clients n) b (n_dealer n) (n_rejected n) (n_crashed n) (n_ever n)
         (n_bh n ++ [(o, op)]) (n_bouts n ++ [out]) (n_dh n) (n_douts n), Some out)
  | Crash w => (nset_crashed (w :: n_crashed n) n, None)
  end.
Definition call_dealer (o : oracle) (op : dop) (n : net) : net * option dout :=
  match dstep o (n_dealer n) op with
  | Ret d out =>
      (Net (n_clients n) (n_broker n) d (n_rejected n) (n_crashed n) (n_ever n)
         (n_bh n) (n_bouts n) (n_dh n ++ [(o, op)]) (n_douts n ++ [out]), Some out)
  | Crash w => (nset_crashed (w :: n_crashed n) n, None)
  end.

(** The router sends [m] to [to], if that session is still there. *)
Definition cl_post (m : message) (cl : client) : client :=
  Client (cl_session cl) (cl_up cl) (cl_down cl ++ [m]) (cl_used cl).
Definition post (n : net) (m : message) (to : N) : net :=
  match n_clients n !! to with
  | Some cl => nset_clients (<[to := cl_post m cl]> (n_clients n)) n
  | None => n
  end.
Fixpoint post_all (n : net) (m : message) (tos : list N) : net :=
  match tos with [] => n | to :: tos' => post_all (post n m to) m tos' end.

(** The router handles message [m] of session [c]. *)
Definition handle (o : oracle) (c : N) (m : message) (n : net) : net :=
  match m with
  | MPublish p =>
      match call_broker o (BPublish c p) n with
      | (n, Some (BPubl ev rs ack)) =>
          let n := match ev with Some e => post_all n (MEvent e) rs | None => n end in
          match ack with Some (a, to) => post n a to | None => n end
      | (n, _) => n
      end
  | MSubscribe _ | MUnsubscribe _ =>
      match call_broker o (BReceive c m) n with
      | (n, Some (BMsg a to)) => post n a to
      | (n, _) => n
      end
  | MCall _ | MYield _ | MRegister _ | MUnregister _ | MError _ =>
      match call_dealer o (DReceive c m) n with
      | (n, Some (DMsg a to)) => post n a to
      | (n, _) => n
      end
  | _ => n
  end.

(** The request id of a client's request. *)
Definition request_of (m : message) : option N :=
  match m with
  | MCall x => Some (ca_request x)
  | MRegister x => Some (rg_request x)
  | MUnregister x => Some (ur_request x)
  | MPublish x => Some (pu_request x)
  | MSubscribe x => Some (su_request x)
  | MUnsubscribe x => Some (us_request x)
  | _ => None
  end.

(** What may happen next: a session joins, leaves; client [c] sends [m]; the
    router reads the next message of [c]; client [c] reads its next message;
    AutoDisclosePublisher and AutoDiscloseCaller are called. *)
Inductive nevent : Type :=
| NJoin (d : session_details)
| NLeave (o : oracle) (c : N)
| NSend (c : N) (m : message)
| NRoute (o : oracle) (c : N)
| NDeliver (c : N)
| NDisclose (publisher caller : bool).

Definition any_oracle : oracle := Oracle sh_id sh_id 0.

Definition nstep (n : net) (e : nevent) : net :=
  match e with
  | NJoin d =>
      let n := nset_ever (se_id d :: n_ever n) n in
      let n := nset_clients (<[se_id d := Client new_session [] [] []]> (n_clients n)) n in
      let n := fst (call_broker any_oracle (BAdd d) n) in
      fst (call_dealer any_oracle (DAdd d) n)
  | NLeave o c =>
      let n := nset_clients (delete c (n_clients n)) n in
      let n := fst (call_broker o (BRemove c) n) in
      fst (call_dealer o (DRemove c) n)
  | NSend c m =>
      match n_clients n !! c with
      | None => n
      | Some cl =>
          match sstep (cl_session cl) (SSend (Ok "") m) with
          | (s, Ok _) =>
              let used := match request_of m with Some r => r :: cl_used cl | None => cl_used cl end in
              nset_clients (<[c := Client s (cl_up cl ++ [m]) (cl_down cl) used]> (n_clients n)) n
          | (s, _) => nset_clients (<[c := Client s (cl_up cl) (cl_down cl) (cl_used cl)]> (n_clients n)) n
          end
      end
  | NRoute o c =>
      match n_clients n !! c with
      | Some (Client _ (m :: _) _ _) =>
          let n := handle o c m n in
          match n_clients n !! c with
          | Some cl => nset_clients (<[c := Client (cl_session cl) (tail (cl_up cl)) (cl_down cl) (cl_used cl)]>
                                       (n_clients n)) n
          | None => n
          end
      | _ => n
      end
  | NDeliver c =>
      match n_clients n !! c with
      | Some (Client s up (m :: down) used) =>
          let (s', r) := sstep s (SReceiveMessage m) in
          let n := nset_clients (<[c := Client s' up down used]> (n_clients n)) n in
          match r with
          | Ok _ => n
          | _ => nset_rejected ((c, m) :: n_rejected n) n
          end
      | _ => n
      end
  | NDisclose p c =>
      let n := fst (call_broker any_oracle (BDisclose p) n) in
      fst (call_dealer any_oracle (DDisclose c) n)
  end.

Fixpoint nrun (n : net) (es : list nevent) : net :=
  match es with [] => n | e :: es' => nrun (nstep n e) es' end.
