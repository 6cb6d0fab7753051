(** A router as an application puts it together from /repo's parts: every
    connection first talks to an Acceptor of its own, and once that has sent
    WELCOME the session is added to broker and dealer, which get the
    connection's messages from then on.

    /repo leaves this joining to its user; this file joins the models of the
    parts in the one way their signatures allow:
      - before the WELCOME a message goes to Acceptor.ReceiveMessage
        (acceptor.go:98);
      - when the reply is WELCOME, SessionDetails (acceptor.go:273) go to
        AddSession of broker (broker.go:40) and dealer (dealer.go:89), and if
        either refuses, the connection is closed;
      - afterwards SUBSCRIBE and UNSUBSCRIBE go to Broker.ReceiveMessage
        (broker.go:102), PUBLISH to Broker.ReceivePublish (broker.go:178), and
        CALL, YIELD, REGISTER, UNREGISTER and ERROR to Dealer.ReceiveMessage
        (dealer.go:161) under the session's id; what they return goes to the
        connection whose session has the id they say, and returned errors are
        dropped;
      - a connection that closes is removed from both by RemoveSession.
    Who is at the other end of a connection is left open: it may send any
    message at any time. *)
From Verif Require Import Prelude Value Msg IdGen Types Auth Acceptor PathMatch Broker Dealer.

Section realm.
Context {CR : Crypto}.

(** What happened at the router, latest first. *)
Inductive revent : Type :=
| RShake (i : nat) (e : aevent)              (* the acceptor of connection i *)
| RAttached (i : nat) (d : session_details)  (* its session was added *)
| RDetached (i : nat)                        (* and removed *)
| RTook (i : nat) (m : message)              (* a message of an added session *)
| RGave (i : nat) (m : message)              (* a message for one *)
| RSet (publisher caller : bool).            (* disclosure was switched *)

Record realm : Type := Realm {
  rl_acceptor : nat -> acceptor;
  rl_session : nat -> option session_details;
  rl_closed : nat -> bool;
  rl_by_id : gmap N nat;
  rl_broker : broker; rl_dealer : dealer;
  rl_log : list revent;
  (* the calls made on broker and dealer with their results, for proofs *)
  rl_bh : bhist; rl_bouts : list bout; rl_dh : dhist; rl_douts : list dout }.

Definition new_realm (statics : nat -> bool) : realm :=
  Realm (fun i => new_acceptor (statics i)) (fun _ => None) (fun _ => false) ∅
    new_broker new_dealer [] [] [] [] [].

Definition put {A} (f : nat -> A) (k : nat) (x : A) : nat -> A :=
  fun k' => if Nat.eqb k' k then x else f k'.

Definition rset_acceptor i x r := Realm (put (rl_acceptor r) i x) (rl_session r) (rl_closed r) (rl_by_id r) (rl_broker r) (rl_dealer r) (rl_log r) (rl_bh r) (rl_bouts r) (rl_dh r) (rl_douts r).
Definition rset_log x r := Realm (rl_acceptor r) (rl_session r) (rl_closed r) (rl_by_id r) (rl_broker r) (rl_dealer r) x (rl_bh r) (rl_bouts r) (rl_dh r) (rl_douts r).
Definition close i r := Realm (rl_acceptor r) (rl_session r) (put (rl_closed r) i true) (rl_by_id r) (rl_broker r) (rl_dealer r) (rl_log r) (rl_bh r) (rl_bouts r) (rl_dh r) (rl_douts r).
Definition attach i d r := Realm (rl_acceptor r) (put (rl_session r) i (Some d)) (rl_closed r) (<[se_id d := i]> (rl_by_id r)) (rl_broker r) (rl_dealer r) (RAttached i d :: rl_log r) (rl_bh r) (rl_bouts r) (rl_dh r) (rl_douts r).
Definition detach i d r := Realm (rl_acceptor r) (put (rl_session r) i None) (rl_closed r) (delete (se_id d) (rl_by_id r)) (rl_broker r) (rl_dealer r) (RDetached i :: rl_log r) (rl_bh r) (rl_bouts r) (rl_dh r) (rl_douts r).

(** A call on the broker, on the dealer; a panic ends the program. *)
Definition on_broker (o : oracle) (op : bop) (r : realm) : outcome realm bout :=
  match bstep o (rl_broker r) op with
  | Ret b out =>
      Ret (Realm (rl_acceptor r) (rl_session r) (rl_closed r) (rl_by_id r) b (rl_dealer r) (rl_log r)
             (rl_bh r ++ [(o, op)]) (rl_bouts r ++ [out]) (rl_dh r) (rl_douts r)) out
  | Crash w => Crash w
  end.
Definition on_dealer (o : oracle) (op : dop) (r : realm) : outcome realm dout :=
  match dstep o (rl_dealer r) op with
  | Ret d out =>
      Ret (Realm (rl_acceptor r) (rl_session r) (rl_closed r) (rl_by_id r) (rl_broker r) d (rl_log r)
             (rl_bh r) (rl_bouts r) (rl_dh r ++ [(o, op)]) (rl_douts r ++ [out])) out
  | Crash w => Crash w
  end.

(** Send to the connection whose session has that id, if there is one. *)
Definition give (m : message) (to : N) (r : realm) : realm :=
  match rl_by_id r !! to with
  | Some i => rset_log (RGave i m :: rl_log r) r
  | None => r
  end.
Fixpoint give_all (m : message) (tos : list N) (r : realm) : realm :=
  match tos with [] => r | to :: tos' => give_all m tos' (give m to r) end.

(** A message of an added session. *)
Definition serve (o : oracle) (sid : N) (m : message) (r : realm) : outcome realm unit :=
  match m with
  | MPublish p =>
      match on_broker o (BPublish sid p) r with
      | Crash w => Crash w
      | Ret r (BPubl ev rs ack) =>
          let r := match ev with Some e => give_all (MEvent e) rs r | None => r end in
          Ret (match ack with Some (a, to) => give a to r | None => r end) tt
      | Ret r _ => Ret r tt
      end
  | MSubscribe _ | MUnsubscribe _ =>
      match on_broker o (BReceive sid m) r with
      | Crash w => Crash w
      | Ret r (BMsg a to) => Ret (give a to r) tt
      | Ret r _ => Ret r tt
      end
  | MCall _ | MYield _ | MRegister _ | MUnregister _ | MError _ =>
      match on_dealer o (DReceive sid m) r with
      | Crash w => Crash w
      | Ret r (DMsg a to) => Ret (give a to r) tt
      | Ret r _ => Ret r tt
      end
  | _ => Ret r tt
  end.

(** The session of a connection that was sent WELCOME joins. *)
Definition join (i : nat) (a : acceptor) (r : realm) : outcome realm unit :=
  match acceptor_details a with
  | Ok d =>
      match on_broker (Oracle sh_id sh_id 0) (BAdd d) r with
      | Crash w => Crash w
      | Ret r BOk =>
          match on_dealer (Oracle sh_id sh_id 0) (DAdd d) r with
          | Crash w => Crash w
          | Ret r DOk => Ret (attach i d r) tt
          | Ret r _ => Ret (close i r) tt
          end
      | Ret r _ => Ret (close i r) tt
      end
  | _ => Ret (close i r) tt
  end.

(** What may happen: a message arrives on connection [i]; connection [i] is
    closed; AutoDisclosePublisher and AutoDiscloseCaller are called. *)
Inductive rop : Type :=
| RMessage (i : nat) (e : aenv) (o : oracle) (m : message)
| RClose (i : nat) (o : oracle)
| RDisclose (publisher caller : bool).

Definition rstep (op : rop) (r : realm) : outcome realm unit :=
  match op with
  | RMessage i e o m =>
      if rl_closed r i then Ret r tt
      else
        match rl_session r i with
        | Some d => serve o (se_id d) m (rset_log (RTook i m :: rl_log r) r)
        | None =>
            match acceptor_receive e (rl_acceptor r i) m with
            | Crash w => Crash w
            | Ret a (calls, reply) =>
                let r := rset_acceptor i a r in
                let r := rset_log (map (RShake i) (AMade reply :: map ACalled calls ++ [AGot m]) ++ rl_log r) r in
                match reply with Ok (MWelcome _) => join i a r | _ => Ret r tt end
            end
        end
  | RClose i o =>
      match rl_session r i with
      | None => Ret (close i r) tt
      | Some d =>
          match on_broker o (BRemove (se_id d)) r with
          | Crash w => Crash w
          | Ret r _ =>
              match on_dealer o (DRemove (se_id d)) r with
              | Crash w => Crash w
              | Ret r _ => Ret (close i (detach i d r)) tt
              end
          end
      end
  | RDisclose p c =>
      match on_broker (Oracle sh_id sh_id 0) (BDisclose p) r with
      | Crash w => Crash w
      | Ret r _ =>
          match on_dealer (Oracle sh_id sh_id 0) (DDisclose c) r with
          | Crash w => Crash w
          | Ret r _ => Ret (rset_log (RSet p c :: rl_log r) r) tt
          end
      end
  end.

Fixpoint rrun (ops : list rop) (r : realm) : outcome realm unit :=
  match ops with
  | [] => Ret r tt
  | op :: ops' => match rstep op r with Crash w => Crash w | Ret r' _ => rrun ops' r' end
  end.
End realm.
