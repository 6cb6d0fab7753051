(** What the users of a router may expect of identities and answers, in terms
    of its log (latest first). *)
From Verif Require Import Prelude Value Msg Types Auth Acceptor AuthSpec Dealer DealerSpec DealerKind Realm.

Local Open Scope string_scope.
Local Open Scope list_scope.

(** The history of one connection's acceptor. *)
Definition shakes (i : nat) (log : list revent) : list aevent :=
  omap (fun e => match e with RShake k x => if Nat.eqb k i then Some x else None | _ => None end) log.

(** The session that connection [i] has now. *)
Fixpoint on (log : list revent) (i : nat) : option session_details :=
  match log with
  | [] => None
  | RAttached k d :: log' => if Nat.eqb k i then Some d else on log' i
  | RDetached k :: log' => if Nat.eqb k i then None else on log' i
  | _ :: log' => on log' i
  end.
Definition session_ids (log : list revent) : list N :=
  omap (fun e => match e with RAttached _ d => Some (se_id d) | _ => None end) log.

Section spec.
Context {CR : Crypto}.
(** Connection [i] was sent a WELCOME that says what [d] says, on the grounds
    of C68: its authenticator approved this identity, and the proof asked for
    was given. *)
Definition authenticated (log : list revent) (i : nat) (d : session_details) : Prop :=
  exists new w past, shakes i log = new ++ AMade (Ok (MWelcome w)) :: past
    /\ warranted past w /\ agrees d w.
End spec.

(** The last call of AutoDisclosePublisher and AutoDiscloseCaller. *)
Fixpoint disclosure (log : list revent) : bool * bool :=
  match log with [] => (false, false) | RSet p c :: _ => (p, c) | _ :: log' => disclosure log' end.

(** What details say about who is behind a message, under the names the WAMP
    specification gives to caller and publisher. *)
Definition shows (details : gomap) (role : string) (who : option session_details) : Prop :=
  let get k := mget details k in
  match who with
  | Some d => get role = VInt KUint64 (Z.of_N (se_id d))
              /\ get (role ++ "_authid")%string = VStr (se_authid d)
              /\ get (role ++ "_authrole")%string = VStr (se_authrole d)
  | None => get role = VNil /\ get (role ++ "_authid")%string = VNil /\ get (role ++ "_authrole")%string = VNil
  end.

(** What the dealer was asked and what it answered, latest first. *)
Definition dealings (r : realm) : dtrace := dtrace_of (rl_dh r) (rl_douts r).

(** The two rules of C48 that are up to the clients (the third, that CALLs come
    from added sessions, is kept by the router). *)
Definition kind_op (r : realm) (op : rop) : Prop :=
  match op with
  | RMessage i _ _ m => forall d, on (rl_log r) i = Some d ->
      keeps_rule NoRejoin (dealings r) (DReceive (se_id d) m) /\ keeps_rule OnlyHeld (dealings r) (DReceive (se_id d) m)
  | _ => True
  end.
Section kind.
Context {CR : Crypto}.
Definition kindly (statics : nat -> bool) (ops : list rop) : Prop :=
  forall pre op post r, ops = pre ++ op :: post -> rrun pre (new_realm statics) = Ret r tt -> kind_op r op.

(** Authenticators that answer, with key lengths that can be allocated. *)
Definition proper_op (op : rop) : Prop :=
  match op with
  | RMessage _ e _ _ => forall rq, proper_answer (av_answer e rq) /\ proper_keylen (av_answer e rq)
  | _ => True
  end.
End kind.
