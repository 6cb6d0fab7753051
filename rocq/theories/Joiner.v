(** /repo/joiner.go *)
From Verif Require Import Prelude Value Msg Types Auth.

Local Open Scope string_scope.

(** ClientRoles, joiner.go:13-34. *)
Definition client_roles : gomap :=
  let features l := VMap (Some [("features", VMap (Some (map (fun f => (f, VBool true)) l)))]) in
  Some [("caller", features ["progressive_call_invocations"]);
        ("callee", features ["progressive_call_invocations"; "progressive_call_results"; "call_canceling"]);
        ("publisher", features ["publisher_exclusion"]);
        ("subscriber", features [])].

(** joinerState, joiner.go:36-43. *)
Inductive jstate : Type := JNone | JHelloSent | JAuthenticateSent | JJoined.
Global Instance jstate_eq_dec : EqDecision jstate.
Proof. solve_decision. Defined.

(** Joiner, joiner.go:45-52.  Of the serializer only Static() is kept; the
    authenticator is an argument of each call, so that it may behave
    differently every time. *)
Record joiner : Type := Joiner {
  jn_state : jstate; jn_realm : string; jn_static : bool;
  jn_details : option session_details }.

(** NewJoiner, joiner.go:54-69. *)
Definition new_joiner (realm : string) (static : bool) : joiner :=
  Joiner JNone realm static None.

Definition set_jstate (j : joiner) (s : jstate) : joiner :=
  Joiner s (jn_realm j) (jn_static j) (jn_details j).

(** Joiner.SendHello, joiner.go:71-87; [ser_ok] is whether Serialize succeeds. *)
Definition send_hello (c : client) (ser_ok : bool) (j : joiner) : joiner * res message :=
  let h := Hello (jn_realm j) (cl_authid c) (Some [cl_method c]) (cl_authextra c) client_roles in
  if ser_ok then (set_jstate j JHelloSent, Ok (MHello h)) else (j, Err "failed to serialize hello").

(** Joiner.ReceiveMessage, joiner.go:116-166.  The result is the message to
    send, [None] after WELCOME.  The assertions that authid and authrole are
    strings panic.  The error text made of an ABORT is not represented. *)
Definition joiner_receive (c : client) (j : joiner) (m : message)
  : outcome joiner (res (option message)) :=
  match m with
  | MWelcome w =>
      match jn_state j with
      | JHelloSent | JAuthenticateSent =>
          let roles := match mget (we_details w) "roles" with VMap r => r | _ => None end in
          let authmethod := to_string (mget (we_details w) "authmethod") in
          match mget (we_details w) "authid", mget (we_details w) "authrole" with
          | VStr authid, VStr authrole =>
              Ret (Joiner JJoined (jn_realm j) (jn_static j)
                     (Some (new_session_details (we_session w) (jn_realm j) authid authrole
                              authmethod (jn_static j) roles None)))
                  (Ok None)
          | _, _ => Crash "interface conversion"
          end
      | _ => Ret j (Err "received WELCOME when it was not expected")
      end
  | MChallenge ch =>
      match jn_state j with
      | JHelloSent =>
          match cl_authenticate c ch with
          | Ok a => Ret (set_jstate j JAuthenticateSent) (Ok (Some (MAuthenticate a)))
          | Err e => Ret j (Err e)
          | Panic w => Crash w
          end
      | _ => Ret j (Err "received CHALLENGE when it was not expected")
      end
  | MAbort a => Ret j (Err (ab_reason a))
  | _ => Ret j (Err "received unknown message")
  end.

(** Joiner.Receive, joiner.go:89-114: [decoded] is what Deserialize made of the
    bytes, [ser_ok] whether Serialize succeeds. *)
Definition joiner_receive_bytes (c : client) (j : joiner) (decoded : res message) (ser_ok : bool)
  : outcome joiner (res (option message)) :=
  match decoded with
  | Err e => Ret j (Err e)
  | Panic w => Crash w
  | Ok m =>
      match joiner_receive c j m with
      | Ret j' (Ok (Some r)) => Ret j' (if ser_ok then Ok (Some r) else Err "serialize")
      | o => o
      end
  end.

(** Joiner.SessionDetails, joiner.go:168-174. *)
Definition joiner_details (j : joiner) : res session_details :=
  match jn_details j with Some d => Ok d | None => Err "session is not setup yet" end.

(** A history of calls, each with the authenticator's behaviour at the time. *)
Inductive jop : Type :=
| JSendHello (ser_ok : bool)
| JReceive (m : message).
(** What the caller saw, latest first. *)
Inductive jevent : Type :=
| JHello (r : res message)
| JGot (m : message) (r : res (option message)).

Definition joiner_step (c : client) (o : jop) (s : joiner * list jevent)
  : outcome (joiner * list jevent) unit :=
  match o with
  | JSendHello ok =>
      let '(j, r) := send_hello c ok (fst s) in Ret (j, JHello r :: snd s) tt
  | JReceive m =>
      match joiner_receive c (fst s) m with
      | Crash w => Crash w
      | Ret j r => Ret (j, JGot m r :: snd s) tt
      end
  end.

Fixpoint joiner_run (ops : list (client * jop)) (s : joiner * list jevent)
  : outcome (joiner * list jevent) unit :=
  match ops with
  | [] => Ret s tt
  | (c, o) :: ops' =>
      match joiner_step c o s with
      | Crash w => Crash w
      | Ret s' _ => joiner_run ops' s'
      end
  end.
