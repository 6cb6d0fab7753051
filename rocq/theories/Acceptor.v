(** /repo/acceptor.go *)
From Verif Require Import Prelude Value Msg IdGen Types Encoding Auth.

Local Open Scope string_scope.

(** RouterRoles, acceptor.go:21-33. *)
Definition router_roles : gomap :=
  Some [("dealer", VMap (Some [("features", VMap (Some
            [("progressive_call_invocations", VBool true); ("call_canceling", VBool true)]))]));
        ("broker", VMap (Some [("features", VMap (Some [("publisher_exclusion", VBool true)]))]))].

(** acceptorState, acceptor.go:13-19. *)
Inductive astate : Type := ANone | AChallengeSent | AWelcomeSent.
Global Instance astate_eq_dec : EqDecision astate.
Proof. solve_decision. Defined.

(** Acceptor, acceptor.go:49-61.  Of the serializer only Static() is kept. *)
Record acceptor : Type := Acceptor {
  ac_state : astate; ac_static : bool;
  ac_method : string; ac_hello : option hello; ac_request : option request;
  ac_response : option response; ac_challenge : string;
  ac_details : option session_details }.

(** NewAcceptor, acceptor.go:63-77. *)
Definition new_acceptor (static : bool) : acceptor :=
  Acceptor ANone static "" None None None "" None.

(** Everything a call depends on besides its argument: what the server
    authenticator answers during this call (it may answer differently next
    time), what GenerateID and crypto/rand draw, and the clock. *)
Record aenv : Type := AEnv {
  av_methods : list string;            (* Methods() *)
  av_answer : request -> answer;       (* Authenticate() *)
  av_session : N;                      (* GenerateID() for WELCOME *)
  av_cra_session : N;                  (* GenerateID() for the CRA challenge *)
  av_nonce : option string;            (* 16 random bytes *)
  av_now : string;                     (* NowISO8601() *)
  av_challenge : option string         (* 32 random bytes *) }.

(** defaultAuthenticator, acceptor.go:35-47. *)
Definition default_methods : list string := [mAnonymous].
Definition default_answer (r : request) : answer :=
  if String.eqb (rq_method r) mAnonymous then Approve (Response "anonymous" "anonymous" None)
  else Refuse ("recevied request for " ++ rq_method r ++ " auth but only anonymous is supported").

(** The calls a ReceiveMessage made to the authenticator, latest first. *)
Inductive acall : Type :=
| AMethods (l : list string)
| AAsked (r : request) (ans : answer).

Definition auth_failed : string := "wamp.error.authentication_failed".
Definition abort_with (args : goslice) : message :=
  MAbort (new_abort (Some []) auth_failed args None).

Section acceptor.
Context {PL : Platform} {CR : Crypto}.

(** sendWelcome, acceptor.go:257-271. *)
Definition send_welcome (a : acceptor) (id : N) (resp : option response) (extra : gomap)
  : outcome acceptor message :=
  match ac_hello a, resp with
  | Some h, Some r =>
      Ret (Acceptor AWelcomeSent (ac_static a) (ac_method a) (ac_hello a) (ac_request a)
             (ac_response a) (ac_challenge a)
             (Some (new_session_details id (he_realm h) (rs_authid r) (rs_authrole r)
                      (ac_method a) (ac_static a) router_roles extra)))
          (MWelcome (Welcome id (Some
             [("realm", VStr (he_realm h)); ("roles", VMap router_roles);
              ("authid", VStr (rs_authid r)); ("authrole", VStr (rs_authrole r));
              ("authmethod", VMethod (ac_method a))])))
  | _, _ => Crash "nil pointer dereference"
  end.

(** The calls made, together with the result. *)
Definition answered (calls : list acall) (o : outcome acceptor message)
  : outcome acceptor (list acall * res message) :=
  match o with Ret a m => Ret a (calls, Ok m) | Crash w => Crash w end.

(** The WAMP-CRA branch of HELLO, acceptor.go:139-163, once the authenticator
    has answered without error; [r] is nil for (nil, nil). *)
Definition cra_challenge (e : aenv) (a : acceptor) (r : option response)
  : acceptor * res message :=
  match r with
  | Some (Response authid role (Some c) as rsp) =>
      match generate_cra_challenge (av_nonce e) (av_now e) (generate_id (av_cra_session e))
              authid role "dynamic" with
      | Ok ch =>
          let extra := [("challenge", VStr ch)] in
          let extra :=
            if String.eqb (cra_salt c) "" then extra
            else assoc_set "iterations" (VInt KInt (cra_iterations c))
                   (assoc_set "keylen" (VInt KInt (cra_keylen c))
                     (assoc_set "salt" (VStr (cra_salt c)) extra)) in
          (Acceptor AChallengeSent (ac_static a) (ac_method a) (ac_hello a) (ac_request a)
             (Some rsp) ch (ac_details a),
           Ok (MChallenge (Challenge (ac_method a) (Some extra))))
      | Err er => (a, Err er)
      | Panic w => (a, Err w)
      end
  | _ => (a, Err "internal response for WAMPCRA auth was of invalid type")
  end.

(** The HELLO branch, acceptor.go:103-200. *)
Definition receive_hello (e : aenv) (a : acceptor) (h : hello)
  : outcome acceptor (list acall * res message) :=
  match ac_state a with
  | ANone =>
      let ms := AMethods (av_methods e) in
      match select_auth_method (av_methods e)
              (match he_authmethods h with Some l => l | None => [] end) with
      | Err er => Ret a ([ms], Ok (abort_with (Some [VStr er])))
      | Panic w => Crash w
      | Ok m =>
          let a := Acceptor (ac_state a) (ac_static a) m (Some h) (ac_request a)
                     (ac_response a) (ac_challenge a) (ac_details a) in
          if String.eqb m mAnonymous then
            let rq := new_request h m in
            let calls := [AAsked rq (av_answer e rq); ms] in
            match av_answer e rq with
            | Refuse er => Ret a (calls, Ok (abort_with (Some [VStr er])))
            | Approve r => answered calls (send_welcome a (generate_id (av_session e)) (Some r) None)
            | Neither => answered calls (send_welcome a (generate_id (av_session e)) None None)
            end
          else if String.eqb m mTicket then
            Ret (Acceptor AChallengeSent (ac_static a) (ac_method a) (ac_hello a) (ac_request a)
                   (ac_response a) (ac_challenge a) (ac_details a))
                ([ms], Ok (MChallenge (Challenge m (Some []))))
          else if String.eqb m mWAMPCRA then
            let rq := new_request h m in
            let calls := [AAsked rq (av_answer e rq); ms] in
            match av_answer e rq with
            | Refuse er => Ret a (calls, Ok (abort_with (Some [VStr er])))
            | Approve r => let '(a', x) := cra_challenge e a (Some r) in Ret a' (calls, x)
            | Neither => let '(a', x) := cra_challenge e a None in Ret a' (calls, x)
            end
          else if String.eqb m mCryptoSign then
            match mget (he_authextra h) "pubkey" with
            | VStr pk =>
                if String.eqb pk "" then Ret a ([ms], Err "pubkey empty in authextra")
                else
                  let rq := new_cryptosign_request h pk in
                  let calls := [AAsked rq (av_answer e rq); ms] in
                  let go r :=
                    let a := Acceptor (ac_state a) (ac_static a) (ac_method a) (ac_hello a)
                               (Some rq) r (ac_challenge a) (ac_details a) in
                    match generate_cryptosign_challenge (av_challenge e) with
                    | Ok ch =>
                        Ret (Acceptor AChallengeSent (ac_static a) (ac_method a) (ac_hello a)
                               (ac_request a) (ac_response a) ch (ac_details a))
                            (calls, Ok (MChallenge (Challenge m (Some [("challenge", VStr ch)]))))
                    | Err er => Ret a (calls, Err er)
                    | Panic w => Crash w
                    end in
                  match av_answer e rq with
                  | Refuse er => Ret a (calls, Ok (abort_with (Some [VStr er])))
                  | Approve r => go (Some r)
                  | Neither => go None
                  end
            | _ => Ret a ([ms], Err "pubkey missing or not a string in authextra")
            end
          else Ret a ([ms], Err "received HELLO for unexpected authmethod")
      end
  | _ => Ret a ([], Err "state must be None when processing HELLO")
  end.

(** The AUTHENTICATE branch, acceptor.go:201-251.  The type assertions on the
    cached response and request, and the cached HELLO, panic when they are not
    what the branch expects. *)
Definition receive_authenticate (e : aenv) (a : acceptor) (au : authenticate)
  : outcome acceptor (list acall * res message) :=
  match ac_state a with
  | AChallengeSent =>
      if String.eqb (ac_method a) mTicket then
        match ac_hello a with
        | None => Crash "nil pointer dereference"
        | Some h =>
            let rq := new_ticket_request h (au_signature au) in
            let calls := [AAsked rq (av_answer e rq)] in
            match av_answer e rq with
            | Refuse er => Ret a (calls, Ok (abort_with (Some [VStr er])))
            | Approve r => answered calls (send_welcome a (generate_id (av_session e)) (Some r) (au_extra au))
            | Neither => answered calls (send_welcome a (generate_id (av_session e)) None (au_extra au))
            end
        end
      else if String.eqb (ac_method a) mWAMPCRA then
        match ac_response a with
        | Some (Response _ _ (Some c)) =>
            let key :=
              if String.eqb (cra_salt c) "" then Ok (cra_secret c)
              else derive_key (cra_salt c) (cra_secret c) (cra_iterations c) (cra_keylen c) in
            match key with
            | Ok k =>
                if verify_cra (au_signature au) (ac_challenge a) k
                then answered [] (send_welcome a (generate_id (av_session e)) (ac_response a) (au_extra au))
                else Ret a ([], Ok (abort_with None))
            | Err er => Ret a ([], Err er)
            | Panic w => Crash w
            end
        | _ => Crash "interface conversion"
        end
      else if String.eqb (ac_method a) mCryptoSign then
        match ac_request a with
        | Some (Request _ _ _ _ (RCryptoSign pk)) =>
            match hex_decode pk with
            | None => Ret a ([], Err "failed to decode public key")
            | Some key =>
                if verify_cryptosign (au_signature au) key
                then answered [] (send_welcome a (generate_id (av_session e)) (ac_response a) (au_extra au))
                else Ret a ([], Ok (abort_with None))
            end
        | _ => Crash "interface conversion"
        end
      else Ret a ([], Err "received AUTHENTICATE for unexpected authmethod")
  | _ => Ret a ([], Err "received AUTHENTICATE in the wrong state")
  end.

(** Acceptor.ReceiveMessage, acceptor.go:98-255. *)
Definition acceptor_receive (e : aenv) (a : acceptor) (m : message)
  : outcome acceptor (list acall * res message) :=
  if bool_decide (ac_state a = AWelcomeSent) then
    Ret a ([], Err "session was established, not expecting any new messages")
  else
    match m with
    | MHello h => receive_hello e a h
    | MAuthenticate au => receive_authenticate e a au
    | _ => Ret a ([], Err "received unexpected message")
    end.

(** Acceptor.Receive, acceptor.go:79-96: [decoded] is what Deserialize made of
    the bytes, [ser_ok] whether Serialize succeeds.  The result is the message
    behind the payload and the welcomed flag. *)
Definition acceptor_receive_bytes (e : aenv) (a : acceptor) (decoded : res message) (ser_ok : bool)
  : outcome acceptor (list acall * res message * res (message * bool)) :=
  match decoded with
  | Err er => Ret a ([], Err er, Err er)
  | Panic w => Crash w
  | Ok m =>
      match acceptor_receive e a m with
      | Crash w => Crash w
      | Ret a' (calls, Ok r) =>
          Ret a' (calls, Ok r,
                  if ser_ok then Ok (r, bool_decide (mtype r = tWelcome)) else Err "serialize")
      | Ret a' (calls, Err er) => Ret a' (calls, Err er, Err er)
      | Ret a' (calls, Panic w) => Crash w
      end
  end.

(** Acceptor.SessionDetails, acceptor.go:273-279. *)
Definition acceptor_details (a : acceptor) : res session_details :=
  match ac_details a with Some d => Ok d | None => Err "session is not setup yet" end.

(** A history of ReceiveMessage calls.  The trace, latest first, has for each
    call the message, the calls made to the authenticator and the result. *)
Inductive aevent : Type :=
| AGot (m : message)
| ACalled (c : acall)
| AMade (r : res message).

Definition acceptor_step (e : aenv) (m : message) (s : acceptor * list aevent)
  : outcome (acceptor * list aevent) unit :=
  match acceptor_receive e (fst s) m with
  | Crash w => Crash w
  | Ret a (calls, r) => Ret (a, AMade r :: map ACalled calls ++ AGot m :: snd s)%list tt
  end.

Fixpoint acceptor_run (ins : list (aenv * message)) (s : acceptor * list aevent)
  : outcome (acceptor * list aevent) unit :=
  match ins with
  | [] => Ret s tt
  | (e, m) :: ins' =>
      match acceptor_step e m s with
      | Crash w => Crash w
      | Ret s' _ => acceptor_run ins' s'
      end
  end.

End acceptor.
