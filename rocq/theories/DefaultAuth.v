(** What an acceptor without an authenticator answers. *)
From Verif Require Import Prelude Value Msg Types Auth Acceptor AuthSpec.

Local Open Scope string_scope.
Local Open Scope list_scope.

(** The environment of NewAcceptor(serializer, nil), acceptor.go:63-66: only
    what the random source and the clock give is free. *)
Definition default_env (e : aenv) : Prop :=
  av_methods e = default_methods /\ av_answer e = default_answer.

(** The client is content with an anonymous session. *)
Definition wants_anonymous (h : hello) : Prop :=
  proposals h = [] \/ "anonymous" ∈ proposals h.

Definition welcomed_before (past : list aevent) : Prop := exists w, AMade (Ok (MWelcome w)) ∈ past.

(** The answer to [m] after the events [past]. *)
Inductive default_reply (past : list aevent) : message -> res message -> Prop :=
| dr_deaf m er : welcomed_before past -> default_reply past m (Err er)
| dr_welcome h w : ~ welcomed_before past -> wants_anonymous h ->
    names w h (Response "anonymous" "anonymous" None) "anonymous" ->
    default_reply past (MHello h) (Ok (MWelcome w))
| dr_abort h ab : ~ welcomed_before past -> ~ wants_anonymous h ->
    ab_reason ab = "wamp.error.authentication_failed" ->
    default_reply past (MHello h) (Ok (MAbort ab))
| dr_other m er : ~ welcomed_before past -> (forall h, m <> MHello h) -> default_reply past m (Err er).
