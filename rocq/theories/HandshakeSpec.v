(** Whole handshakes: a Joiner and an Acceptor that talk through a serializer
    which keeps the values of WireSpec.v. *)
From Verif Require Import Prelude Value Msg Types Auth Acceptor Joiner WireSpec MsgSpec.

Local Open Scope string_scope.

Section handshake.
Context {PL : Platform} {CR : Crypto}.

(** However [m] is transported, Deserialize accepts it, and what it returns
    satisfies [next]. *)
Definition sent (m : message) (next : message -> Prop) : Prop :=
  forall l sh sh', Forall2 wire (marshal m) l ->
  exists m', deserialize_decoded sh sh' l = Ok m' /\ next m'.

(** Both ends report the same session. *)
Definition agreed (id : N) (realm method : string) (r : response) (j : joiner) (a : acceptor) : Prop :=
  exists dj da, joiner_details j = Ok dj /\ acceptor_details a = Ok da
    /\ se_id dj = id /\ se_id da = id
    /\ se_realm dj = realm /\ se_realm da = realm
    /\ se_authid dj = rs_authid r /\ se_authid da = rs_authid r
    /\ se_authrole dj = rs_authrole r /\ se_authrole da = rs_authrole r
    /\ se_authmethod dj = method /\ se_authmethod da = method.

(** The acceptor answers WELCOME, the joiner accepts it, and they agree. *)
Definition welcomed (c : client) (id : N) (realm method : string) (r : response) (j : joiner)
  (o : outcome acceptor (list acall * res message)) : Prop :=
  exists a calls w, o = Ret a (calls, Ok (MWelcome w))
    /\ sent (MWelcome w) (fun m => exists j',
         joiner_receive c j m = Ret j' (Ok None) /\ agreed id realm method r j' a).

(** HELLO, WELCOME. *)
Definition handshake_short (c : client) (realm : string) (static static' : bool) (e : aenv)
  (method : string) (r : response) : Prop :=
  exists j hello, send_hello c true (new_joiner realm static) = (j, Ok hello)
    /\ sent hello (fun m =>
         welcomed c (av_session e) realm method r j (acceptor_receive e (new_acceptor static') m)).

(** HELLO, CHALLENGE, AUTHENTICATE, WELCOME. *)
Definition handshake_long (c : client) (realm : string) (static static' : bool) (e e' : aenv)
  (method : string) (r : response) : Prop :=
  exists j hello, send_hello c true (new_joiner realm static) = (j, Ok hello)
    /\ sent hello (fun m => exists a calls ch,
         acceptor_receive e (new_acceptor static') m = Ret a (calls, Ok (MChallenge ch))
         /\ sent (MChallenge ch) (fun m => exists j' au,
              joiner_receive c j m = Ret j' (Ok (Some au))
              /\ sent au (fun m =>
                   welcomed c (av_session e') realm method r j' (acceptor_receive e' a m)))).
End handshake.
