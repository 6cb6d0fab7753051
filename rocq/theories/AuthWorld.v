(** Many handshakes at once.  Servers (acceptors) and users who hold WAMP-CRA
    secrets (joiners with the authenticator of auth/wampcra.go) are called in any
    order; whoever carries the messages may read, drop, repeat, alter and make
    up anything, so every message given to a server or a user is arbitrary. *)
From Verif Require Import Prelude Value Msg Types Auth Acceptor Joiner AuthSpec.

Local Open Scope string_scope.
Local Open Scope list_scope.

Section world.
Context {PL : Platform} {CR : Crypto}.

(** A user: the arguments of NewWAMPCRAAuthenticator (auth/wampcra.go:26-34) and
    of NewJoiner (joiner.go:54-69). *)
Record user : Type := User {
  us_authid : string; us_secret : string; us_extra : gomap; us_realm : string; us_static : bool }.
Definition us_client (u : user) : client := new_wampcra (us_authid u) (us_secret u) (us_extra u).

(** One call: Acceptor.ReceiveMessage (acceptor.go:98) of server [i], or
    SendHello or ReceiveMessage (joiner.go:71, 116) of user [j]. *)
Inductive wop : Type :=
| OServer (i : nat) (e : aenv) (m : message)
| OUser (j : nat) (o : jop).
(** What happened, latest first. *)
Inductive wevent : Type :=
| AtServer (i : nat) (e : aevent)
| AtUser (j : nat) (e : jevent).

Record world : Type := World {
  wo_servers : nat -> acceptor; wo_users : nat -> joiner; wo_trace : list wevent }.
Definition put {A} (f : nat -> A) (k : nat) (x : A) : nat -> A :=
  fun k' => if Nat.eqb k' k then x else f k'.

Definition world_init (people : nat -> user) (statics : nat -> bool) : world :=
  World (fun i => new_acceptor (statics i))
    (fun j => new_joiner (us_realm (people j)) (us_static (people j))) [].

Definition world_step (people : nat -> user) (o : wop) (w : world) : outcome world unit :=
  match o with
  | OServer i e m =>
      match acceptor_step e m (wo_servers w i, []) with
      | Crash why => Crash why
      | Ret (a, t) _ =>
          Ret (World (put (wo_servers w) i a) (wo_users w) (map (AtServer i) t ++ wo_trace w)) tt
      end
  | OUser j o =>
      match joiner_step (us_client (people j)) o (wo_users w j, []) with
      | Crash why => Crash why
      | Ret (u, t) _ =>
          Ret (World (wo_servers w) (put (wo_users w) j u) (map (AtUser j) t ++ wo_trace w)) tt
      end
  end.

Fixpoint world_run (people : nat -> user) (ops : list wop) (w : world) : outcome world unit :=
  match ops with
  | [] => Ret w tt
  | o :: ops' =>
      match world_step people o w with
      | Crash why => Crash why
      | Ret w' _ => world_run people ops' w'
      end
  end.

(** The history of one server, of one user. *)
Definition server_view (i : nat) (t : list wevent) : list aevent :=
  omap (fun e => match e with AtServer k x => if Nat.eqb k i then Some x else None | _ => None end) t.
Definition user_view (j : nat) (t : list wevent) : list jevent :=
  omap (fun e => match e with AtUser k x => if Nat.eqb k j then Some x else None | _ => None end) t.

(** * What is assumed of the random source and of HMAC *)

(** The random bytes each call to a server may use as a nonce. *)
Definition nonces (ops : list wop) : list string :=
  omap (fun o => match o with OServer _ e _ => av_nonce e | OUser _ _ => None end) ops.
Definition text_of (c : challenge) (ch : string) : Prop := mget (ch_extra c) "challenge" = VStr ch.
(** [ch] is a challenge with that nonce. *)
Definition has_nonce (ch n : string) : Prop :=
  exists now id authid role provider,
    generate_cra_challenge (Some n) now id authid role provider = Ok ch.
(** Nonces never repeat, and nobody guessed one: no user was given a challenge
    with a nonce before a server drew that nonce. *)
Definition fresh (ops : list wop) : Prop :=
  NoDup (nonces ops)
  /\ forall pre i e m post n j c ch,
       ops = pre ++ OServer i e m :: post -> av_nonce e = Some n ->
       OUser j (JReceive (MChallenge c)) ∈ pre -> text_of c ch -> ~ has_nonce ch n.

(** The key which a user with that secret uses on that CHALLENGE. *)
Definition key_for (u : user) (c : challenge) (key : string) : Prop :=
  cra_key (Cra (us_secret u) (to_string (mget (ch_extra c) "salt"))
             (fst (as_int (mget (ch_extra c) "iterations")))
             (fst (as_int (mget (ch_extra c) "keylen")))) key.
(** User [j] answered a CHALLENGE with text [ch] by a signature under [key]. *)
Definition signing (people : nat -> user) (key ch : string) (e : wevent) : Prop :=
  exists j c au, e = AtUser j (JGot (MChallenge c) (Ok (Some (MAuthenticate au))))
    /\ text_of c ch /\ key_for (people j) c key.

(** Signatures under safe keys are not forged: a server that is given one of a
    challenge which some server made is given it after a user signed just this. *)
Definition unforged (people : nat -> user) (safe : string -> Prop) (t : list wevent) : Prop :=
  forall new i au past key ch,
    t = new ++ AtServer i (AGot (MAuthenticate au)) :: past -> safe key ->
    b64_denotes (au_signature au) (hmac_sha256 key ch) ->
    (exists i' c, AtServer i' (AMade (Ok (MChallenge c))) ∈ past /\ text_of c ch) ->
    exists e, e ∈ past /\ signing people key ch e.

(** * What is concluded *)

(** A user who was waiting for the answer to a HELLO signed [ch] under [key] in
    the stretch [recent], which follows [old]. *)
Definition signed_recently (people : nat -> user) (key ch : string) (recent old : list wevent) : Prop :=
  exists j c au r1 r2,
    recent = r1 ++ AtUser j (JGot (MChallenge c) (Ok (Some (MAuthenticate au)))) :: r2
    /\ text_of c ch /\ key_for (people j) c key
    /\ awaiting (user_view j (r2 ++ old)) /\ ~ challenged (user_view j (r2 ++ old)).

(** A WAMP-CRA WELCOME of server [i], with all that led to it. *)
Definition agreement (people : nat -> user) (safe : string -> Prop) (i : nat) (w : welcome)
  (past : list wevent) : Prop :=
  exists h rq r k key c ch recent old,
    past = recent ++ AtServer i (AMade (Ok (MChallenge c))) :: old
    /\ AtServer i (AGot (MHello h)) ∈ old
    /\ AtServer i (ACalled (AAsked rq (Approve r))) ∈ old
    /\ about rq h "wampcra" RBase /\ names w h r "wampcra"
    /\ rs_cra r = Some k /\ cra_key k key
    /\ ch_method c = "wampcra" /\ text_of c ch /\ challenges_user ch r
    /\ (safe key -> signed_recently people key ch recent old).

(** Server [i] sent a WAMP-CRA WELCOME, and all users it ever approved have
    [key]. *)
Definition let_in (t : list wevent) (key : string) (i : nat) : Prop :=
  (exists w, AtServer i (AMade (Ok (MWelcome w))) ∈ t
             /\ mget (we_details w) "authmethod" = VMethod "wampcra")
  /\ forall rq r k key', AtServer i (ACalled (AAsked rq (Approve r))) ∈ t ->
       rs_cra r = Some k -> cra_key k key' -> key' = key.
(** The HELLOs sent by users of some kind. *)
Definition hellos (which : nat -> bool) (t : list wevent) : list wevent :=
  List.filter (fun e => match e with AtUser j (JHello (Ok _)) => which j | _ => false end) t.
(** A key that belongs to the user's secret. *)
Definition has_key (u : user) (key : string) : Prop :=
  exists k, cra_secret k = us_secret u /\ cra_key k key.
End world.
