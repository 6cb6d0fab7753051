(** Many cryptosign handshakes at once: the world of AuthWorld.v with users who
    hold Ed25519 keys.  Every message given to a server or a user is arbitrary. *)
From Verif Require Import Prelude Value Msg Types Auth Acceptor Joiner AuthSpec AuthWorld.

Local Open Scope string_scope.
Local Open Scope list_scope.

Section world.
Context {CR : Crypto}.

(** A user: the arguments of NewCryptoSignAuthenticator (auth/cryptosign.go:24-27),
    the authenticator it returned, and the arguments of NewJoiner
    (joiner.go:54-69). *)
Record signer : Type := Signer {
  sg_authid : string; sg_private : string; sg_extra : gomap; sg_client : client;
  sg_realm : string; sg_static : bool }.
Definition genuine (s : signer) : Prop :=
  new_cryptosign (sg_authid s) (sg_private s) (sg_extra s) = Ok (sg_client s).

Definition sign_init (people : nat -> signer) (statics : nat -> bool) : world :=
  World (fun i => new_acceptor (statics i))
    (fun j => new_joiner (sg_realm (people j)) (sg_static (people j))) [].

(** One call of Acceptor.ReceiveMessage (acceptor.go:98), Joiner.SendHello or
    Joiner.ReceiveMessage (joiner.go:71, 116). *)
Definition sign_step (people : nat -> signer) (o : wop) (w : world) : outcome world unit :=
  match o with
  | OServer i e m =>
      match acceptor_step e m (wo_servers w i, []) with
      | Crash why => Crash why
      | Ret (a, t) _ =>
          Ret (World (put (wo_servers w) i a) (wo_users w) (map (AtServer i) t ++ wo_trace w)) tt
      end
  | OUser j o =>
      match joiner_step (sg_client (people j)) o (wo_users w j, []) with
      | Crash why => Crash why
      | Ret (u, t) _ =>
          Ret (World (wo_servers w) (put (wo_users w) j u) (map (AtUser j) t ++ wo_trace w)) tt
      end
  end.

Fixpoint sign_run (people : nat -> signer) (ops : list wop) (w : world) : outcome world unit :=
  match ops with
  | [] => Ret w tt
  | o :: ops' =>
      match sign_step people o w with
      | Crash why => Crash why
      | Ret w' _ => sign_run people ops' w'
      end
  end.

(** * What is assumed of the random source and of Ed25519 *)

(** The bytes each call to a server may use as a challenge: they never repeat,
    and no user was ever given them before a server drew them. *)
Definition draws (ops : list wop) : list string :=
  omap (fun o => match o with OServer _ e _ => av_challenge e | OUser _ _ => None end) ops.
Definition fresh_draws (ops : list wop) : Prop :=
  NoDup (draws ops)
  /\ forall pre i e m post b j c ch,
       ops = pre ++ OServer i e m :: post -> av_challenge e = Some b ->
       OUser j (JReceive (MChallenge c)) ∈ pre -> text_of c ch -> ~ hex_denotes ch b.

(** The user holds the private key for [pub]. *)
Definition holds_key (s : signer) (pub : string) : Prop :=
  exists seed, hex_denotes (sg_private s) seed /\ ed_public seed = pub.
(** A user who holds the key for [pub] answered a CHALLENGE that denotes [msg]. *)
Definition key_signing (people : nat -> signer) (pub msg : string) (e : wevent) : Prop :=
  exists j c au ch, e = AtUser j (JGot (MChallenge c) (Ok (Some (MAuthenticate au))))
    /\ holds_key (people j) pub /\ text_of c ch /\ hex_denotes ch msg.
(** Signatures under safe keys are not forged: a server that is given one is
    given it after a holder of the key signed just these bytes. *)
Definition unforged_signatures (people : nat -> signer) (safe : string -> Prop) (t : list wevent) : Prop :=
  forall new i au past pub msg,
    t = new ++ AtServer i (AGot (MAuthenticate au)) :: past -> safe pub ->
    signed_text (au_signature au) pub msg ->
    exists e, e ∈ past /\ key_signing people pub msg e.

(** * What is concluded *)

(** The HELLO announces the public key [pub]. *)
Definition announces (h : hello) (pub : string) : Prop :=
  exists pk raw, mget (he_authextra h) "pubkey" = VStr pk /\ hex_denotes pk raw /\ public_key raw pub.

(** A holder of the key, who was waiting for the answer to a HELLO of its own,
    accepted a CHALLENGE and signed it. *)
Definition signed_once (people : nat -> signer) (pub : string) (past : list wevent) : Prop :=
  exists newer j c au msg older,
    past = newer ++ AtUser j (JGot (MChallenge c) (Ok (Some (MAuthenticate au)))) :: older
    /\ holds_key (people j) pub /\ signed_text (au_signature au) pub msg
    /\ awaiting (user_view j older) /\ ~ challenged (user_view j older).

(** A cryptosign WELCOME of server [i], with all that led to it. *)
Definition key_agreement (people : nat -> signer) (safe : string -> Prop) (i : nat) (w : welcome)
  (past : list wevent) : Prop :=
  exists h rq r pk pub,
    AtServer i (AGot (MHello h)) ∈ past
    /\ AtServer i (ACalled (AAsked rq (Approve r))) ∈ past
    /\ about rq h "cryptosign" (RCryptoSign pk) /\ names w h r "cryptosign"
    /\ mget (he_authextra h) "pubkey" = VStr pk /\ announces h pub
    /\ (safe pub -> signed_once people pub past).

(** Server [i] sent a cryptosign WELCOME, and every HELLO it was given announces
    [pub]. *)
Definition key_let_in (t : list wevent) (pub : string) (i : nat) : Prop :=
  (exists w, AtServer i (AMade (Ok (MWelcome w))) ∈ t
             /\ mget (we_details w) "authmethod" = VMethod "cryptosign")
  /\ forall h, AtServer i (AGot (MHello h)) ∈ t -> announces h pub.
(** No user was ever given a challenge that a server made. *)
Definition challenges_unseen (t : list wevent) : Prop :=
  forall i j c c' ch r,
    AtServer i (AMade (Ok (MChallenge c))) ∈ t -> AtUser j (JGot (MChallenge c') r) ∈ t ->
    text_of c ch -> ~ text_of c' ch.
End world.
