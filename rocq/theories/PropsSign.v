(** Many cryptosign handshakes at once, with whoever carries the messages against
    them: C102. *)
From Verif Require Import Prelude Value Msg Types Encoding Auth Acceptor Joiner AuthSpec
  AuthWorld SignWorld SignWorldProofs SignWorldEx.

Local Open Scope string_scope.
Local Open Scope list_scope.

(** ** C102: false.  One signature, of a challenge no server made, opens two
    servers: for all cryptography, with challenges that never repeat. *)
Theorem C102_replay_refuted : forall (CR : Crypto), exists people statics pub ops w,
  (forall j, genuine (people j))
  /\ sign_run people ops (sign_init people statics) = Ret w tt
  /\ fresh_draws ops /\ unforged_signatures people (eq pub) (wo_trace w)
  /\ key_let_in (wo_trace w) pub 0 /\ key_let_in (wo_trace w) pub 1
  /\ length (hellos (fun _ => true) (wo_trace w)) = 1%nat
  /\ challenges_unseen (wo_trace w).
Proof. exact @stolen_twice. Qed.
(** What a cryptosign WELCOME does rest on: a holder of the key signed once,
    some time before.  Missing: that it signed this server's challenge. *)
Theorem C102_signed_before_partial : forall (CR : Crypto) people statics safe ops w new i wl past,
  (forall j, genuine (people j)) ->
  sign_run people ops (sign_init people statics) = Ret w tt ->
  unforged_signatures people safe (wo_trace w) ->
  wo_trace w = new ++ AtServer i (AMade (Ok (MWelcome wl))) :: past ->
  mget (we_details wl) "authmethod" = VMethod "cryptosign" ->
  key_agreement people safe i wl past.
Proof. exact @cryptosign_agreement. Qed.
(** An honest handshake, which meets the hypotheses. *)
Example C102_ex : forall (CR : Crypto), exists w wl,
  (forall j, genuine (one_signer j))
  /\ sign_run one_signer honest (sign_init one_signer (fun _ => false)) = Ret w tt
  /\ fresh_draws honest /\ unforged_signatures one_signer (eq my_key) (wo_trace w)
  /\ AtServer 0 (AMade (Ok (MWelcome wl))) ∈ wo_trace w
  /\ mget (we_details wl) "authmethod" = VMethod "cryptosign"
  /\ key_let_in (wo_trace w) my_key 0.
Proof. exact @honest_ok. Qed.

(** * Assumptions *)
Print Assumptions C102_replay_refuted.
Print Assumptions C102_signed_before_partial.
