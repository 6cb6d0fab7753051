(** Authentication among many handshakes at once, with an adversary in between:
    C92 and C93. *)
From Verif Require Import Prelude Value Msg Types Encoding Auth Acceptor Joiner AuthSpec AuthEx
  AuthWorld AuthWorldProofs AuthWorldEx.

Local Open Scope string_scope.
Local Open Scope list_scope.

(** ** C92: behind every WAMP-CRA WELCOME under a safe key stands a user who
    signed that server's challenge after it was made; and a key lets in no more
    often than its holders said HELLO. *)
Theorem C92_agreement : forall (PL : Platform) (CR : Crypto) people statics safe ops w new i wl past,
  world_run people ops (world_init people statics) = Ret w tt -> fresh ops ->
  unforged people safe (wo_trace w) ->
  wo_trace w = new ++ AtServer i (AMade (Ok (MWelcome wl))) :: past ->
  mget (we_details wl) "authmethod" = VMethod "wampcra" ->
  agreement people safe i wl past.
Proof. exact @cra_agreement. Qed.
Theorem C92_not_more_often : forall (PL : Platform) (CR : Crypto) people statics key which ops w is,
  world_run people ops (world_init people statics) = Ret w tt -> fresh ops ->
  unforged people (eq key) (wo_trace w) ->
  (forall j, has_key (people j) key -> which j = true) ->
  NoDup is -> Forall (let_in (wo_trace w) key) is ->
  (length is <= length (hellos which (wo_trace w)))%nat.
Proof. exact @welcomes_le_hellos. Qed.
(** With a random source that repeats itself one HELLO lets in twice. *)
Theorem C92_rule_needed : forall (PL : Platform) (CR : Crypto), exists people statics key ops w,
  world_run people ops (world_init people statics) = Ret w tt
  /\ unforged people (eq key) (wo_trace w)
  /\ let_in (wo_trace w) key 0 /\ let_in (wo_trace w) key 1
  /\ length (hellos (fun _ => true) (wo_trace w)) = 1%nat.
Proof. exact @repeated_nonce. Qed.
(** A user joins by server 0; the recorded messages do not open server 1. *)
Example C92_ex :
  (exists w, world_run (CR := toy) (PL := amd64) folk replay (world_init folk (fun _ => false)) = Ret w tt
     /\ unforged (CR := toy) (PL := amd64) folk (eq toy_key) (wo_trace w)
     /\ flat_map seen (rev (wo_trace w))
        = [(0%nat, Challenged "wampcra"); (0%nat, Welcomed "alice");
           (1%nat, Challenged "wampcra"); (1%nat, Aborted)])
  /\ fresh replay.
Proof. exact replay_refused. Qed.

(** ** C93: false of the realm and of the session id, and false of what the user
    believes; true of authid and role. *)
Theorem C93_realm_refuted : forall (PL : Platform) (CR : Crypto), exists people statics key ops w wl,
  world_run people ops (world_init people statics) = Ret w tt /\ fresh ops
  /\ unforged people (eq key) (wo_trace w) /\ let_in (wo_trace w) key 0
  /\ AtServer 0 (AMade (Ok (MWelcome wl))) ∈ wo_trace w
  /\ mget (we_details wl) "realm" = VStr "vault"
  /\ forall j h, AtUser j (JHello (Ok (MHello h))) ∈ wo_trace w -> he_realm h = "home".
Proof. exact @realm_not_bound. Qed.
Theorem C93_session_refuted : forall (PL : Platform) (CR : Crypto), exists people statics key ops w wl c ch nonce now id,
  world_run people ops (world_init people statics) = Ret w tt /\ fresh ops
  /\ unforged people (eq key) (wo_trace w) /\ let_in (wo_trace w) key 0
  /\ AtServer 0 (AMade (Ok (MWelcome wl))) ∈ wo_trace w
  /\ AtServer 0 (AMade (Ok (MChallenge c))) ∈ wo_trace w /\ text_of c ch
  /\ generate_cra_challenge (Some nonce) now id "alice" "user" "dynamic" = Ok ch
  /\ id <> we_session wl.
Proof. exact @session_not_bound. Qed.
Theorem C93_user_side_refuted : forall (PL : Platform) (CR : Crypto), exists people statics ops w d,
  world_run people ops (world_init people statics) = Ret w tt
  /\ (forall i e, AtServer i e ∉ wo_trace w)
  /\ joiner_details (wo_users w 0) = Ok d /\ se_authmethod d = "wampcra".
Proof. exact @joined_alone. Qed.
(** The text that was signed names the WELCOME's authid and role. *)
Theorem C93_identity_partial : forall (PL : Platform) (CR : Crypto) people statics safe ops w new i wl past authid role,
  world_run people ops (world_init people statics) = Ret w tt -> fresh ops ->
  unforged people safe (wo_trace w) ->
  wo_trace w = new ++ AtServer i (AMade (Ok (MWelcome wl))) :: past ->
  mget (we_details wl) "authmethod" = VMethod "wampcra" ->
  mget (we_details wl) "authid" = VStr authid -> mget (we_details wl) "authrole" = VStr role ->
  (forall rq r k key, AtServer i (ACalled (AAsked rq (Approve r))) ∈ past ->
     rs_cra r = Some k -> cra_key k key -> safe key) ->
  exists e key ch, e ∈ past /\ signing people key ch e /\ safe key
    /\ challenges_user ch (Response authid role None).
Proof. exact @identity_bound. Qed.

(** * Assumptions *)
Print Assumptions C92_agreement.
Print Assumptions C92_not_more_often.
Print Assumptions C92_rule_needed.
Print Assumptions C93_realm_refuted.
Print Assumptions C93_session_refuted.
Print Assumptions C93_user_side_refuted.
Print Assumptions C93_identity_partial.
