(** The joiner: order of the handshake, session details, panics. *)
From Coq Require Import Ascii.
From Verif Require Import Prelude Value Msg Types Encoding Auth Joiner AuthSpec.

Local Open Scope string_scope.
Local Open Scope N_scope.

(** * Invariant *)

Definition jinv (realm : string) (j : joiner) (t : list jevent) : Prop :=
  jn_realm j = realm
  /\ (jn_state j = JHelloSent <-> awaiting t /\ ~ challenged t)
  /\ (jn_state j = JAuthenticateSent <-> awaiting t /\ challenged t)
  /\ match last_welcome t with
     | None => jn_details j = None
     | Some w => exists d, jn_details j = Some d /\ joined_as realm d w
     end.

Lemma awaiting_dec t : awaiting t \/ ~ awaiting t.
Proof.
  induction t as [|[[m|e|w]|m [r|e|w]] t IH]; cbn; try tauto; destruct m; tauto.
Qed.
Lemma challenged_dec t : challenged t \/ ~ challenged t.
Proof.
  induction t as [|[[m|e|w]|m [r|e|w]] t IH]; cbn; try tauto; destruct m; tauto.
Qed.

Lemma jinv_new realm static : jinv realm (new_joiner realm static) [].
Proof. unfold jinv. cbn. repeat split; intros; try discriminate; tauto. Qed.

(** A message that was refused says nothing. *)
Lemma quiet m r t : (forall x, r <> Ok x) ->
  awaiting (JGot m r :: t) = awaiting t /\ challenged (JGot m r :: t) = challenged t
  /\ last_welcome (JGot m r :: t) = last_welcome t.
Proof.
  intros H. destruct r as [x|e|w]; [by destruct (H x)| |];
    cbn [awaiting challenged last_welcome]; destruct m; repeat split; reflexivity.
Qed.

Lemma welcome_cases c j w : exists o, joiner_receive c j (MWelcome w) = o /\
  match jn_state j with
  | JHelloSent | JAuthenticateSent =>
      (readable w /\ exists d, o = Ret (Joiner JJoined (jn_realm j) (jn_static j) (Some d)) (Ok None)
         /\ joined_as (jn_realm j) d w)
      \/ (~ readable w /\ o = Crash "interface conversion")
  | _ => exists e, o = Ret j (Err e)
  end.
Proof.
  eexists. split; [reflexivity|]. cbn [joiner_receive].
  destruct (jn_state j); try (eexists; reflexivity).
  all: unfold readable, joined_as.
  all: destruct (mget (we_details w) "authid") as [| | | | |authid| | | | |] eqn:Ei;
    try (right; split; [intros (i & r & E & _); discriminate E|reflexivity]).
  all: destruct (mget (we_details w) "authrole") as [| | | | |authrole| | | | |] eqn:Er;
    try (right; split; [intros (i & r & _ & E); discriminate E|reflexivity]).
  all: left; split; [by exists authid, authrole|].
  all: eexists; split; [reflexivity|].
  all: cbn [new_session_details se_id se_realm se_authid se_authrole se_authmethod].
  all: repeat split; unfold to_string.
  all: destruct (mget (we_details w) "authmethod"); reflexivity.
Qed.

Lemma challenge_cases c j ch :
  joiner_receive c j (MChallenge ch) =
  match jn_state j with
  | JHelloSent =>
      match cl_authenticate c ch with
      | Ok a => Ret (set_jstate j JAuthenticateSent) (Ok (Some (MAuthenticate a)))
      | Err e => Ret j (Err e)
      | Panic w => Crash w
      end
  | _ => Ret j (Err "received CHALLENGE when it was not expected")
  end.
Proof. reflexivity. Qed.

Lemma other_cases c j m : (forall w, m <> MWelcome w) -> (forall ch, m <> MChallenge ch) ->
  exists e, joiner_receive c j m = Ret j (Err e).
Proof.
  intros Hw Hc. destruct m; try (eexists; reflexivity); [by edestruct Hw|by edestruct Hc].
Qed.

Lemma jinv_refused realm j t m e : jinv realm j t -> jinv realm j (JGot m (Err e) :: t).
Proof.
  intros H. destruct (quiet m (Err e) t) as (E1 & E2 & E3); [discriminate|].
  unfold jinv. rewrite E1, E2, E3. exact H.
Qed.

Lemma receive_jinv realm c j t m j' r : jinv realm j t -> joiner_receive c j m = Ret j' r ->
  jinv realm j' (JGot m r :: t).
Proof.
  intros Hi HR. destruct m as [h|w|a|ch| | | | | | | | | | | | | | | | | | | | ]; try
    (cbn [joiner_receive] in HR; injection HR as <- <-; by apply jinv_refused).
  - destruct (welcome_cases c j w) as (o & E & Hc). rewrite HR in E. subst o.
    destruct (jn_state j) eqn:Es.
    1,4: destruct Hc as [e He]; injection He as -> ->; by apply jinv_refused.
    all: destruct Hc as [(Hr & d & E & Hd)|[_ E]]; [|discriminate E]; injection E as -> ->.
    all: destruct Hi as (Er & _ & _ & _); unfold jinv;
      cbn [jn_realm jn_state jn_details awaiting challenged last_welcome].
    all: repeat split; intros; try discriminate; try tauto.
    all: exists d; rewrite Er in Hd; by split.
  - rewrite challenge_cases in HR. destruct (jn_state j) eqn:Es.
    1,3,4: injection HR as <- <-; by apply jinv_refused.
    destruct (cl_authenticate c ch) as [a|e|w]; [|injection HR as <- <-; by apply jinv_refused|
      discriminate HR].
    injection HR as <- <-. destruct Hi as (Er & Hh & _ & Hd). unfold jinv.
    cbn [set_jstate jn_realm jn_state jn_details awaiting challenged last_welcome].
    destruct Hh as [Hh _]. destruct (Hh Es) as [Ha Hn].
    repeat split; intros; try discriminate; tauto.
Qed.

Lemma step_jinv realm c o s s' : jinv realm (fst s) (snd s) -> joiner_step c o s = Ret s' tt ->
  jinv realm (fst s') (snd s').
Proof.
  intros Hi HS. destruct s as [j t]. destruct o as [ok|m]; cbn [joiner_step fst snd] in *.
  - destruct ok; cbn [send_hello] in HS; injection HS as <-; cbn [fst snd]; [|exact Hi].
    destruct Hi as (Er & _ & _ & Hd). unfold jinv.
    cbn [set_jstate jn_realm jn_state jn_details awaiting challenged last_welcome].
    repeat split; intros; try discriminate; tauto.
  - destruct (joiner_receive c j m) as [j' r|w] eqn:E; [|discriminate HS]. injection HS as <-.
    cbn [fst snd]. by eapply receive_jinv.
Qed.

Lemma run_jinv realm ops : forall s s', jinv realm (fst s) (snd s) ->
  joiner_run ops s = Ret s' tt -> jinv realm (fst s') (snd s').
Proof.
  induction ops as [|[c o] ops IH]; intros s s' Hi HR; cbn [joiner_run] in HR.
  - by injection HR as <-.
  - destruct (joiner_step c o s) as [s1 []|] eqn:E; [|discriminate HR].
    eapply IH; [|exact HR]. by eapply step_jinv.
Qed.

Lemma reach_jinv realm static ops j t :
  joiner_run ops (new_joiner realm static, []) = Ret (j, t) tt -> jinv realm j t.
Proof. intros H. exact (run_jinv realm ops (new_joiner realm static, []) (j, t) (jinv_new realm static) H). Qed.

(** * The order of the handshake *)

Section reached.
Context (realm : string) (static : bool) (ops : list (client * jop)) (j : joiner) (t : list jevent).
Context (HR : joiner_run ops (new_joiner realm static, []) = Ret (j, t) tt).

Lemma state_awaiting : awaiting t <-> jn_state j = JHelloSent \/ jn_state j = JAuthenticateSent.
Proof using HR. destruct (reach_jinv _ _ _ _ _ HR) as (_ & H1 & H2 & _). destruct (challenged_dec t); tauto. Qed.

Lemma welcome_accepted c w : readable w ->
  (exists j', joiner_receive c j (MWelcome w) = Ret j' (Ok None)) <-> awaiting t.
Proof using HR.
  intros Hr. rewrite state_awaiting. destruct (welcome_cases c j w) as (o & E & Hc). rewrite E.
  destruct (jn_state j).
  1,4: destruct Hc as [e ->]; split; [intros [j' H]; discriminate H|intros [H|H]; discriminate H].
  all: destruct Hc as [(_ & d & -> & _)|[Hn _]]; [|contradiction].
  all: split; [by intros _; tauto|intros _; eexists; reflexivity].
Qed.
Lemma welcome_refused c w : ~ awaiting t ->
  exists e, joiner_receive c j (MWelcome w) = Ret j (Err e).
Proof using HR.
  intros Hn. rewrite state_awaiting in Hn. destruct (welcome_cases c j w) as (o & E & Hc). rewrite E.
  destruct (jn_state j); try exact Hc; tauto.
Qed.
Lemma challenge_accepted c ch r :
  (exists j', joiner_receive c j (MChallenge ch) = Ret j' (Ok r))
  <-> awaiting t /\ ~ challenged t
      /\ exists a, cl_authenticate c ch = Ok a /\ r = Some (MAuthenticate a).
Proof using HR.
  destruct (reach_jinv _ _ _ _ _ HR) as (_ & H1 & _ & _). rewrite challenge_cases.
  transitivity (jn_state j = JHelloSent /\ exists a, cl_authenticate c ch = Ok a /\ r = Some (MAuthenticate a)).
  2: tauto.
  destruct (jn_state j).
  1,3,4: split; [intros [j' H]; discriminate H|intros [H _]; discriminate H].
  destruct (cl_authenticate c ch) as [a|e|w].
  - split; [intros [j' H]; injection H as _ <-; eauto|].
    intros (_ & a' & E & ->). injection E as <-. eauto.
  - split; [intros [j' H]; discriminate H|intros (_ & a & H & _); discriminate H].
  - split; [intros [j' H]; discriminate H|intros (_ & a & H & _); discriminate H].
Qed.
Lemma challenge_refused c ch : ~ awaiting t \/ challenged t ->
  exists e, joiner_receive c j (MChallenge ch) = Ret j (Err e).
Proof using HR.
  intros Hn. destruct (reach_jinv _ _ _ _ _ HR) as (_ & H1 & _ & _). rewrite challenge_cases.
  destruct (jn_state j); try (eexists; reflexivity). tauto.
Qed.

Lemma details_of_last_welcome :
  match last_welcome t with
  | None => exists e, joiner_details j = Err e
  | Some w => exists d, joiner_details j = Ok d /\ joined_as realm d w
  end.
Proof using HR.
  destruct (reach_jinv _ _ _ _ _ HR) as (_ & _ & _ & H). unfold joiner_details.
  destruct (last_welcome t) as [w|].
  - destruct H as (d & -> & Hd). eauto.
  - rewrite H. eauto.
Qed.

(** * Panics *)

(** A joiner panics only on a WELCOME it cannot read, or because its
    authenticator does. *)
Lemma crash_iff c m :
  (exists why, joiner_receive c j m = Crash why)
  <-> awaiting t /\ ((exists w, m = MWelcome w /\ ~ readable w)
                     \/ (~ challenged t /\ exists ch why, m = MChallenge ch /\ cl_authenticate c ch = Panic why)).
Proof using HR.
  pose proof state_awaiting as Haw. destruct (reach_jinv _ _ _ _ _ HR) as (_ & H1 & _ & _).
  destruct m as [h|w|a|ch| | | | | | | | | | | | | | | | | | | | ].
  2: { destruct (welcome_cases c j w) as (o & E & Hc). rewrite E. destruct (jn_state j).
       1,4: destruct Hc as [e ->]; split; [intros [why H]; discriminate H|intros [H _]; apply Haw in H as [H|H]; discriminate H].
       all: destruct Hc as [(Hr & d & -> & _)|[Hn ->]].
       1,3: split; [intros [why H]; discriminate H|intros [_ [(w' & Ew & Hw)|(_ & ch & why & H & _)]];
              [by injection Ew as <-|discriminate H]].
       all: split; [intros _; split; [tauto|left; eauto]|intros _; eauto]. }
  3: { rewrite challenge_cases. destruct (jn_state j).
       1,3,4: split; [intros [why H]; discriminate H|intros [H0 [(w & H & _)|(H & _)]]; [discriminate H|]].
       1-3: assert (JHelloSent <> JHelloSent) as Hx by (first [destruct (proj2 H1 (conj H0 H)); fail|
              pose proof (proj2 H1 (conj H0 H)) as Hy; discriminate Hy]); done.
       destruct (cl_authenticate c ch) as [a|e|w] eqn:Ea.
       1,2: split; [intros [why H]; discriminate H|intros [H0 [(w & H & _)|(H & c' & why & Ec & Hp)]];
            [discriminate H|injection Ec as <-; rewrite Ea in Hp; discriminate Hp]].
       split; [intros _|intros _; eauto]. destruct (proj1 H1 eq_refl) as [Ha Hn].
       split; [exact Ha|right]. split; [exact Hn|eauto]. }
  all: split; [intros [why H]; discriminate H|
    intros [_ [(w' & H & _)|(_ & c' & why & H & _)]]; discriminate H].
Qed.
End reached.

(** Which of the four authenticators can panic, and on what. *)
Section authenticators.
Context {PL : Platform} {CR : Crypto}.

Lemma cra_authenticate_panics secret extra ch :
  (exists why, cra_authenticate secret extra ch = Panic why)
  <-> to_string (mget (ch_extra ch) "salt") <> ""
      /\ ~ (0 <= effective_keylen ch <= kdf_max)%Z.
Proof.
  unfold cra_authenticate, effective_keylen.
  destruct (String.eqb_spec (to_string (mget (ch_extra ch) "salt")) "") as [E|E].
  - split; [intros [w H]; discriminate H|intros [H _]; by destruct H].
  - unfold derive_key, pbkdf2_key.
    set (k := if (_ =? 0)%Z then 32%Z else fst (as_int (mget (ch_extra ch) "keylen"))).
    destruct (Z.leb_spec 0 k) as [H0|H0], (Z.leb_spec k kdf_max) as [H1|H1]; cbn [andb].
    1: split; [intros [w H]; discriminate H|intros [_ H]; lia].
    all: split; [intros _; split; [exact E|lia]|intros _; eexists; reflexivity].
Qed.
Lemma cryptosign_authenticate_no_panic seed extra ch why :
  cryptosign_authenticate seed extra ch <> Panic why.
Proof.
  unfold cryptosign_authenticate, sign_cryptosign. destruct (hex_decode _); discriminate.
Qed.
Lemma others_no_panic authid extra ticket priv c ch why :
  c = new_anonymous authid extra \/ c = new_ticket authid ticket extra
    \/ new_cryptosign authid priv extra = Ok c ->
  cl_authenticate c ch <> Panic why.
Proof.
  intros [->|[->|H]]; [discriminate..|].
  assert (exists seed x, cl_authenticate c = cryptosign_authenticate seed x) as (seed & x & ->).
  { unfold new_cryptosign in H. destruct (hex_decode priv) as [seed|]; [|discriminate H].
    destruct (Nat.eqb _ 32); [|discriminate H].
    destruct (mget _ "pubkey"); try (injection H as <-; by do 2 eexists).
    destruct (String.eqb _ _); [|discriminate H]. injection H as <-. by do 2 eexists. }
  apply cryptosign_authenticate_no_panic.
Qed.
End authenticators.
