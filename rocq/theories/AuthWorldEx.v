(** Runs of many handshakes: a refused replay, a repeated nonce, a changed realm. *)
From Verif Require Import Prelude Value Msg IdGen Types Encoding Auth Acceptor Joiner AuthSpec
  EncodingFacts AuthProofs AcceptorProofs JoinerProofs AuthEx AuthWorld AuthWorldProofs.

Local Open Scope string_scope.
Local Open Scope list_scope.

Local Ltac in_cases H := repeat (apply elem_of_cons in H as [H|H]; [try discriminate H|]);
  try (by apply elem_of_nil in H).

(** One user, known to the servers without salt. *)
Definition one_user (realm : string) : nat -> user := fun _ => User "alice" "secret" None realm false.
Definition plain_answer (rq : request) : answer :=
  Approve (Response "alice" "user" (Some (Cra "secret" "" 0 0))).
Definition plain_env (n : option string) : aenv := AEnv ["wampcra"] plain_answer 77 5 n "now" None.
Definition plain_hello (realm : string) : message :=
  MHello (Hello realm "alice" (Some ["wampcra"]) None client_roles).
Definition plain_text (n : string) : string :=
  match generate_cra_challenge (Some n) "now" 5 "alice" "user" "dynamic" with Ok s => s | _ => "" end.
Definition plain_challenge (n : string) : challenge :=
  Challenge "wampcra" (Some [("challenge", VStr (plain_text n))]).

Section ex.
Context {PL : Platform} {CR : Crypto}.
Definition plain_auth (n : string) : message :=
  MAuthenticate (Authenticate (sign_cra (plain_text n) "secret") None).

(** The user asks for "home", the server is told "vault". *)
Definition altered (realm : string) : list wop :=
  [OUser 0 (JSendHello true); OServer 0 (plain_env (Some "n")) (plain_hello realm);
   OUser 0 (JReceive (MChallenge (plain_challenge "n"))); OServer 0 (plain_env None) (plain_auth "n")].
Definition repeated : list wop :=
  altered "home" ++ [OServer 1 (plain_env (Some "n")) (plain_hello "home"); OServer 1 (plain_env None) (plain_auth "n")].

(** What one handshake leaves behind, at server [i]. *)
Definition accepted (i : nat) (realm : string) : list wevent :=
  [AtServer i (AMade (Ok (MWelcome (Welcome (generate_id 77) (Some
     [("realm", VStr realm); ("roles", VMap router_roles); ("authid", VStr "alice");
      ("authrole", VStr "user"); ("authmethod", VMethod "wampcra")])))));
   AtServer i (AGot (plain_auth "n"))].
Definition offered (i : nat) (realm : string) : list wevent :=
  [AtServer i (AMade (Ok (MChallenge (plain_challenge "n"))));
   AtServer i (ACalled (AAsked (Request "wampcra" realm "alice" None RBase)
     (plain_answer (Request "wampcra" realm "alice" None RBase))));
   AtServer i (ACalled (AMethods ["wampcra"])); AtServer i (AGot (plain_hello realm))].
Definition user_part : list wevent :=
  [AtUser 0 (JGot (MChallenge (plain_challenge "n")) (Ok (Some (plain_auth "n"))))].
Definition user_hello : list wevent := [AtUser 0 (JHello (Ok (plain_hello "home")))].

(** * Stepping through a run *)

Lemma run_server people i e m ops w a t (P : world -> Prop) :
  acceptor_step e m (wo_servers w i, []) = Ret (a, t) tt ->
  (exists w', world_run people ops (World (put (wo_servers w) i a) (wo_users w)
                (map (AtServer i) t ++ wo_trace w)) = Ret w' tt /\ P w') ->
  exists w', world_run people (OServer i e m :: ops) w = Ret w' tt /\ P w'.
Proof. intros H HR. cbn [world_run world_step]. rewrite H. exact HR. Qed.
Lemma run_user people j o ops w u t (P : world -> Prop) :
  joiner_step (us_client (people j)) o (wo_users w j, []) = Ret (u, t) tt ->
  (exists w', world_run people ops (World (wo_servers w) (put (wo_users w) j u)
                (map (AtUser j) t ++ wo_trace w)) = Ret w' tt /\ P w') ->
  exists w', world_run people (OUser j o :: ops) w = Ret w' tt /\ P w'.
Proof. intros H HR. cbn [world_run world_step]. rewrite H. exact HR. Qed.

Definition after_hello (realm : string) : acceptor :=
  Acceptor AChallengeSent false "wampcra" (Some (Hello realm "alice" (Some ["wampcra"]) None client_roles))
    None (Some (Response "alice" "user" (Some (Cra "secret" "" 0 0)))) (plain_text "n") None.
Lemma step_hello realm : exists t,
  acceptor_step (plain_env (Some "n")) (plain_hello realm) (new_acceptor false, [])
  = Ret (after_hello realm, t) tt
  /\ forall i, map (AtServer i) t = offered i realm.
Proof. eexists. split; reflexivity. Qed.
Lemma step_auth realm : exists a t,
  acceptor_step (plain_env None) (plain_auth "n") (after_hello realm, []) = Ret (a, t) tt
  /\ forall i, map (AtServer i) t = accepted i realm.
Proof.
  unfold acceptor_step, acceptor_receive, plain_auth, after_hello. cbn [fst ac_state].
  rewrite bool_decide_eq_false_2 by discriminate. unfold receive_authenticate.
  cbn [ac_state ac_method ac_response ac_challenge au_signature].
  change (String.eqb "wampcra" mTicket) with false. change (String.eqb "wampcra" mWAMPCRA) with true.
  cbn [cra_salt cra_secret]. change (String.eqb "" "") with true. cbv iota beta.
  rewrite verify_sign. do 2 eexists. split; reflexivity.
Qed.

Lemma altered_run realm ops (P : world -> Prop) :
  (forall w, wo_trace w = accepted 0 realm ++ user_part ++ offered 0 realm ++ user_hello ->
     wo_servers w 1%nat = new_acceptor false ->
     exists w', world_run (one_user "home") ops w = Ret w' tt /\ P w') ->
  exists w', world_run (one_user "home") (altered realm ++ ops) (world_init (one_user "home") (fun _ => false))
    = Ret w' tt /\ P w'.
Proof.
  intros Hk. destruct (step_hello realm) as (t1 & E1 & T1). destruct (step_auth realm) as (a2 & t2 & E2 & T2).
  eapply run_user; [reflexivity|].
  eapply run_server; [exact E1|].
  eapply run_user; [reflexivity|].
  eapply run_server; [exact E2|].
  apply Hk; [|reflexivity]. cbn [wo_trace]. rewrite T1, T2. reflexivity.
Qed.

(** * The rules hold in these runs *)


Lemma user_signs : signing (one_user "home") "secret" (plain_text "n")
  (AtUser 0 (JGot (MChallenge (plain_challenge "n")) (Ok (Some (plain_auth "n"))))).
Proof.
  do 3 eexists. split; [reflexivity|]. split; [reflexivity|]. left. split; reflexivity.
Qed.

(** Whoever is given an AUTHENTICATE after the user's part is given what the
    user signed, if all challenges are the same. *)
Lemma all_signed t :
  (forall i c, AtServer i (AMade (Ok (MChallenge c))) ∈ t -> c = plain_challenge "n") ->
  (forall new i au past, t = new ++ AtServer i (AGot (MAuthenticate au)) :: past -> user_part ⊆ past) ->
  unforged (one_user "home") (eq "secret") t.
Proof.
  intros Hc Hp new i au past key ch E <- _ (i' & c & Hin & Ht).
  assert (c = plain_challenge "n") as ->. { apply (Hc i'). rewrite E. set_solver. }
  injection Ht as <-. eexists. split; [|exact user_signs]. apply (Hp _ _ _ _ E). apply elem_of_list_here.
Qed.

Lemma fresh_altered realm : fresh (altered realm).
Proof.
  split.
  - cbn. constructor; [by intros ?%elem_of_nil|constructor].
  - intros pre i e m post n j c ch E Hn Hin _ _.
    destruct pre as [|o1 [|o2 [|o3 [|o4 pre]]]]; cbn in E; try discriminate E.
    + injection E as <- <- <- <- _. in_cases Hin.
    + injection E as <- <- <- <- <- <- _. discriminate Hn.
    + injection E as _ _ _ _ E. by destruct pre.
Qed.

Lemma altered_let_in i realm t :
  AtServer i (AMade (Ok (MWelcome (Welcome (generate_id 77) (Some
     [("realm", VStr realm); ("roles", VMap router_roles); ("authid", VStr "alice");
      ("authrole", VStr "user"); ("authmethod", VMethod "wampcra")]))))) ∈ t ->
  (forall rq ans, AtServer i (ACalled (AAsked rq ans)) ∈ t -> ans = plain_answer rq) ->
  let_in t "secret" i.
Proof.
  intros Hw Ha. split; [eexists; split; [exact Hw|reflexivity]|].
  intros rq r k key Hin Hk Hkey. apply Ha in Hin. injection Hin as ->. injection Hk as <-.
  destruct Hkey as [[_ ->]|[E _]]; [done|]. by destruct E.
Qed.

Definition altered_trace (realm : string) : list wevent :=
  accepted 0 realm ++ user_part ++ offered 0 realm ++ user_hello.
Lemma altered_facts realm :
  unforged (one_user "home") (eq "secret") (altered_trace realm)
  /\ let_in (altered_trace realm) "secret" 0
  /\ forall j h, AtUser j (JHello (Ok (MHello h))) ∈ altered_trace realm -> he_realm h = "home".
Proof.
  split; [|split].
  - apply all_signed.
    + intros i c Hin. unfold altered_trace, accepted, user_part, offered, user_hello in Hin. cbn [app] in Hin.
      in_cases Hin. by injection Hin as _ ->.
    + intros new i au past E. unfold altered_trace, accepted, offered, user_hello in E. cbn [app] in E.
      destruct new as [|x1 [|x2 new]]; cbn in E; [discriminate E| |].
      * injection E as _ _ _ <-. set_solver.
      * exfalso. injection E as _ _ E.
        do 6 (destruct new as [|? new]; cbn in E; [discriminate E|injection E as _ E]). by destruct new.
  - eapply altered_let_in; [apply elem_of_list_here|]. intros rq ans Hin.
    unfold altered_trace, accepted, user_part, offered, user_hello in Hin. cbn [app] in Hin.
    in_cases Hin. by injection Hin as -> ->.
  - intros j h Hin. unfold altered_trace, accepted, user_part, offered, user_hello in Hin. cbn [app] in Hin.
    in_cases Hin. by injection Hin as _ ->.
Qed.

Lemma altered_end realm : exists w,
  world_run (one_user "home") (altered realm) (world_init (one_user "home") (fun _ => false)) = Ret w tt
  /\ wo_trace w = altered_trace realm.
Proof.
  rewrite <- (app_nil_r (altered realm)). apply altered_run. intros w Ht _. exists w. split; [done|exact Ht].
Qed.

Lemma realm_not_bound : exists people statics key ops w wl,
  world_run people ops (world_init people statics) = Ret w tt /\ fresh ops
  /\ unforged people (eq key) (wo_trace w) /\ let_in (wo_trace w) key 0
  /\ AtServer 0 (AMade (Ok (MWelcome wl))) ∈ wo_trace w
  /\ mget (we_details wl) "realm" = VStr "vault"
  /\ forall j h, AtUser j (JHello (Ok (MHello h))) ∈ wo_trace w -> he_realm h = "home".
Proof.
  destruct (altered_end "vault") as (w & Hr & Ht). destruct (altered_facts "vault") as (F1 & F2 & F3).
  do 4 eexists. exists w. eexists. split; [exact Hr|]. rewrite Ht. split; [apply fresh_altered|].
  split; [exact F1|]. split; [exact F2|]. split; [apply elem_of_list_here|]. split; [reflexivity|exact F3].
Qed.

Lemma session_not_bound : exists people statics key ops w wl c ch nonce now id,
  world_run people ops (world_init people statics) = Ret w tt /\ fresh ops
  /\ unforged people (eq key) (wo_trace w) /\ let_in (wo_trace w) key 0
  /\ AtServer 0 (AMade (Ok (MWelcome wl))) ∈ wo_trace w
  /\ AtServer 0 (AMade (Ok (MChallenge c))) ∈ wo_trace w /\ text_of c ch
  /\ generate_cra_challenge (Some nonce) now id "alice" "user" "dynamic" = Ok ch
  /\ id <> we_session wl.
Proof.
  destruct (altered_end "home") as (w & Hr & Ht). destruct (altered_facts "home") as (F1 & F2 & _).
  do 4 eexists. exists w. do 2 eexists. exists (plain_text "n"), "n", "now", 5%N. split; [exact Hr|].
  rewrite Ht. split; [apply fresh_altered|].
  split; [exact F1|]. split; [exact F2|]. split; [apply elem_of_list_here|].
  split; [do 3 apply elem_of_list_further; apply elem_of_list_here|]. split; [reflexivity|].
  split; [reflexivity|]. discriminate.
Qed.

Lemma joined_alone : exists people statics ops w d,
  world_run people ops (world_init people statics) = Ret w tt
  /\ (forall i e, AtServer i e ∉ wo_trace w)
  /\ joiner_details (wo_users w 0%nat) = Ok d /\ se_authmethod d = "wampcra".
Proof.
  exists (one_user "home"), (fun _ => false),
    [OUser 0 (JSendHello true); OUser 0 (JReceive (MWelcome (Welcome 1 (Some
       [("authid", VStr "alice"); ("authrole", VStr "user"); ("authmethod", VStr "wampcra")]))))].
  do 2 eexists. split; [reflexivity|]. split; [|split; reflexivity].
  intros i e Hin. cbn in Hin. in_cases Hin.
Qed.

Lemma repeated_nonce : exists people statics key ops w,
  world_run people ops (world_init people statics) = Ret w tt
  /\ unforged people (eq key) (wo_trace w)
  /\ let_in (wo_trace w) key 0 /\ let_in (wo_trace w) key 1
  /\ length (hellos (fun _ => true) (wo_trace w)) = 1%nat.
Proof.
  assert (H : exists w, world_run (one_user "home") repeated (world_init (one_user "home") (fun _ => false)) = Ret w tt
    /\ wo_trace w = accepted 1 "home" ++ offered 1 "home" ++ altered_trace "home").
  { apply altered_run. intros w Ht Hs.
    destruct (step_hello "home") as (t1 & E1 & T1). destruct (step_auth "home") as (a2 & t2 & E2 & T2).
    eapply run_server; [rewrite Hs; exact E1|]. eapply run_server; [exact E2|].
    eexists. split; [reflexivity|]. cbn [wo_trace]. by rewrite T1, T2, Ht. }
  destruct H as (w & Hr & Ht). exists (one_user "home"), (fun _ => false), "secret", repeated, w.
  split; [exact Hr|]. rewrite Ht.
  unfold altered_trace, accepted, user_part, offered, user_hello. cbn [app].
  split; [|split; [|split]].
  - apply all_signed.
    + intros i c Hin. in_cases Hin; by injection Hin as _ ->.
    + intros new i au past E.
      destruct new as [|x1 [|x2 new]]; cbn in E; [discriminate E| |].
      * injection E as _ _ _ <-. set_solver.
      * injection E as _ _ E.
        do 5 (destruct new as [|? new]; cbn in E; [discriminate E|injection E as _ E]).
        destruct new as [|? new]; cbn in E; [injection E as _ _ <-; set_solver|].
        exfalso. injection E as _ E.
        do 6 (destruct new as [|? new]; cbn in E; [discriminate E|injection E as _ E]). by destruct new.
  - eapply (altered_let_in 0 "home"); [do 6 apply elem_of_list_further; apply elem_of_list_here|].
    intros rq ans Hin. in_cases Hin; by injection Hin as -> ->.
  - eapply (altered_let_in 1 "home"); [apply elem_of_list_here|].
    intros rq ans Hin. in_cases Hin; by injection Hin as -> ->.
  - reflexivity.
Qed.

Lemma identity_bound people statics safe ops w new i wl past authid role :
  world_run people ops (world_init people statics) = Ret w tt -> fresh ops ->
  unforged people safe (wo_trace w) ->
  wo_trace w = new ++ AtServer i (AMade (Ok (MWelcome wl))) :: past ->
  mget (we_details wl) "authmethod" = VMethod "wampcra" ->
  mget (we_details wl) "authid" = VStr authid -> mget (we_details wl) "authrole" = VStr role ->
  (forall rq r k key, AtServer i (ACalled (AAsked rq (Approve r))) ∈ past ->
     rs_cra r = Some k -> cra_key k key -> safe key) ->
  exists e key ch, e ∈ past /\ signing people key ch e /\ safe key
    /\ challenges_user ch (Response authid role None).
Proof.
  intros Hr Hf Hu Ht Hm Hi Hro Hk.
  destruct (cra_agreement _ _ _ _ _ _ _ _ _ Hr Hf Hu Ht Hm)
    as (h & rq & r & k & key & c & ch & recent & old & -> & _ & Hasked & _ & Hn & Hrk & Hck & _ & _ & Hcu & Hsg).
  assert (Hs : safe key). { apply (Hk rq r k key); [set_solver|done|done]. }
  destruct (Hsg Hs) as (j & c' & au & r1 & r2 & -> & Ht' & Hkf & _).
  eexists _, key, ch. split; [|split; [by exists j, c', au|split; [done|]]]; [set_solver|].
  destruct Hn as (_ & E1 & E2 & _). rewrite Hi in E1. rewrite Hro in E2. injection E1 as ->. injection E2 as ->.
  exact Hcu.
Qed.
End ex.

(** * A replay, with transparent cryptography *)

Definition folk : nat -> user := fun _ => User "alice" "secret" None "realm1" false.
Definition toy_key : string := b64_encode "salt+secret".
Definition toy_draw (n : option string) : aenv := AEnv ["wampcra"] toy_answer 77 5 n "now" None.
Definition toy_text (n : string) : string :=
  match generate_cra_challenge (Some n) "now" 5 "alice" "user" "dynamic" with Ok s => s | _ => "" end.
Definition toy_chal (n : string) : challenge :=
  Challenge "wampcra" (Some [("challenge", VStr (toy_text n)); ("salt", VStr "salt");
    ("keylen", VInt KInt 16); ("iterations", VInt KInt 100)]).
Definition toy_sig : message := MAuthenticate (Authenticate (sign_cra (CR := toy) (toy_text "n0") toy_key) None).
Definition toy_ask : message := MHello (Hello "realm1" "alice" (Some ["wampcra"]) None client_roles).
Definition replay : list wop :=
  [OUser 0 (JSendHello true); OServer 0 (toy_draw (Some "n0")) toy_ask;
   OUser 0 (JReceive (MChallenge (toy_chal "n0"))); OServer 0 (toy_draw None) toy_sig;
   OServer 1 (toy_draw (Some "n1")) toy_ask; OServer 1 (toy_draw None) toy_sig].
Definition seen (e : wevent) : list (nat * made) :=
  match e with AtServer i x => map (fun m => (i, m)) (made_of x) | AtUser _ _ => [] end.
Definition toy_trace : list wevent :=
  match world_run (CR := toy) (PL := amd64) folk replay (world_init folk (fun _ => false)) with
  | Ret w _ => wo_trace w | Crash _ => [] end.

Definition is_auth (e : wevent) : bool :=
  match e with AtServer _ (AGot (MAuthenticate _)) => true | _ => false end.
Definition is_sign (e : wevent) : bool :=
  match e with AtUser 0 (JGot (MChallenge c) (Ok (Some (MAuthenticate _)))) =>
    String.eqb (to_string (mget (ch_extra c) "challenge")) (toy_text "n0")
    && String.eqb (to_string (mget (ch_extra c) "salt")) "salt"
  | _ => false end.
(** Every AUTHENTICATE is the recorded one and comes after the signing. *)
Fixpoint auth_after (t : list wevent) : bool :=
  match t with
  | [] => true
  | e :: t' => (negb (is_auth e) || existsb is_sign t') && auth_after t'
  end.
Definition auth_same (e : wevent) : bool :=
  match e with
  | AtServer _ (AGot (MAuthenticate au)) =>
      match b64_decode (au_signature au) with
      | Some b => String.eqb b (toy_key ++ "/" ++ toy_text "n0")%string | None => false end
  | _ => true
  end.

Lemma auth_after_spec t new e past : auth_after t = true -> t = new ++ e :: past -> is_auth e = true ->
  existsb is_sign past = true.
Proof.
  revert t. induction new as [|x new IH]; intros t H -> He; cbn in H; apply andb_prop in H as [H1 H2].
  - by rewrite He in H1.
  - exact (IH _ H2 eq_refl He).
Qed.

Lemma replay_unforged : unforged (CR := toy) (PL := amd64) folk (eq toy_key) toy_trace.
Proof.
  intros new i au past key ch E <- Hd _.
  assert (Hs : forallb auth_same toy_trace = true) by (vm_compute; reflexivity).
  assert (Ha : auth_after toy_trace = true) by (vm_compute; reflexivity).
  pose proof (auth_after_spec _ _ _ _ Ha E eq_refl) as Hx.
  rewrite E, forallb_app in Hs. apply andb_prop in Hs as [_ Hs]. cbn [forallb auth_same] in Hs.
  apply andb_prop in Hs as [Hs _]. apply b64_decode_iff in Hd. rewrite Hd in Hs.
  apply String.eqb_eq in Hs. cbn [hmac_sha256 toy] in Hs.
  assert (ch = toy_text "n0") as ->. { do 2 apply string_app_inv_l in Hs. exact Hs. }
  apply existsb_exists in Hx as (e & He & Hsg). apply elem_of_list_In in He. exists e. split; [done|].
  destruct e as [|k x]; [discriminate Hsg|]. destruct k as [|k]; [|discriminate Hsg].
  destruct x as [|m r]; [discriminate Hsg|]. destruct m as [| | |c| | | | | | | | | | | | | | | | | | | | ]; try discriminate Hsg.
  destruct r as [[m|]| |]; try discriminate Hsg. destruct m as [| | | |u| | | | | | | | | | | | | | | | | | | ]; try discriminate Hsg.
  cbn [is_sign] in Hsg. apply andb_prop in Hsg as [H1 H2]. apply String.eqb_eq in H1, H2.
  exists 0%nat, c, u. split; [reflexivity|]. split.
  - unfold text_of. destruct (mget (ch_extra c) "challenge"); try discriminate H1. cbn in H1. by rewrite H1.
  - unfold key_for, cra_key. rewrite H2. right. split; [discriminate|]. apply encode_canonical.
Qed.

Lemma replay_refused :
  (exists w, world_run (CR := toy) (PL := amd64) folk replay (world_init folk (fun _ => false)) = Ret w tt
     /\ unforged (CR := toy) (PL := amd64) folk (eq toy_key) (wo_trace w)
     /\ flat_map seen (rev (wo_trace w))
        = [(0%nat, Challenged "wampcra"); (0%nat, Welcomed "alice");
           (1%nat, Challenged "wampcra"); (1%nat, Aborted)])
  /\ fresh replay.
Proof.
  split.
  - pose proof replay_unforged as Hu.
    assert (Hs : flat_map seen (rev toy_trace)
        = [(0%nat, Challenged "wampcra"); (0%nat, Welcomed "alice");
           (1%nat, Challenged "wampcra"); (1%nat, Aborted)]) by (vm_compute; reflexivity).
    unfold toy_trace in Hu, Hs. destruct (world_run _ _ _) as [w []|why]; [|discriminate Hs]. by exists w.
  - split.
    + apply (bool_decide_eq_true_1 (NoDup (nonces replay))). vm_compute. reflexivity.
    + intros pre i e m post n j c ch E Hn Hin Ht Hh.
      destruct pre as [|o1 [|o2 [|o3 [|o4 [|o5 [|o6 pre]]]]]]; cbn in E; try discriminate E.
      * injection E as <- <- <- <- _. in_cases Hin.
      * injection E as <- <- <- <- <- <- _. discriminate Hn.
      * injection E as <- <- <- <- <- <- <- _. injection Hn as <-. in_cases Hin.
        injection Hin as -> ->. injection Ht as <-. destruct Hh as (now & id & a & r & p & Hg).
        destruct (challenge_nonce "n0" "n1" "now" now 5 id "alice" a "user" r "dynamic" p (toy_text "n0")
          eq_refl Hg) as [E _]. discriminate E.
      * injection E as <- <- <- <- <- <- <- <- _. discriminate Hn.
      * injection E as _ _ _ _ _ _ E. by destruct pre.
Qed.
