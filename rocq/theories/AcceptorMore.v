(** Proofs: the acceptor without an authenticator; the text of a WAMP-CRA
    challenge. *)
From Verif Require Import Prelude Value Msg IdGen Types Encoding Auth Acceptor AuthSpec
  EncodingFacts AuthProofs AcceptorProofs PathMatchSpec JsonSpec JsonFacts DefaultAuth.

Local Open Scope string_scope.
Local Open Scope list_scope.

Section acceptor.
Context {PL : Platform} {CR : Crypto}.

(** * No authenticator *)

Lemma select_default h :
  (wants_anonymous h /\ select_auth_method default_methods
     (match he_authmethods h with Some l => l | None => [] end) = Ok mAnonymous)
  \/ (~ wants_anonymous h /\ exists er, select_auth_method default_methods
        (match he_authmethods h with Some l => l | None => [] end) = Err er).
Proof.
  unfold wants_anonymous, proposals.
  assert (default [] (he_authmethods h) = match he_authmethods h with Some l => l | None => [] end) as -> by done.
  set (ps := match he_authmethods h with Some l => l | None => [] end). clearbody ps. clear h.
  destruct ps as [|p ps]; [left; split; [by left|done]|].
  destruct (select_auth_method default_methods (p :: ps)) as [m|er|w] eqn:E.
  - left. pose proof E as E'. apply select_iff in E as [(pre & post & E & Hin & _) _]; [|done].
    apply elem_of_list_singleton in Hin as ->. split; [|done]. right. rewrite E. apply elem_of_app. right. left.
  - right. split; [|eauto]. intros [H|H]; [done|].
    unfold select_auth_method in E. destruct (find_method default_methods (p :: ps)) as [m u] eqn:F.
    assert (m = mAnonymous) as ->; [|discriminate E].
    clear E. revert m u F H. generalize (p :: ps) as l. clear p ps er. intros l. induction l as [|q l IH]; intros m u F H; [by apply elem_of_nil in H|].
    cbn [find_method] in F. case_bool_decide as Hq.
    + injection F as <- _. by apply elem_of_list_singleton in Hq.
    + destruct (find_method default_methods l) as [m' u']. injection F as -> _.
      apply elem_of_cons in H as [<-|H]; [by destruct Hq; left|]. by eapply IH.
  - exfalso. unfold select_auth_method in E. destruct (find_method _ _). by case_match.
Qed.

Definition dinv (a : acceptor) (tr : list aevent) : Prop :=
  match ac_state a with
  | ANone => ~ welcomed_before tr
  | AChallengeSent => False
  | AWelcomeSent => welcomed_before tr
  end.

Lemma default_step e m a tr : default_env e -> dinv a tr ->
  exists a' calls r, acceptor_receive e a m = Ret a' (calls, r) /\ default_reply tr m r
    /\ dinv a' (AMade r :: map ACalled calls ++ AGot m :: tr).
Proof.
  intros [Em Ea] Hinv. unfold dinv in Hinv. unfold acceptor_receive.
  assert (Keep : forall calls r, (forall w, r <> Ok (MWelcome w)) ->
            welcomed_before (AMade r :: map ACalled calls ++ AGot m :: tr) -> welcomed_before tr).
  { intros calls r Hr [w Hw]. apply elem_of_cons in Hw as [Hw|Hw]; [exfalso; apply (Hr w); congruence|].
    apply elem_of_app in Hw as [Hw|Hw].
    - apply elem_of_list_fmap in Hw as (? & Hw & _). discriminate Hw.
    - apply elem_of_cons in Hw as [Hw|Hw]; [discriminate Hw|by exists w]. }
  destruct (ac_state a) eqn:Es; [|done|].
  2:{ rewrite bool_decide_eq_true_2 by done. eexists a, [], _. split; [done|]. split; [by constructor|].
      unfold dinv. rewrite Es. destruct Hinv as [w Hw]. exists w. by do 2 right. }
  rewrite bool_decide_eq_false_2 by done.
  assert (Other : (forall h, m <> MHello h) -> forall er calls, 
    default_reply tr m (Err er) /\ dinv a (AMade (Err er) :: map ACalled calls ++ AGot m :: tr)).
  { intros Hm er calls. split; [by apply dr_other|]. unfold dinv. rewrite Es. intros H. apply Hinv. eapply Keep; [|exact H]. done. }
  destruct m; try (eexists a, [], _; split; [reflexivity|by apply Other]).
  - unfold receive_hello. rewrite Es, Em, Ea.
    destruct (select_default m) as [[Hw ->]|[Hw [er ->]]].
    + rewrite String.eqb_refl. change (default_answer (new_request m mAnonymous))
        with (Approve (Response "anonymous" "anonymous" None)).
      cbn [send_welcome ac_hello answered].
      eexists _, _, _. split; [reflexivity|]. split; [by apply dr_welcome|].
      unfold dinv. cbn [ac_state]. eexists. left.
    + eexists _, _, _. split; [reflexivity|]. split; [by apply dr_abort|].
      unfold dinv. rewrite Es. intros H. apply Hinv. eapply (Keep [AMethods default_methods]); [|exact H]. done.
  - unfold receive_authenticate. rewrite Es. eexists a, [], _. split; [reflexivity|by apply Other].
Qed.

Lemma default_run ins : forall a tr a' tr' x, Forall (fun em => default_env (fst em)) ins -> dinv a tr ->
  acceptor_run ins (a, tr) = Ret (a', tr') x -> dinv a' tr'.
Proof.
  induction ins as [|[e m] ins IH]; intros a tr a' tr' x Hins Hinv; cbn [acceptor_run].
  - by intros [= <- <- _].
  - inversion Hins as [|? ? He Hins']; subst. unfold acceptor_step. cbn [fst snd].
    destruct (default_step e m a tr He Hinv) as (a1 & calls & r & -> & _ & H1). by apply IH.
Qed.

Lemma default_replies static ins a tr x e m :
  Forall (fun em => default_env (fst em)) ins -> default_env e ->
  acceptor_run ins (new_acceptor static, []) = Ret (a, tr) x ->
  exists a' calls r, acceptor_receive e a m = Ret a' (calls, r) /\ default_reply tr m r.
Proof.
  intros Hins He H. assert (D : dinv a tr).
  { eapply default_run; [done| |exact H]. cbn. intros [w Hw]. by apply elem_of_nil in Hw. }
  destruct (default_step e m a tr He D) as (a' & calls & r & E & R & _). by exists a', calls, r.
Qed.

(** * The text of a challenge *)

Lemma challenge_text e a m a' calls c :
  acceptor_receive e a m = Ret a' (calls, Ok (MChallenge c)) -> ch_method c = "wampcra" ->
  exists h rq r nonce ch,
    m = MHello h /\ AAsked rq (Approve r) ∈ calls /\ about rq h "wampcra" RBase
    /\ av_nonce e = Some nonce
    /\ mget (ch_extra c) "challenge" = VStr ch
    /\ generate_cra_challenge (Some nonce) (av_now e) (generate_id (av_cra_session e))
         (rs_authid r) (rs_authrole r) "dynamic" = Ok ch.
Proof.
  unfold acceptor_receive. case_bool_decide; [intros [=]|]. destruct m; try by intros [=].
  - unfold receive_hello. destruct (ac_state a); [|by intros [=]|by intros [=]].
    destruct (select_auth_method _ _) as [s|er|w]; [|by intros [=]|by intros [=]].
    destruct (String.eqb_spec s mAnonymous) as [->|N1].
    { destruct (av_answer e _); by intros [=]. }
    destruct (String.eqb_spec s mTicket) as [->|N2].
    { intros [= <- <- <-] [=]. }
    destruct (String.eqb_spec s mWAMPCRA) as [->|N3].
    + destruct (av_answer e (new_request m mWAMPCRA)) as [r|er|] eqn:Ea; [|by intros [=]|by intros [=]].
      unfold cra_challenge. destruct r as [ri rr [k|]]; [|by intros [=]].
      destruct (av_nonce e) as [nonce|] eqn:En; [|by intros [=]].
      destruct (generate_cra_challenge _ _ _ _ _ _) as [ch|er|w] eqn:G; [|by intros [=]|by intros [=]].
      intros [= <- <- <-] _. exists m, (new_request m mWAMPCRA), (Response ri rr (Some k)), nonce, ch.
      split; [done|]. split; [left|]. split; [done|]. split; [done|]. split; [|done].
      destruct (String.eqb (cra_salt k) ""); reflexivity.
    + destruct (String.eqb_spec s mCryptoSign) as [->|N4]; [|by intros [=]].
      destruct (mget _ _); try by intros [=]. destruct (String.eqb _ _); [by intros [=]|].
      destruct (generate_cryptosign_challenge _); destruct (av_answer e _); try (by intros [=]);
        intros [= <- <- <-] [=].
  - unfold receive_authenticate, answered, send_welcome. repeat case_match; intros; simplify_eq.
Qed.

Lemma challenge_text_reads e a m a' calls c :
  acceptor_receive e a m = Ret a' (calls, Ok (MChallenge c)) -> ch_method c = "wampcra" ->
  exists h rq r nonce ch i o n t,
    m = MHello h /\ AAsked rq (Approve r) ∈ calls /\ about rq h "wampcra" RBase
    /\ av_nonce e = Some nonce
    /\ mget (ch_extra c) "challenge" = VStr ch
    /\ read_object ch = Some
        [("authid", JStr i); ("authmethod", JStr "wampcra"); ("authprovider", JStr "dynamic");
         ("authrole", JStr o); ("nonce", JStr n); ("session", JNum (generate_id (av_cra_session e)));
         ("timestamp", JStr t)]
    /\ repaired (rs_authid r) i /\ repaired (rs_authrole r) o /\ b64_canonical n nonce
    /\ repaired (av_now e) t.
Proof.
  intros H Hm. destruct (challenge_text _ _ _ _ _ _ H Hm) as (h & rq & r & nonce & ch & -> & Hin & Hab & Hn & Hc & G).
  apply challenge_reads in G as (i & p & o & n & t & R & Hi & Hp & Ho & Hn' & Ht).
  assert (p = "dynamic") as ->.
  { apply (repaired_fun "dynamic"); [done|]. apply text_repaired, ascii_text. repeat constructor. }
  exists h, rq, r, nonce, ch, i, o, n, t. done.
Qed.

Lemma welcome_id e a m a' calls w :
  acceptor_receive e a m = Ret a' (calls, Ok (MWelcome w)) -> we_session w = generate_id (av_session e).
Proof.
  unfold acceptor_receive. case_bool_decide; [intros [=]|]. destruct m; try by intros [=].
  - unfold receive_hello, answered, send_welcome, cra_challenge, abort_with, new_abort.
    repeat case_match; intros; simplify_eq; done.
  - unfold receive_authenticate, answered, send_welcome. repeat case_match; intros; simplify_eq; done.
Qed.

End acceptor.

(** Text stands for itself. *)
Lemma repaired_text s t : text s -> repaired s t -> t = s.
Proof. intros H R. by apply (repaired_fun s); [|apply text_repaired]. Qed.

Lemma challenge_names n1 n2 now1 now2 id1 id2 a1 a2 r1 r2 p1 p2 ch :
  text a1 -> text a2 -> text r1 -> text r2 ->
  generate_cra_challenge (Some n1) now1 id1 a1 r1 p1 = Ok ch ->
  generate_cra_challenge (Some n2) now2 id2 a2 r2 p2 = Ok ch ->
  a1 = a2 /\ r1 = r2 /\ id1 = id2.
Proof.
  intros Ta1 Ta2 Tr1 Tr2 H1 H2.
  apply challenge_reads in H1 as (i1 & q1 & o1 & m1 & t1 & E1 & Hi1 & _ & Ho1 & _).
  apply challenge_reads in H2 as (i2 & q2 & o2 & m2 & t2 & E2 & Hi2 & _ & Ho2 & _).
  rewrite E1 in E2. injection E2 as -> _ -> _ -> _.
  rewrite <- (repaired_text _ _ Ta1 Hi1), <- (repaired_text _ _ Ta2 Hi2).
  rewrite <- (repaired_text _ _ Tr1 Ho1), <- (repaired_text _ _ Tr2 Ho2). done.
Qed.
