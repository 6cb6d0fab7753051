(** What the acceptor and the joiner do not check. *)
From Coq Require Import Ascii.
From Verif Require Import Prelude Value Msg IdGen Types Encoding Auth Acceptor Joiner AuthSpec
  EncodingFacts AuthProofs AcceptorProofs JoinerProofs.

Local Open Scope string_scope.
Local Open Scope N_scope.

Section gaps.
Context {PL : Platform} {CR : Crypto}.

Lemma select_one allowed m : m ∈ allowed -> m <> "" -> select_auth_method allowed [m] = Ok m.
Proof.
  intros H Hn. unfold select_auth_method, find_method. rewrite bool_decide_true by exact H.
  destruct (String.eqb_spec m ""); [contradiction|reflexivity].
Qed.

(** A HELLO without methods is an anonymous one, whatever the server allows. *)
Lemma unproposed_anonymous static e h r :
  he_authmethods h = None \/ he_authmethods h = Some [] ->
  av_answer e (new_request h mAnonymous) = Approve r ->
  exists a calls w, acceptor_receive e (new_acceptor static) (MHello h) = Ret a (calls, Ok (MWelcome w)).
Proof.
  intros Hm Ha. unfold acceptor_receive. rewrite bool_decide_false by discriminate.
  unfold receive_hello. cbn [ac_state new_acceptor].
  destruct Hm as [-> | ->]; cbn [select_auth_method]; rewrite String.eqb_refl, Ha;
    do 3 eexists; reflexivity.
Qed.

(** A signature over any 32 bytes will do for cryptosign. *)
Lemma replay static e e' h seed r raw raw' :
  String.length seed = 32%nat -> String.length raw = 32%nat -> String.length raw' = 32%nat ->
  he_authmethods h = Some [mCryptoSign] -> mCryptoSign ∈ av_methods e ->
  mget (he_authextra h) "pubkey" = VStr (hex_encode (ed_public seed)) ->
  (forall rq, av_answer e rq = Approve r) -> av_challenge e = Some raw ->
  exists a calls ch sig, acceptor_receive e (new_acceptor static) (MHello h) = Ret a (calls, Ok (MChallenge ch))
    /\ mget (ch_extra ch) "challenge" = VStr (hex_encode raw)
    /\ signed_text sig (ed_public seed) raw'
    /\ exists a' w, acceptor_receive e' a (MAuthenticate (Authenticate sig None)) = Ret a' ([], Ok (MWelcome w)).
Proof.
  intros Hl Hr Hr' Hm Hal Hpk Ha Hc.
  destruct (cryptosign_accepted seed (hex_encode raw') raw' Hl) as (sig & _ & Hs & Hv);
    [apply hex_decode_iff, hex_decode_encode|exact Hr'|].
  assert (String.eqb (hex_encode (ed_public seed)) "" = false) as Hne.
  { pose proof (ed_public_length seed). destruct (ed_public seed); [discriminate|reflexivity]. }
  unfold acceptor_receive at 1. rewrite bool_decide_false by discriminate.
  unfold receive_hello. cbn [ac_state new_acceptor]. rewrite Hm, (select_one _ _ Hal) by discriminate.
  change (String.eqb mCryptoSign mAnonymous) with false. change (String.eqb mCryptoSign mTicket) with false.
  change (String.eqb mCryptoSign mWAMPCRA) with false. rewrite String.eqb_refl. cbv beta iota zeta.
  rewrite Hpk, Hne, Ha, Hc. do 4 eexists. split; [reflexivity|]. split; [reflexivity|]. split; [exact Hs|].
  unfold acceptor_receive. cbn [ac_state]. rewrite bool_decide_false by discriminate.
  unfold receive_authenticate. cbn [ac_state ac_method ac_request ac_response au_signature new_cryptosign_request].
  change (String.eqb mCryptoSign mTicket) with false. change (String.eqb mCryptoSign mWAMPCRA) with false.
  rewrite String.eqb_refl, hex_decode_encode, Hv. do 2 eexists. reflexivity.
Qed.

(** After a refused ticket, the next one is tried. *)
Lemma second_ticket static e e1 e2 h t1 t2 err r :
  he_authmethods h = Some [mTicket] -> mTicket ∈ av_methods e ->
  av_answer e1 (new_ticket_request h t1) = Refuse err ->
  av_answer e2 (new_ticket_request h t2) = Approve r ->
  exists a tr ab w, acceptor_run
      [(e, MHello h); (e1, MAuthenticate (Authenticate t1 None)); (e2, MAuthenticate (Authenticate t2 None))]
      (new_acceptor static, []) = Ret (a, tr) tt
    /\ AMade (Ok (MAbort ab)) ∈ tail tr /\ head tr = Some (AMade (Ok (MWelcome w))).
Proof.
  intros Hm Hal H1 H2.
  set (a1 := Acceptor AChallengeSent static mTicket (Some h) None None "" None).
  assert (acceptor_receive e (new_acceptor static) (MHello h)
          = Ret a1 ([AMethods (av_methods e)], Ok (MChallenge (Challenge mTicket (Some []))))) as E0.
  { unfold acceptor_receive. rewrite bool_decide_false by discriminate.
    unfold receive_hello. cbn [ac_state new_acceptor]. rewrite Hm, (select_one _ _ Hal) by discriminate. reflexivity. }
  assert (forall e t, acceptor_receive e a1 (MAuthenticate (Authenticate t None)) =
    let rq := new_ticket_request h t in let calls := [AAsked rq (av_answer e rq)] in
    match av_answer e rq with
    | Refuse er => Ret a1 (calls, Ok (abort_with (Some [VStr er])))
    | Approve r => answered calls (send_welcome a1 (generate_id (av_session e)) (Some r) None)
    | Neither => answered calls (send_welcome a1 (generate_id (av_session e)) None None)
    end) as E1.
  { intros e0 t0. unfold acceptor_receive. rewrite bool_decide_false by discriminate. reflexivity. }
  cbn [acceptor_run]. unfold acceptor_step. cbn [fst snd]. rewrite E0. cbn [fst snd]. rewrite E1. cbv zeta. rewrite H1.
  cbn [fst snd]. rewrite E1. cbv zeta. rewrite H2. cbn [answered send_welcome ac_hello a1].
  do 4 eexists. split; [reflexivity|]. cbn [tail head map app].
  split; [|reflexivity]. do 2 right. left.
Qed.

Lemma split_head (x y : aevent) (xs mid old : list aevent) : x <> y ->
  x :: xs = (mid ++ y :: old)%list -> exists mid', mid = x :: mid' /\ xs = (mid' ++ y :: old)%list.
Proof.
  intros Hn H. destruct mid as [|z mid]; cbn in H; injection H; intros; subst; [by destruct Hn|eauto].
Qed.

Lemma abort_then_welcome static ins a new w mid ab old x :
  acceptor_run ins (new_acceptor static, [])
    = Ret (a, new ++ AMade (Ok (MWelcome w)) :: mid ++ AMade (Ok (MAbort ab)) :: old)%list x ->
  later_grounds mid.
Proof.
  intros H. apply welcome_warranted in H. remember (mid ++ AMade (Ok (MAbort ab)) :: old)%list as t eqn:E.
  unfold later_grounds.
  destruct H; apply split_head in E as (mid1 & -> & E); try discriminate;
    repeat match goal with
    | E : _ :: _ = (_ ++ AMade (Ok (MAbort _)) :: _)%list |- _ =>
        apply split_head in E as (? & -> & E); [|discriminate]
    end.
  - left. do 3 eexists. split; [right; right; left|left].
  - right. eexists. right. left.
  - right. eexists. left.
  - right. eexists. left.
Qed.

(** An authenticator that sets a salt and a negative key length. *)
Lemma keylen_panics static e e' h r k nonce sig :
  he_authmethods h = Some [mWAMPCRA] -> mWAMPCRA ∈ av_methods e ->
  av_answer e (new_request h mWAMPCRA) = Approve r -> rs_cra r = Some k ->
  cra_salt k <> "" -> (cra_keylen k < 0 \/ kdf_max < cra_keylen k)%Z -> av_nonce e = Some nonce ->
  exists why, acceptor_run [(e, MHello h); (e', MAuthenticate (Authenticate sig None))] (new_acceptor static, [])
    = Crash why.
Proof.
  intros Hm Hal Ha Hk Hs Hl Hn. destruct r as [ri rr rc]. cbn [rs_cra] in Hk. subst rc.
  destruct (generate_cra_challenge (av_nonce e) (av_now e) (generate_id (av_cra_session e)) ri rr "dynamic")
    as [ch|er|w] eqn:Ech; [|rewrite Hn in Ech; discriminate Ech..].
  set (a1 := Acceptor AChallengeSent static mWAMPCRA (Some h) None (Some (Response ri rr (Some k))) ch None).
  assert (exists calls r, acceptor_receive e (new_acceptor static) (MHello h) = Ret a1 (calls, r)) as (calls & r & E0).
  { unfold acceptor_receive. rewrite bool_decide_false by discriminate.
    unfold receive_hello. cbn [ac_state new_acceptor]. rewrite Hm, (select_one _ _ Hal) by discriminate.
    change (String.eqb mWAMPCRA mAnonymous) with false. change (String.eqb mWAMPCRA mTicket) with false.
    rewrite String.eqb_refl. cbv beta iota zeta. rewrite Ha. unfold cra_challenge. rewrite Ech.
    do 2 eexists. reflexivity. }
  destruct (derive_key_panics (cra_salt k) (cra_secret k) (cra_iterations k) (cra_keylen k) Hl) as [why Ek].
  assert (acceptor_receive e' a1 (MAuthenticate (Authenticate sig None)) = Crash why) as E1.
  { unfold acceptor_receive. rewrite bool_decide_false by discriminate. unfold receive_authenticate.
    cbn [ac_state ac_method ac_hello ac_response au_signature a1].
    change (String.eqb mWAMPCRA mTicket) with false. rewrite String.eqb_refl.
    destruct (String.eqb_spec (cra_salt k) ""); [contradiction|]. by rewrite Ek. }
  exists why. cbn [acceptor_run]. unfold acceptor_step. cbn [fst snd]. rewrite E0. cbn [fst snd]. by rewrite E1.
Qed.

Lemma welcome_once static ins a new w past x :
  acceptor_run ins (new_acceptor static, []) = Ret (a, new ++ AMade (Ok (MWelcome w)) :: past)%list x ->
  forall w', AMade (Ok (MWelcome w')) ∉ new /\ AMade (Ok (MWelcome w')) ∉ past.
Proof.
  intros H. apply reach_inv in H. unfold inv in H. destruct (ac_state a).
  - destruct H as [_ H]. exfalso. eapply H. apply elem_of_app. right. left.
  - destruct H as (_ & H & _). exfalso. eapply H. apply elem_of_app. right. left.
  - destruct H as (w' & d & new' & past' & E & Hn & Hp & _).
    destruct (split_unique _ _ _ _ _ _ E Hn Hp) as (_ & -> & ->). intros w0. split; [apply Hn|apply Hp].
Qed.

(** * The joiner *)

Lemma welcome_crash c realm static w : ~ readable w ->
  exists why, joiner_run [(c, JSendHello true); (c, JReceive (MWelcome w))] (new_joiner realm static, []) = Crash why.
Proof.
  intros Hr. cbn [joiner_run joiner_step fst snd send_hello].
  destruct (welcome_cases c (set_jstate (new_joiner realm static) JHelloSent) w) as (o & E & Hc).
  rewrite E. cbn [jn_state set_jstate] in Hc. destruct Hc as [[H _]|[_ ->]]; [contradiction|]. eauto.
Qed.
Lemma challenge_crash authid secret extra realm static ch :
  to_string (mget (ch_extra ch) "salt") <> "" -> ~ (0 <= effective_keylen ch <= kdf_max)%Z ->
  let c := new_wampcra authid secret extra in
  exists why, joiner_run [(c, JSendHello true); (c, JReceive (MChallenge ch))] (new_joiner realm static, []) = Crash why.
Proof.
  intros Hs Hk c. destruct (proj2 (cra_authenticate_panics secret extra ch) (conj Hs Hk)) as [why E].
  cbn [joiner_run joiner_step fst snd send_hello joiner_receive set_jstate jn_state].
  change (cl_authenticate c ch) with (cra_authenticate secret extra ch). rewrite E. eauto.
Qed.
End gaps.
