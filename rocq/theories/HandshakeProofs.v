(** Honest handshakes end in agreement; what the acceptor does not check. *)
From Verif Require Import Prelude Value Msg IdGen Types Encoding Auth Acceptor Joiner BaseSpec WireSpec
  MsgSpec BaseFacts MsgFacts MsgParse MsgProof MsgWire AuthSpec EncodingFacts AuthProofs AcceptorProofs
  JoinerProofs AuthGaps HandshakeSpec.

Local Open Scope string_scope.
Local Open Scope N_scope.

Section handshake.
Context {PL : Platform} {CR : Crypto}.

(** * Transport *)

Lemma sent_of (m : message) (next : message -> Prop) : msg_ok m ->
  (forall m', msg_same m m' -> next m') -> sent m next.
Proof.
  intros Hok H l sh sh' Hl. destruct (deserialize_wire sh sh' m l Hok Hl) as (m' & E & Hs).
  exists m'. split; [exact E|exact (H m' Hs)].
Qed.

Lemma sent_hello h (next : message -> Prop) :
  (forall h', hello_same h h' -> next (MHello h')) -> sent (MHello h) next.
Proof.
  intros H. apply sent_of; [exact I|]. intros m' Hs.
  destruct m'; cbn [msg_same] in Hs; try (destruct Hs as [E _]; discriminate E). by apply H.
Qed.
Lemma sent_welcome id d (next : message -> Prop) : (Z.of_N id < two64)%Z ->
  (forall d', wire_map d d' -> next (MWelcome (Welcome id (Some d')))) ->
  sent (MWelcome (Welcome id (Some d))) next.
Proof.
  intros Hid H. apply sent_of; [repeat constructor; [exact Hid|discriminate]|]. intros m' Hs.
  destruct m' as [ |[id' d']| | | | | | | | | | | | | | | | | | | | | | ]; cbn [msg_same] in Hs;
    destruct Hs as (E & Hf & _); try discriminate E.
  cbn [msg_fields] in Hf. apply Forall2_cons in Hf as [H1 Hf]. apply Forall2_cons in Hf as [H2 _].
  cbn in H1, H2. subst id'. destruct d' as [d'|]; [|destruct H2]. by apply H.
Qed.
Lemma sent_challenge m d (next : message -> Prop) :
  (forall d', wire_map d d' -> next (MChallenge (Challenge m (Some d')))) ->
  sent (MChallenge (Challenge m (Some d))) next.
Proof.
  intros H. apply sent_of; [repeat constructor; discriminate|]. intros m' Hs.
  destruct m' as [ | | |[mm d']| | | | | | | | | | | | | | | | | | | | ]; cbn [msg_same] in Hs;
    destruct Hs as (E & Hf & _); try discriminate E.
  cbn [msg_fields] in Hf. apply Forall2_cons in Hf as [H1 Hf]. apply Forall2_cons in Hf as [H2 _].
  cbn in H1, H2. subst mm. destruct d' as [d'|]; [|destruct H2]. by apply H.
Qed.
Lemma sent_authenticate sig ex (next : message -> Prop) :
  (forall ex', next (MAuthenticate (Authenticate sig ex'))) -> sent (MAuthenticate (Authenticate sig ex)) next.
Proof.
  intros H. apply sent_of; [exact I|]. intros m' Hs.
  destruct m' as [ | | | |[sig' ex']| | | | | | | | | | | | | | | | | | | ]; cbn [msg_same] in Hs;
    try (destruct Hs as [E _]; discriminate E).
  destruct Hs as [E _]. cbn [au_signature] in E. subst sig'. apply H.
Qed.

Lemma wire_get d d' k v : wire_map d d' -> assoc k d = Some v ->
  exists v', mget (Some d') k = v' /\ wire v v'.
Proof.
  intros H E. specialize (H k). rewrite E in H. inversion H as [? x Hw E1 E2|]; subst.
  exists x. split; [|exact Hw]. unfold mget. by rewrite <- E2.
Qed.
Lemma wire_get_none d d' k : wire_map d d' -> assoc k d = None -> mget (Some d') k = VNil.
Proof.
  intros H E. specialize (H k). rewrite E in H. inversion H as [|E1 E2]; subst. unfold mget. by rewrite <- E2.
Qed.
Lemma wire_get_str d d' k s : wire_map d d' -> assoc k d = Some (VStr s) -> mget (Some d') k = VStr s.
Proof. intros H E. destruct (wire_get _ _ _ _ H E) as (v' & -> & Hw). by apply wire_str. Qed.
Lemma wire_get_method d d' k s : wire_map d d' -> assoc k d = Some (VMethod s) -> mget (Some d') k = VStr s.
Proof.
  intros H E. destruct (wire_get _ _ _ _ H E) as (v' & -> & Hw). unfold VMethod in Hw.
  remember (VOther (Npos (encode s))) as x eqn:Ex. destruct Hw; try discriminate Ex.
  unfold VMethod in Ex. injection Ex as Ex. apply (inj encode) in Ex. by subst.
Qed.
Lemma wire_get_int d d' k z : wire_map d d' -> assoc k d = Some (VInt KInt z) -> fits KInt z ->
  fst (as_int (mget (Some d') k)) = z.
Proof.
  intros H E Hf. destruct (wire_get _ _ _ _ H E) as (v' & -> & Hw).
  assert (- two63 <= z < two63)%Z as Hr by (unfold fits in Hf; cbn [kmin kmax] in Hf; lia).
  inversion Hw as [| |k1 z1 k' Hk Hfit|k1 z1 f Hsm Hfl| | | | | | | | | | | |]; subst.
  - rewrite as_int_int by exact Hfit. rewrite bool_decide_true; [reflexivity|exact Hr].
  - by destruct (as_int_float _ _ Hfl Hr) as [-> _].
Qed.

(** * The last leg *)

Lemma welcomed_of c j a id realm m r extra
  (h : hello) (calls : list acall) :
  (Z.of_N id < two64)%Z -> (jn_state j = JHelloSent \/ jn_state j = JAuthenticateSent) ->
  jn_realm j = realm -> ac_hello a = Some h -> he_realm h = realm -> ac_method a = m ->
  welcomed c id realm m r j (answered calls (send_welcome a id (Some r) extra)).
Proof.
  intros Hid Hj Hr Ha Hh Hm. unfold send_welcome. rewrite Ha, Hh, Hm. cbn [answered].
  eexists _, _, _. split; [reflexivity|]. apply sent_welcome; [exact Hid|]. intros d' Hd.
  pose proof (wire_get_str _ _ "authid" (rs_authid r) Hd eq_refl) as H1.
  pose proof (wire_get_str _ _ "authrole" (rs_authrole r) Hd eq_refl) as H2.
  pose proof (wire_get_method _ _ "authmethod" m Hd eq_refl) as H3.
  cbn [joiner_receive we_details we_session]. rewrite H1, H2, H3.
  destruct Hj as [-> | ->]; eexists; (split; [reflexivity|]); do 2 eexists;
    (split; [reflexivity|]); (split; [reflexivity|]); rewrite Hr; repeat split; reflexivity.
Qed.

(** * The four methods *)

Lemma anonymous_agrees authid extra realm static static' e r :
  mAnonymous ∈ av_methods e ->
  (forall x, av_answer e (Request mAnonymous realm authid x RBase) = Approve r) ->
  av_session e < 2 ^ 64 ->
  handshake_short (new_anonymous authid extra) realm static static' e mAnonymous r.
Proof.
  intros Hm Hans Hid. unfold handshake_short. do 2 eexists. split; [reflexivity|].
  apply sent_hello. intros h' (Hr & Ha & Hms & _).
  cbn [he_realm he_authid he_authmethods new_joiner jn_realm new_anonymous cl_authid cl_method default] in *.
  unfold acceptor_receive. rewrite bool_decide_false by discriminate.
  unfold receive_hello. cbn [ac_state new_acceptor]. change (he_authmethods h' = Some [mAnonymous]) in Hms. rewrite Hms. cbv beta iota.
  rewrite (select_one _ _ Hm) by discriminate. rewrite String.eqb_refl.
  unfold new_request. rewrite Hr, Ha, Hans.
  apply welcomed_of with (h := h'); try reflexivity; try assumption.
  - unfold generate_id, two64. lia.
  - by left.
Qed.

Lemma ticket_agrees authid ticket extra realm static static' e e' r :
  mTicket ∈ av_methods e ->
  (forall x, av_answer e' (Request mTicket realm authid x (RTicket ticket)) = Approve r) ->
  av_session e' < 2 ^ 64 ->
  handshake_long (new_ticket authid ticket extra) realm static static' e e' mTicket r.
Proof.
  intros Hm Hans Hid. unfold handshake_long. do 2 eexists. split; [reflexivity|].
  apply sent_hello. intros h' (Hr & Ha & Hms & _).
  cbn [he_realm he_authid he_authmethods new_joiner jn_realm new_ticket cl_authid cl_method default] in *.
  unfold acceptor_receive at 1. rewrite bool_decide_false by discriminate.
  unfold receive_hello. cbn [ac_state new_acceptor]. change (he_authmethods h' = Some [mTicket]) in Hms. rewrite Hms. cbv beta iota.
  rewrite (select_one _ _ Hm) by discriminate.
  rewrite String.eqb_refl. change (String.eqb mTicket mAnonymous) with false. cbv beta iota.
  do 3 eexists. split; [reflexivity|]. apply sent_challenge. intros d' _.
  do 2 eexists. split; [reflexivity|]. apply sent_authenticate. intros ex'.
  unfold acceptor_receive. cbn [ac_state]. rewrite bool_decide_false by discriminate.
  unfold receive_authenticate. cbn [ac_state ac_method ac_hello]. rewrite String.eqb_refl.
  unfold new_ticket_request. cbn [au_signature]. rewrite Hr, Ha, Hans.
  apply welcomed_of with (h := h'); try reflexivity; try assumption.
  - unfold generate_id, two64. lia.
  - by right.
Qed.

Lemma wampcra_agrees authid secret extra realm static static' e e' r k nonce :
  mWAMPCRA ∈ av_methods e ->
  (forall x, av_answer e (Request mWAMPCRA realm authid x RBase) = Approve r) ->
  rs_cra r = Some k -> cra_secret k = secret ->
  (cra_salt k = "" \/ (fits KInt (cra_iterations k) /\ fits KInt (cra_keylen k)
                        /\ (0 <= cra_keylen k <= kdf_max)%Z)) ->
  av_nonce e = Some nonce -> av_session e' < 2 ^ 64 ->
  handshake_long (new_wampcra authid secret extra) realm static static' e e' mWAMPCRA r.
Proof.
  intros Hm Hans Hcra Hsec Hlen Hnonce Hid. unfold handshake_long. do 2 eexists. split; [reflexivity|].
  apply sent_hello. intros h' (Hr & Ha & Hms & _).
  cbn [he_realm he_authid he_authmethods new_joiner jn_realm new_wampcra cl_authid cl_method default] in *.
  unfold acceptor_receive at 1. rewrite bool_decide_false by discriminate.
  unfold receive_hello. cbn [ac_state new_acceptor]. change (he_authmethods h' = Some [mWAMPCRA]) in Hms. rewrite Hms. cbv beta iota.
  rewrite (select_one _ _ Hm) by discriminate.
  change (String.eqb mWAMPCRA mAnonymous) with false. change (String.eqb mWAMPCRA mTicket) with false.
  rewrite String.eqb_refl. cbv beta iota zeta. unfold new_request. rewrite Hr, Ha, Hans.
  destruct r as [ri rr rc]. cbn [rs_cra] in Hcra. subst rc. unfold cra_challenge.
  rewrite Hnonce. destruct (generate_cra_challenge _ _ _ _ _ _) as [ch|?|?] eqn:Ech; [|discriminate Ech..].
  do 3 eexists. split; [reflexivity|]. apply sent_challenge. intros d' Hd.
  cbn [joiner_receive set_jstate jn_state].
  assert (exists key, cra_key k key /\ exists au,
    cra_authenticate secret extra (Challenge mWAMPCRA (Some d')) = Ok au /\ au_extra au = extra
    /\ verify_cra (au_signature au) ch key = true
    /\ (if String.eqb (cra_salt k) "" then Ok (cra_secret k)
        else derive_key (cra_salt k) (cra_secret k) (cra_iterations k) (cra_keylen k)) = Ok key)
    as (key & Hkey & au & Hau & _ & Hver & Hder).
  { assert (exists key, (if String.eqb (cra_salt k) "" then Ok (cra_secret k)
        else derive_key (cra_salt k) (cra_secret k) (cra_iterations k) (cra_keylen k)) = Ok key) as [key Hk].
    { destruct (String.eqb_spec (cra_salt k) "") as [E|E]; [eauto|].
      destruct Hlen as [?|(_ & _ & Hl)]; [contradiction|]. by apply derive_key_ok. }
    exists key. split; [by apply key_of_spec|].
    destruct (cra_client_accepted k key secret extra ch (Challenge mWAMPCRA (Some d'))) as (au & H1 & H2 & H3).
    - exact Hsec.
    - by apply key_of_spec.
    - cbn [ch_extra]. apply (wire_get_str _ _ _ _ Hd). by destruct (String.eqb (cra_salt k) "").
    - cbn [ch_extra]. destruct (String.eqb_spec (cra_salt k) "") as [E|E].
      + rewrite (wire_get_none _ _ "salt" Hd eq_refl), E. reflexivity.
      + by rewrite (wire_get_str _ _ "salt" (cra_salt k) Hd eq_refl).
    - cbn [ch_extra]. intros E. destruct (String.eqb_spec (cra_salt k) ""); [contradiction|].
      destruct Hlen as [?|(Hi & Hl & _)]; [contradiction|].
      split; [exact (wire_get_int _ _ "iterations" (cra_iterations k) Hd eq_refl Hi)
             |exact (wire_get_int _ _ "keylen" (cra_keylen k) Hd eq_refl Hl)].
    - destruct Hlen as [?|(_ & _ & Hl)]; [by left|by right].
    - exists au. by repeat split. }
  change (cl_authenticate _ ?x) with (cra_authenticate secret extra x). cbn [ac_method]. rewrite Hau. destruct au as [sig ex]. do 2 eexists. split; [reflexivity|].
  apply sent_authenticate. intros ex'. cbn [au_signature] in Hver.
  unfold acceptor_receive. cbn [ac_state]. rewrite bool_decide_false by discriminate.
  unfold receive_authenticate. cbn [ac_state ac_method ac_hello ac_response ac_challenge au_signature].
  change (String.eqb mWAMPCRA mTicket) with false. rewrite String.eqb_refl. cbv beta iota zeta.
  rewrite Hder, Hver.
  apply welcomed_of with (h := h'); try reflexivity; try assumption.
  - unfold generate_id, two64. lia.
  - by right.
Qed.

Lemma cryptosign_agrees authid priv seed extra realm static static' e e' r raw :
  mCryptoSign ∈ av_methods e -> hex_denotes priv seed -> String.length seed = 32%nat ->
  (mget extra "pubkey" = VNil \/ mget extra "pubkey" = VStr (hex_encode (ed_public seed))) ->
  (forall x, av_answer e (Request mCryptoSign realm authid x (RCryptoSign (hex_encode (ed_public seed))))
             = Approve r) ->
  av_challenge e = Some raw -> String.length raw = 32%nat -> av_session e' < 2 ^ 64 ->
  exists c, new_cryptosign authid priv extra = Ok c
    /\ handshake_long c realm static static' e e' mCryptoSign r.
Proof.
  intros Hm Hd Hl Hpk Hans Hraw Hrl Hid.
  destruct (new_cryptosign_ok authid priv extra seed Hd Hl Hpk) as (c & Hc & Hcm & Hci & Hcp & _ & _ & Hca).
  exists c. split; [exact Hc|]. unfold handshake_long. do 2 eexists. split; [reflexivity|].
  apply sent_hello. intros h' (Hr & Ha & Hms & (ex & Hex & Hexw) & _).
  cbn [he_realm he_authid he_authmethods he_authextra new_joiner jn_realm default] in *.
  rewrite Hci in Ha. rewrite Hcm in Hms.
  assert (mget (he_authextra h') "pubkey" = VStr (hex_encode (ed_public seed))) as Hpub.
  { rewrite Hex. destruct (cl_authextra c) as [x|]; [|discriminate Hcp]. cbn [default] in Hexw.
    apply (wire_get_str _ _ _ _ Hexw). cbn [mget] in Hcp.
    change (assoc "pubkey" x = Some (VStr (hex_encode (ed_public seed)))).
    destruct (assoc "pubkey" x); [|discriminate Hcp]. f_equal. exact Hcp. }
  assert (String.eqb (hex_encode (ed_public seed)) "" = false) as Hne.
  { pose proof (ed_public_length seed). destruct (ed_public seed); [discriminate|reflexivity]. }
  unfold acceptor_receive at 1. rewrite bool_decide_false by discriminate.
  unfold receive_hello. cbn [ac_state new_acceptor]. change (he_authmethods h' = Some [mCryptoSign]) in Hms. rewrite Hms. cbv beta iota.
  rewrite (select_one _ _ Hm) by discriminate.
  change (String.eqb mCryptoSign mAnonymous) with false. change (String.eqb mCryptoSign mTicket) with false.
  change (String.eqb mCryptoSign mWAMPCRA) with false.
  rewrite String.eqb_refl. cbv beta iota zeta. rewrite Hpub, Hne. unfold new_cryptosign_request.
  rewrite Hr, Ha, Hans, Hraw. cbn [generate_cryptosign_challenge].
  do 3 eexists. split; [reflexivity|]. apply sent_challenge. intros d' Hdd.
  pose proof (wire_get_str _ _ "challenge" (hex_encode raw) Hdd eq_refl) as Hch.
  destruct (cryptosign_accepted seed (hex_encode raw) raw Hl) as (sig & Hsig & _ & Hver);
    [apply hex_decode_iff, hex_decode_encode|exact Hrl|].
  cbn [joiner_receive set_jstate jn_state]. rewrite Hca. unfold cryptosign_authenticate.
  cbn [ch_extra]. rewrite Hch. change (to_string (VStr (hex_encode raw))) with (hex_encode raw). rewrite Hsig.
  do 2 eexists. split; [reflexivity|]. apply sent_authenticate. intros ex'.
  unfold acceptor_receive. cbn [ac_state]. rewrite bool_decide_false by discriminate.
  unfold receive_authenticate. cbn [ac_state ac_method ac_hello ac_request ac_response ac_challenge au_signature].
  change (String.eqb mCryptoSign mTicket) with false. change (String.eqb mCryptoSign mWAMPCRA) with false.
  rewrite String.eqb_refl, hex_decode_encode, Hver.
  apply welcomed_of with (h := h'); try reflexivity; try assumption.
  - unfold generate_id, two64. lia.
  - by right.
Qed.

End handshake.
