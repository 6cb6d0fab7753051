(** Properties C62-C75 and C79-C81: authentication and the handshake. *)
From Coq Require Import Ascii.
From Verif Require Import Prelude Value Msg IdGen Types Encoding Auth Acceptor Joiner BaseSpec WireSpec MsgSpec
  AuthSpec HandshakeSpec EncodingFacts AuthProofs AcceptorProofs JoinerProofs AuthGaps HandshakeProofs AuthEx.

Local Open Scope string_scope.
Local Open Scope N_scope.

(** ** C62 *)
Theorem C62_first_allowed : forall allowed proposed m, proposed <> [] ->
  select_auth_method allowed proposed = Ok m <-> first_allowed allowed proposed m /\ m <> "".
Proof. exact select_iff. Qed.
Theorem C62_fails_iff_none : forall allowed proposed, proposed <> [] -> "" ∉ proposed ->
  (exists e, select_auth_method allowed proposed = Err e) <-> Forall (fun p => p ∉ allowed) proposed.
Proof. exact select_fails_iff. Qed.
Example C62_ex :
  select_auth_method ["anonymous"; "ticket"; "wampcra"] ["cryptosign"; "wampcra"; "ticket"] = Ok "wampcra"
  /\ (exists e, select_auth_method ["ticket"] ["cryptosign"; "wampcra"] = Err e).
Proof. split; [reflexivity|eexists; reflexivity]. Qed.

(** ** C63: false for an empty proposal, which a client may send and which gets
    an anonymous session if the authenticator does not refuse. *)
Theorem C63_within_list_partial : forall allowed proposed m, proposed <> [] ->
  select_auth_method allowed proposed = Ok m -> m ∈ allowed.
Proof.
  intros allowed ps m Hne H. apply select_iff in H as [(pre & post & _ & H & _) _]; [exact H|exact Hne].
Qed.
Theorem C63_empty_proposal_refuted : exists allowed proposed m,
  select_auth_method allowed proposed = Ok m /\ m ∉ allowed.
Proof.
  exists ["ticket"], [], "anonymous". split; [reflexivity|]. intros H.
  apply elem_of_list_singleton in H. discriminate H.
Qed.
Theorem C63_unproposed_session_refuted : forall (CR : Crypto) static e h r,
  he_authmethods h = None \/ he_authmethods h = Some [] ->
  av_answer e (new_request h mAnonymous) = Approve r ->
  exists a calls w, acceptor_receive e (new_acceptor static) (MHello h) = Ret a (calls, Ok (MWelcome w)).
Proof. exact @unproposed_anonymous. Qed.
Example C63_ex :
  toy_run [MHello (toy_hello [])] = [Welcomed "nobody"]
  /\ select_auth_method ["ticket"; "wampcra"] ["anonymous"; "wampcra"] = Ok "wampcra".
Proof. split; vm_compute; reflexivity. Qed.

(** ** C64 *)
Theorem C64_own_signature : forall (CR : Crypto) ch key, verify_cra (sign_cra ch key) ch key = true.
Proof. exact @verify_sign. Qed.
Theorem C64_accepted_iff_hmac : forall (CR : Crypto) sig ch key,
  verify_cra sig ch key = true <-> b64_denotes sig (hmac_sha256 key ch).
Proof. exact @verify_cra_iff. Qed.
(** The client, given the challenge and the user's salt and parameters, signs
    with the key the server has for the user. *)
Theorem C64_client_accepted : forall (PL : Platform) (CR : Crypto) c key secret extra ch chal,
  cra_secret c = secret -> cra_key c key ->
  mget (ch_extra chal) "challenge" = VStr ch ->
  to_string (mget (ch_extra chal) "salt") = cra_salt c ->
  (cra_salt c <> "" -> fst (as_int (mget (ch_extra chal) "iterations")) = cra_iterations c
                    /\ fst (as_int (mget (ch_extra chal) "keylen")) = cra_keylen c) ->
  (cra_salt c = "" \/ (0 <= cra_keylen c <= kdf_max)%Z) ->
  exists a, cra_authenticate secret extra chal = Ok a /\ au_extra a = extra
    /\ verify_cra (au_signature a) ch key = true.
Proof. exact @cra_client_accepted. Qed.
Example C64_ex :
  sign_cra (CR := toy) "hello" "key" = "a2V5L2hlbGxv"
  /\ verify_cra (CR := toy) "a2V5L2hlbGxv" "hello" "key" = true
  /\ verify_cra (CR := toy) "a2V5L2hlbGxv" "hello" "other" = false
  /\ cra_authenticate (PL := amd64) (CR := toy) "pw" None
       (Challenge "wampcra" (Some [("challenge", VStr "c"); ("salt", VStr "s"); ("iterations", VF64 (FFin 100 0));
                                   ("keylen", VInt KUint8 32)]))
     = Ok (Authenticate (sign_cra (CR := toy) "c" (b64_encode "s+pw")) None).
Proof. repeat split; vm_compute; reflexivity. Qed.

(** ** C65: false, base64 lets a line break or stray bits pass; true among
    canonical spellings. *)
Theorem C65_canonical_unique_partial : forall (CR : Crypto) ch key s1 s2 d1 d2,
  verify_cra s1 ch key = true -> verify_cra s2 ch key = true ->
  b64_canonical s1 d1 -> b64_canonical s2 d2 -> s1 = s2.
Proof. exact @cra_at_most_one. Qed.
Theorem C65_line_break_refuted : forall (CR : Crypto) ch key, exists s1 s2,
  verify_cra s1 ch key = true /\ verify_cra s2 ch key = true /\ s1 <> s2.
Proof.
  intros CR ch key. exists (sign_cra ch key ++ String "010" ""), (sign_cra ch key).
  rewrite verify_newline, verify_sign. split; [reflexivity|]. split; [reflexivity|]. apply newline_different.
Qed.
Example C65_ex :
  verify_cra (CR := toy) "ay8=" "" "k" = true /\ verify_cra (CR := toy) "ay9=" "" "k" = true.
Proof. split; vm_compute; reflexivity. Qed.

(** ** C66 *)
Theorem C66_own_signature : forall (CR : Crypto) seed ch raw,
  String.length seed = 32%nat -> hex_denotes ch raw -> String.length raw = 32%nat ->
  exists sig, sign_cryptosign ch seed = Ok sig
    /\ signed_text sig (ed_public seed) raw
    /\ verify_cryptosign sig (ed_public seed) = true.
Proof. exact @cryptosign_accepted. Qed.
Theorem C66_accepted_iff_opens : forall (CR : Crypto) sig key pub, public_key key pub ->
  verify_cryptosign sig key = true <-> exists msg, signed_text sig pub msg.
Proof. exact @verify_cryptosign_iff. Qed.
Example C66_ex : match sign_cryptosign (CR := toy) (hex_encode toy_rand) toy_seed with
  | Ok sig => verify_cryptosign (CR := toy) sig toy_seed = true
              /\ verify_cryptosign (CR := toy) sig "another key" = false
              /\ verify_cryptosign (CR := toy) ("00" ++ sig) toy_seed = false
  | _ => False
  end.
Proof. vm_compute. repeat split; reflexivity. Qed.

(** ** C67: false.  A signature by the same key over any other 32 bytes gets a
    session; that it must be a signature by that key is C68. *)
Theorem C67_replay_refuted : forall (CR : Crypto) static e e' h seed r raw raw',
  String.length seed = 32%nat -> String.length raw = 32%nat -> String.length raw' = 32%nat ->
  he_authmethods h = Some [mCryptoSign] -> mCryptoSign ∈ av_methods e ->
  mget (he_authextra h) "pubkey" = VStr (hex_encode (ed_public seed)) ->
  (forall rq, av_answer e rq = Approve r) -> av_challenge e = Some raw ->
  exists a calls ch sig,
    acceptor_receive e (new_acceptor static) (MHello h) = Ret a (calls, Ok (MChallenge ch))
    /\ mget (ch_extra ch) "challenge" = VStr (hex_encode raw)
    /\ signed_text sig (ed_public seed) raw'
    /\ exists a' w, acceptor_receive e' a (MAuthenticate (Authenticate sig None)) = Ret a' ([], Ok (MWelcome w)).
Proof. exact @replay. Qed.
Definition old_signature : string :=
  match sign_cryptosign (CR := toy) (hex_encode "yesterday's challenge, 32 bytes.") toy_seed with
  | Ok s => s | _ => "" end.
Example C67_ex :
  toy_run [MHello (toy_hello ["cryptosign"]); auth_msg "00"; auth_msg old_signature]
  = [Challenged "cryptosign"; Aborted; Welcomed "alice"].
Proof. vm_compute. reflexivity. Qed.

(** ** C68: whatever the history, the authenticator and the random source. *)
Theorem C68_welcome_warranted : forall (CR : Crypto) static ins a new w past x,
  acceptor_run ins (new_acceptor static, []) = Ret (a, (new ++ AMade (Ok (MWelcome w)) :: past)%list) x ->
  warranted past w.
Proof. exact @welcome_warranted. Qed.
Definition toy_cra_challenge : string :=
  match acceptor_run (CR := toy) [(toy_env, MHello (toy_hello ["wampcra"]))] (new_acceptor false, []) with
  | Ret (_, AMade (Ok (MChallenge c)) :: _) _ => to_string (mget (ch_extra c) "challenge")
  | _ => ""
  end.
Example C68_ex :
  toy_run [MHello (toy_hello ["wampcra"]); auth_msg (sign_cra (CR := toy) toy_cra_challenge "secret");
           auth_msg (sign_cra (CR := toy) toy_cra_challenge (b64_encode "salt+secret"))]
  = [Challenged "wampcra"; Aborted; Welcomed "alice"]
  /\ toy_run [MHello (toy_hello ["x"; "ticket"]); auth_msg "open sesame"] = [Challenged "ticket"; Welcomed "alice"]
  /\ toy_run [MHello (toy_hello ["anonymous"])] = [Welcomed "nobody"].
Proof. repeat split; vm_compute; reflexivity. Qed.

(** ** C69 *)
Theorem C69_details : forall (CR : Crypto) static ins a tr x,
  acceptor_run ins (new_acceptor static, []) = Ret (a, tr) x ->
  (forall w, AMade (Ok (MWelcome w)) ∈ tr -> exists d, acceptor_details a = Ok d /\ agrees d w)
  /\ (forall d, acceptor_details a = Ok d -> exists w, AMade (Ok (MWelcome w)) ∈ tr).
Proof. exact @details_after_welcome. Qed.
Theorem C69_once : forall (CR : Crypto) static ins a new w past x,
  acceptor_run ins (new_acceptor static, []) = Ret (a, (new ++ AMade (Ok (MWelcome w)) :: past)%list) x ->
  forall w', AMade (Ok (MWelcome w')) ∉ new /\ AMade (Ok (MWelcome w')) ∉ past.
Proof. exact @welcome_once. Qed.
Theorem C69_deaf_afterwards : forall (CR : Crypto) static ins a tr x w e m,
  acceptor_run ins (new_acceptor static, []) = Ret (a, tr) x -> AMade (Ok (MWelcome w)) ∈ tr ->
  exists er, acceptor_receive e a m = Ret a ([], Err er).
Proof. exact @after_welcome_rejected. Qed.
(** The boolean of Receive tells exactly whether the reply is a WELCOME. *)
Theorem C69_receive_flag : forall (CR : Crypto) e a decoded ok a' calls r m b,
  acceptor_receive_bytes e a decoded ok = Ret a' (calls, r, Ok (m, b)) ->
  (b = true <-> exists w, m = MWelcome w) /\ r = Ok m.
Proof. exact @receive_bytes_flag. Qed.
Example C69_ex :
  toy_run [MHello (toy_hello ["ticket"]); auth_msg "open sesame"; MHello (toy_hello ["ticket"]); auth_msg "open sesame"]
  = [Challenged "ticket"; Welcomed "alice"; Failed; Failed].
Proof. vm_compute. reflexivity. Qed.

(** ** C70: true if a salted WAMP-CRA user has a key length that can be
    allocated, and false otherwise. *)
Theorem C70_never_panics_partial : forall (CR : Crypto) static ins,
  Forall (fun i : aenv * message => forall rq,
    proper_answer (av_answer (fst i) rq) /\ proper_keylen (av_answer (fst i) rq)) ins ->
  exists s', acceptor_run ins (new_acceptor static, []) = Ret s' tt.
Proof. exact @acceptor_never_panics. Qed.
Theorem C70_keylen_refuted : forall (CR : Crypto) static e e' h r k nonce sig,
  he_authmethods h = Some [mWAMPCRA] -> mWAMPCRA ∈ av_methods e ->
  av_answer e (new_request h mWAMPCRA) = Approve r -> rs_cra r = Some k ->
  cra_salt k <> "" -> (cra_keylen k < 0 \/ kdf_max < cra_keylen k)%Z -> av_nonce e = Some nonce ->
  exists why, acceptor_run [(e, MHello h); (e', MAuthenticate (Authenticate sig None))] (new_acceptor static, [])
    = Crash why.
Proof. exact @keylen_panics. Qed.
Example C70_ex : forall rq, proper_answer (toy_answer rq) /\ proper_keylen (CR := toy) (toy_answer rq).
Proof.
  intros [m r i x [|t|pk]]; unfold toy_answer; cbn [rq_kind rq_method].
  - destruct (String.eqb m "wampcra"); [|destruct (String.eqb m "anonymous")]; (split; [discriminate|]);
      try exact I. right. cbn. lia.
  - destruct (String.eqb t "open sesame"); split; try discriminate; exact I.
  - destruct (String.eqb pk toy_pub); split; try discriminate; exact I.
Qed.
Example C70_ex_crash :
  let e := AEnv ["wampcra"] (fun _ => Approve (Response "a" "r" (Some (Cra "s" "salt" 0 (-1))))) 1 1 (Some "n") "" None in
  match acceptor_run (CR := toy) [(e, MHello (toy_hello ["wampcra"])); (e, auth_msg "")] (new_acceptor false, []) with
  | Crash _ => True | Ret _ _ => False end.
Proof. vm_compute. exact I. Qed.

(** ** C71: false.  An ABORT leaves the handshake where it was, so tickets can
    be tried one after the other. *)
Theorem C71_second_ticket_refuted : forall (CR : Crypto) static e e1 e2 h t1 t2 err r,
  he_authmethods h = Some [mTicket] -> mTicket ∈ av_methods e ->
  av_answer e1 (new_ticket_request h t1) = Refuse err ->
  av_answer e2 (new_ticket_request h t2) = Approve r ->
  exists a tr ab w, acceptor_run
      [(e, MHello h); (e1, MAuthenticate (Authenticate t1 None)); (e2, MAuthenticate (Authenticate t2 None))]
      (new_acceptor static, []) = Ret (a, tr) tt
    /\ AMade (Ok (MAbort ab)) ∈ tail tr /\ head tr = Some (AMade (Ok (MWelcome w))).
Proof. exact @second_ticket. Qed.
(** A WELCOME after an ABORT rests on a message received in between. *)
Theorem C71_new_grounds_partial : forall (CR : Crypto) static ins a new w mid ab old x,
  acceptor_run ins (new_acceptor static, [])
    = Ret (a, (new ++ AMade (Ok (MWelcome w)) :: mid ++ AMade (Ok (MAbort ab)) :: old)%list) x ->
  later_grounds mid.
Proof. exact @abort_then_welcome. Qed.
Example C71_ex :
  toy_run [MHello (toy_hello ["ticket"]); auth_msg "guess 1"; auth_msg "guess 2"; auth_msg "open sesame"]
  = [Challenged "ticket"; Aborted; Aborted; Welcomed "alice"].
Proof. vm_compute. reflexivity. Qed.

(** ** C72 *)
Theorem C72_welcome_accepted_iff : forall realm static ops j t c w,
  joiner_run ops (new_joiner realm static, []) = Ret (j, t) tt -> readable w ->
  (exists j', joiner_receive c j (MWelcome w) = Ret j' (Ok None)) <-> awaiting t.
Proof. exact (fun realm static ops j t c w H => welcome_accepted realm static ops j t H c w). Qed.
Theorem C72_welcome_refused : forall realm static ops j t c w,
  joiner_run ops (new_joiner realm static, []) = Ret (j, t) tt -> ~ awaiting t ->
  exists e, joiner_receive c j (MWelcome w) = Ret j (Err e).
Proof. exact (fun realm static ops j t c w H => welcome_refused realm static ops j t H c w). Qed.
Theorem C72_challenge_accepted_iff : forall realm static ops j t c ch r,
  joiner_run ops (new_joiner realm static, []) = Ret (j, t) tt ->
  (exists j', joiner_receive c j (MChallenge ch) = Ret j' (Ok r))
  <-> awaiting t /\ ~ challenged t
      /\ exists a, cl_authenticate c ch = Ok a /\ r = Some (MAuthenticate a).
Proof. exact (fun realm static ops j t c ch r H => challenge_accepted realm static ops j t H c ch r). Qed.
Theorem C72_challenge_refused : forall realm static ops j t c ch,
  joiner_run ops (new_joiner realm static, []) = Ret (j, t) tt -> ~ awaiting t \/ challenged t ->
  exists e, joiner_receive c j (MChallenge ch) = Ret j (Err e).
Proof. exact (fun realm static ops j t c ch H => challenge_refused realm static ops j t H c ch). Qed.
Theorem C72_other_refused : forall c j m,
  (forall w, m <> MWelcome w) -> (forall ch, m <> MChallenge ch) ->
  exists e, joiner_receive c j m = Ret j (Err e).
Proof. exact other_cases. Qed.
Theorem C72_details : forall realm static ops j t,
  joiner_run ops (new_joiner realm static, []) = Ret (j, t) tt ->
  match last_welcome t with
  | None => exists e, joiner_details j = Err e
  | Some w => exists d, joiner_details j = Ok d /\ joined_as realm d w
  end.
Proof. exact details_of_last_welcome. Qed.
Example C72_ex :
  let c := new_ticket "alice" "open sesame" None in
  let w id i := MWelcome (Welcome id (Some [("authid", VStr i); ("authrole", VStr "user"); ("authmethod", VStr "ticket")])) in
  let ch := MChallenge (Challenge "ticket" (Some [])) in
  match joiner_run (map (fun o => (c, o)) [JReceive (w 1 "x"); JSendHello true; JReceive ch; JReceive ch;
                                           JReceive (MAbort (new_abort None "r" None None));
                                           JReceive (w 2 "alice"); JReceive (w 3 "bob")]) (new_joiner "realm1" false, []) with
  | Ret (j, t) _ =>
      map (fun ev => match ev with JGot _ (Ok _) | JHello (Ok _) => true | _ => false end) (rev t)
        = [false; true; true; false; false; true; false]
      /\ match joiner_details j with
         | Ok d => se_id d = 2 /\ se_authid d = "alice" /\ se_realm d = "realm1" /\ se_authmethod d = "ticket"
         | _ => False end
  | Crash _ => False
  end.
Proof. vm_compute. repeat split; reflexivity. Qed.

(** ** C73: false; these are exactly the messages that crash a joiner. *)
Theorem C73_welcome_refuted : forall c realm static w, ~ readable w ->
  exists why, joiner_run [(c, JSendHello true); (c, JReceive (MWelcome w))] (new_joiner realm static, []) = Crash why.
Proof. exact welcome_crash. Qed.
Theorem C73_challenge_refuted : forall (PL : Platform) (CR : Crypto) authid secret extra realm static ch,
  to_string (mget (ch_extra ch) "salt") <> "" -> ~ (0 <= effective_keylen ch <= kdf_max)%Z ->
  let c := new_wampcra authid secret extra in
  exists why, joiner_run [(c, JSendHello true); (c, JReceive (MChallenge ch))] (new_joiner realm static, []) = Crash why.
Proof. exact @challenge_crash. Qed.
Theorem C73_crashes_exactly_partial : forall realm static ops j t c m,
  joiner_run ops (new_joiner realm static, []) = Ret (j, t) tt ->
  (exists why, joiner_receive c j m = Crash why)
  <-> awaiting t /\ ((exists w, m = MWelcome w /\ ~ readable w)
                     \/ (~ challenged t /\ exists ch why, m = MChallenge ch /\ cl_authenticate c ch = Panic why)).
Proof. exact (fun realm static ops j t c m H => crash_iff realm static ops j t H c m). Qed.
Theorem C73_wampcra_panics_partial : forall (PL : Platform) (CR : Crypto) authid secret extra ch,
  (exists why, cl_authenticate (new_wampcra authid secret extra) ch = Panic why)
  <-> to_string (mget (ch_extra ch) "salt") <> "" /\ ~ (0 <= effective_keylen ch <= kdf_max)%Z.
Proof. exact (fun PL CR authid => @cra_authenticate_panics PL CR). Qed.
Theorem C73_others_never_panic_partial : forall (CR : Crypto) authid extra ticket priv c ch why,
  c = new_anonymous authid extra \/ c = new_ticket authid ticket extra
    \/ new_cryptosign authid priv extra = Ok c ->
  cl_authenticate c ch <> Panic why.
Proof. exact @others_no_panic. Qed.
Example C73_ex :
  ~ readable (Welcome 1 (Some [("authid", VStr "alice"); ("authrole", VNil)]))
  /\ readable (Welcome 1 (Some [("authid", VStr "alice"); ("authrole", VStr "")]))
  /\ effective_keylen (PL := amd64) (Challenge "wampcra" (Some [("salt", VStr "s"); ("keylen", VInt KInt (-1))])) = (-1)%Z
  /\ effective_keylen (PL := amd64) (Challenge "wampcra" (Some [("salt", VStr "s")])) = 32%Z.
Proof.
  split; [intros (i & r & _ & H); discriminate H|]. split; [by do 2 eexists|]. by split.
Qed.

(** ** C74 *)
Theorem C74_anonymous : forall (PL : Platform) (CR : Crypto) authid extra realm static static' e r,
  mAnonymous ∈ av_methods e ->
  (forall x, av_answer e (Request mAnonymous realm authid x RBase) = Approve r) ->
  av_session e < 2 ^ 64 ->
  handshake_short (new_anonymous authid extra) realm static static' e mAnonymous r.
Proof. exact @anonymous_agrees. Qed.
Theorem C74_ticket : forall (PL : Platform) (CR : Crypto) authid ticket extra realm static static' e e' r,
  mTicket ∈ av_methods e ->
  (forall x, av_answer e' (Request mTicket realm authid x (RTicket ticket)) = Approve r) ->
  av_session e' < 2 ^ 64 ->
  handshake_long (new_ticket authid ticket extra) realm static static' e e' mTicket r.
Proof. exact @ticket_agrees. Qed.
Theorem C74_wampcra : forall (PL : Platform) (CR : Crypto) authid secret extra realm static static' e e' r k nonce,
  mWAMPCRA ∈ av_methods e ->
  (forall x, av_answer e (Request mWAMPCRA realm authid x RBase) = Approve r) ->
  rs_cra r = Some k -> cra_secret k = secret ->
  (cra_salt k = "" \/ (fits KInt (cra_iterations k) /\ fits KInt (cra_keylen k)
                        /\ (0 <= cra_keylen k <= kdf_max)%Z)) ->
  av_nonce e = Some nonce -> av_session e' < 2 ^ 64 ->
  handshake_long (new_wampcra authid secret extra) realm static static' e e' mWAMPCRA r.
Proof. exact @wampcra_agrees. Qed.
Theorem C74_cryptosign : forall (PL : Platform) (CR : Crypto) authid priv seed extra realm static static' e e' r raw,
  mCryptoSign ∈ av_methods e -> hex_denotes priv seed -> String.length seed = 32%nat ->
  (mget extra "pubkey" = VNil \/ mget extra "pubkey" = VStr (hex_encode (ed_public seed))) ->
  (forall x, av_answer e (Request mCryptoSign realm authid x (RCryptoSign (hex_encode (ed_public seed))))
             = Approve r) ->
  av_challenge e = Some raw -> String.length raw = 32%nat -> av_session e' < 2 ^ 64 ->
  exists c, new_cryptosign authid priv extra = Ok c
    /\ handshake_long c realm static static' e e' mCryptoSign r.
Proof. exact @cryptosign_agrees. Qed.
(** The example environment meets the hypotheses for all four. *)
Example C74_ex :
  (forall x, av_answer toy_env (Request "anonymous" "r" "a" x RBase) = Approve (Response "nobody" "guest" None))
  /\ (forall x, av_answer toy_env (Request "ticket" "r" "a" x (RTicket "open sesame")) = Approve (Response "alice" "user" None))
  /\ (forall x, av_answer toy_env (Request "wampcra" "r" "a" x RBase) = Approve toy_cra)
  /\ (forall x, av_answer toy_env (Request "cryptosign" "r" "a" x (RCryptoSign (hex_encode (ed_public (Crypto := toy) toy_seed))))
        = Approve (Response "alice" "admin" None))
  /\ hex_denotes toy_pub toy_seed.
Proof.
  repeat split; try (intros x; vm_compute; reflexivity). apply hex_decode_iff. vm_compute. reflexivity.
Qed.
(** A JSON transport of a HELLO and of a WELCOME. *)
Example C74_ex_wire :
  Forall2 wire (marshal (MHello (Hello "r" "a" (Some ["ticket"]) None (Some []))))
    [VF64 (FFin 1 0); VStr "r";
     VMap (Some [("roles", VMap (Some [])); ("authid", VStr "a"); ("authextra", VMap (Some []));
                 ("authmethods", VSlice (Some [VStr "ticket"]))])]
  /\ wire (VMethod "ticket") (VStr "ticket") /\ wire (VInt KInt 1000) (VF64 (FFin 125 3)).
Proof.
  split; [|split; repeat constructor; discriminate].
  cbn [marshal]. constructor; [apply w_int_float; [discriminate|reflexivity]|].
  constructor; [constructor|]. constructor; [|constructor]. constructor. intros k. cbn [assoc].
  repeat match goal with |- context [String.eqb k ?s] => destruct (String.eqb_spec k s); [subst k; cbn|] end;
    repeat constructor.
Qed.

(** ** C75 *)
Theorem C75_zone_suffix : forall t off, (- 360000 < off < 360000)%Z ->
  exists suffix, iso8601 t off = t ++ suffix /\ zone_suffix suffix off.
Proof. exact iso8601_suffix. Qed.
Example C75_ex : iso8601 "T" 0 = "TZ" /\ iso8601 "T" (-12600) = "T-0330" /\ iso8601 "T" 20700 = "T+0545".
Proof. repeat split; vm_compute; reflexivity. Qed.

(** ** C79: true except that a key of the wrong length panics. *)
Theorem C79_accepts_partial : forall (CR : Crypto) authid priv extra seed,
  hex_denotes priv seed -> String.length seed = 32%nat ->
  (mget extra "pubkey" = VNil \/ mget extra "pubkey" = VStr (hex_encode (ed_public seed))) ->
  exists c, new_cryptosign authid priv extra = Ok c
    /\ cl_method c = "cryptosign" /\ cl_authid c = authid
    /\ mget (cl_authextra c) "pubkey" = VStr (hex_encode (ed_public seed))
    /\ (forall k, k <> "pubkey" -> mget (cl_authextra c) k = mget extra k)
    /\ cl_authextra c <> None
    /\ cl_authenticate c = cryptosign_authenticate seed (cl_authextra c).
Proof. exact @new_cryptosign_ok. Qed.
Theorem C79_rejects_partial : forall (CR : Crypto) authid priv extra,
  (~ exists seed, hex_denotes priv seed)
  \/ (exists seed v, hex_denotes priv seed /\ String.length seed = 32%nat
        /\ mget extra "pubkey" = VStr v /\ v <> hex_encode (ed_public seed)) ->
  exists e, new_cryptosign authid priv extra = Err e.
Proof. exact @new_cryptosign_rejects. Qed.
Theorem C79_wrong_length_refuted : forall (CR : Crypto) authid extra, exists priv w,
  new_cryptosign authid priv extra = Panic w.
Proof.
  intros CR authid extra. exists "00ff". apply new_cryptosign_panics.
  exists (String "000" (String "255" "")). split; [|discriminate]. apply hex_decode_iff. vm_compute. reflexivity.
Qed.
Theorem C79_panics_exactly_partial : forall (CR : Crypto) authid priv extra,
  (exists w, new_cryptosign authid priv extra = Panic w) <->
  exists seed, hex_denotes priv seed /\ String.length seed <> 32%nat.
Proof. exact @new_cryptosign_panics. Qed.
Example C79_ex :
  (exists c, new_cryptosign (CR := toy) "a" toy_pub None = Ok c)
  /\ (exists e, new_cryptosign (CR := toy) "a" toy_pub (Some [("pubkey", VStr "00")]) = Err e)
  /\ (exists e, new_cryptosign (CR := toy) "a" "xyz" None = Err e)
  /\ (exists w, new_cryptosign (CR := toy) "a" "00ff" None = Panic w).
Proof. repeat split; eexists; vm_compute; reflexivity. Qed.

(** ** C80 *)
Theorem C80_key_pair_works : forall (CR : Crypto) seed pub priv authid extra,
  String.length seed = 32%nat -> generate_key_pair (Some seed) = Ok (pub, priv) ->
  mget extra "pubkey" = VNil ->
  exists c key, new_cryptosign authid priv extra = Ok c
    /\ mget (cl_authextra c) "pubkey" = VStr pub
    /\ hex_denotes pub key
    /\ forall chal ch raw, mget (ch_extra chal) "challenge" = VStr ch ->
         hex_denotes ch raw -> String.length raw = 32%nat ->
         exists a, cl_authenticate c chal = Ok a /\ au_extra a = cl_authextra c
           /\ verify_cryptosign (au_signature a) key = true.
Proof. exact @key_pair_works. Qed.
Example C80_ex : generate_key_pair (CR := toy) (Some toy_seed) = Ok (toy_pub, toy_pub)
  /\ String.length toy_seed = 32%nat.
Proof. split; vm_compute; reflexivity. Qed.

(** ** C81 *)
Theorem C81_nonce_in_challenge : forall n1 n2 now1 now2 id1 id2 a1 a2 r1 r2 p1 p2 ch,
  generate_cra_challenge (Some n1) now1 id1 a1 r1 p1 = Ok ch ->
  generate_cra_challenge (Some n2) now2 id2 a2 r2 p2 = Ok ch ->
  n1 = n2 /\ json_string a1 = json_string a2 /\ json_string r1 = json_string r2.
Proof. exact @challenge_nonce. Qed.
Example C81_ex :
  generate_cra_challenge (Some "n") "t" 5 "alice" "a<b" "dynamic"
  = Ok "{""authid"":""alice"",""authmethod"":""wampcra"",""authprovider"":""dynamic"",""authrole"":""a\u003cb"",""nonce"":""bg=="",""session"":5,""timestamp"":""t""}".
Proof. vm_compute. reflexivity. Qed.

(** * Assumptions *)
Print Assumptions C62_first_allowed.
Print Assumptions C62_fails_iff_none.
Print Assumptions C63_within_list_partial.
Print Assumptions C63_empty_proposal_refuted.
Print Assumptions C63_unproposed_session_refuted.
Print Assumptions C64_own_signature.
Print Assumptions C64_accepted_iff_hmac.
Print Assumptions C64_client_accepted.
Print Assumptions C65_canonical_unique_partial.
Print Assumptions C65_line_break_refuted.
Print Assumptions C66_own_signature.
Print Assumptions C66_accepted_iff_opens.
Print Assumptions C67_replay_refuted.
Print Assumptions C68_welcome_warranted.
Print Assumptions C69_details.
Print Assumptions C69_once.
Print Assumptions C69_deaf_afterwards.
Print Assumptions C69_receive_flag.
Print Assumptions C70_never_panics_partial.
Print Assumptions C70_keylen_refuted.
Print Assumptions C71_second_ticket_refuted.
Print Assumptions C71_new_grounds_partial.
Print Assumptions C72_welcome_accepted_iff.
Print Assumptions C72_welcome_refused.
Print Assumptions C72_challenge_accepted_iff.
Print Assumptions C72_challenge_refused.
Print Assumptions C72_other_refused.
Print Assumptions C72_details.
Print Assumptions C73_welcome_refuted.
Print Assumptions C73_challenge_refuted.
Print Assumptions C73_crashes_exactly_partial.
Print Assumptions C73_wampcra_panics_partial.
Print Assumptions C73_others_never_panic_partial.
Print Assumptions C74_anonymous.
Print Assumptions C74_ticket.
Print Assumptions C74_wampcra.
Print Assumptions C74_cryptosign.
Print Assumptions C75_zone_suffix.
Print Assumptions C79_accepts_partial.
Print Assumptions C79_rejects_partial.
Print Assumptions C79_wrong_length_refuted.
Print Assumptions C79_panics_exactly_partial.
Print Assumptions C80_key_pair_works.
Print Assumptions C81_nonce_in_challenge.
