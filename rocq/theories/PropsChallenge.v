(** C107 to C109: the text of a WAMP-CRA challenge; an acceptor without an
    authenticator. *)
From Verif Require Import Prelude Value Msg IdGen Types Encoding Auth Acceptor AuthSpec
  PathMatchSpec JsonSpec DefaultAuth AcceptorMore Joiner AuthEx.

Local Open Scope string_scope.
Local Open Scope N_scope.

(** ** C107: [text s] says that [s] is UTF-8; anything else is [repaired]. *)
Theorem C107_challenge_is_json : forall (CR : Crypto) e a m a' calls c,
  acceptor_receive e a m = Ret a' (calls, Ok (MChallenge c)) -> ch_method c = "wampcra" ->
  exists h rq r nonce ch i o n t,
    m = MHello h /\ AAsked rq (Approve r) ∈ calls /\ about rq h "wampcra" RBase
    /\ av_nonce e = Some nonce
    /\ mget (ch_extra c) "challenge" = VStr ch
    /\ read_object ch = Some
        [("authid", JStr i); ("authmethod", JStr "wampcra"); ("authprovider", JStr "dynamic");
         ("authrole", JStr o); ("nonce", JStr n); ("session", JNum (generate_id (av_cra_session e)));
         ("timestamp", JStr t)]
    /\ repaired (rs_authid r) i /\ repaired (rs_authrole r) o /\ b64_canonical n nonce
    /\ repaired (av_now e) t.
Proof. exact @challenge_text_reads. Qed.
Theorem C107_text_unchanged : forall s t, text s -> repaired s t -> t = s.
Proof. exact repaired_text. Qed.
Theorem C107_names_in_challenge : forall n1 n2 now1 now2 id1 id2 a1 a2 r1 r2 p1 p2 ch,
  text a1 -> text a2 -> text r1 -> text r2 ->
  generate_cra_challenge (Some n1) now1 id1 a1 r1 p1 = Ok ch ->
  generate_cra_challenge (Some n2) now2 id2 a2 r2 p2 = Ok ch ->
  a1 = a2 /\ r1 = r2 /\ id1 = id2.
Proof. exact challenge_names. Qed.
(** Quotation marks, markup, control characters, U+2028 and a stray byte. *)
Definition odd_name : string :=
  "a""b\<&>" ++ String (octet 1) (utf8 10 ++ utf8 8232 ++ utf8 8364 ++ String (octet 200) "z").
Example C107_ex :
  (exists ch, generate_cra_challenge (Some "n") "now" 907 odd_name "role" "p" = Ok ch
    /\ option_map (fun l => take 1 l) (read_object ch)
       = Some [("authid", JStr ("a""b\<&>" ++ String (octet 1) (utf8 10 ++ utf8 8232 ++ utf8 8364 ++ utf8 65533 ++ "z")))]
    /\ option_map (fun l => drop 5 l) (read_object ch) = Some [("session", JNum 907); ("timestamp", JStr "now")])
  /\ (exists a' calls c,
        acceptor_receive (CR := toy) toy_env (new_acceptor false) (MHello (toy_hello ["wampcra"]))
        = Ret a' (calls, Ok (MChallenge c)) /\ ch_method c = "wampcra").
Proof.
  split; [eexists; split; [reflexivity|split; vm_compute; reflexivity]|].
  do 3 eexists. split; vm_compute; reflexivity.
Qed.

(** ** C108: false.  The acceptor draws an id for the challenge and another one
    for the session. *)
Definition toy_text : string :=
  match acceptor_receive (CR := toy) toy_env (new_acceptor false) (MHello (toy_hello ["wampcra"])) with
  | Ret _ (_, Ok (MChallenge c)) => to_string (mget (ch_extra c) "challenge")
  | _ => ""
  end.
Theorem C108_session_refuted : exists (CR : Crypto) e h sig a1 c ch l id calls a2 w,
  acceptor_receive e (new_acceptor false) (MHello h) = Ret a1 (calls, Ok (MChallenge c))
  /\ mget (ch_extra c) "challenge" = VStr ch /\ read_object ch = Some l /\ ("session", JNum id) ∈ l
  /\ acceptor_receive e a1 (MAuthenticate (Authenticate sig None)) = Ret a2 ([], Ok (MWelcome w))
  /\ we_session w <> id.
Proof.
  exists toy, toy_env, (toy_hello ["wampcra"]), (sign_cra (CR := toy) toy_text (b64_encode "salt+secret")).
  eexists _, _, _, _, _, _, _, _.
  split; [vm_compute; reflexivity|]. split; [vm_compute; reflexivity|].
  split; [vm_compute; reflexivity|]. split; [do 5 right; left|].
  split; [vm_compute; reflexivity|]. discriminate.
Qed.
(** What holds: the WELCOME carries the id drawn when it is made, the challenge
    (C107) the one drawn for the challenge. *)
Theorem C108_drawn_partial : forall (CR : Crypto) e a m a' calls w,
  acceptor_receive e a m = Ret a' (calls, Ok (MWelcome w)) -> we_session w = generate_id (av_session e).
Proof. exact @welcome_id. Qed.

(** ** C109 *)
Theorem C109_anonymous_only : forall (CR : Crypto) static ins a tr x e m,
  Forall (fun em => default_env (fst em)) ins -> default_env e ->
  acceptor_run ins (new_acceptor static, []) = Ret (a, tr) x ->
  exists a' calls r, acceptor_receive e a m = Ret a' (calls, r) /\ default_reply tr m r.
Proof. exact @default_replies. Qed.
(** A client that proposes other methods is refused, may try again, and gets its
    session; then the acceptor is deaf. *)
Definition plain_env : aenv := AEnv default_methods default_answer 77 5 None "" None.
Definition plain_hello (ms : option (list string)) : hello := Hello "realm1" "mallory" ms None client_roles.
Example C109_ex : default_env plain_env
  /\ ~ wants_anonymous (plain_hello (Some ["ticket"])) /\ wants_anonymous (plain_hello None)
  /\ exists a tr, acceptor_run (CR := toy)
       [(plain_env, MHello (plain_hello (Some ["ticket"]))); (plain_env, auth_msg "x");
        (plain_env, MHello (plain_hello (Some ["ticket"; "anonymous"]))); (plain_env, MHello (plain_hello None))]
       (new_acceptor false, []) = Ret (a, tr) tt
     /\ rev (flat_map made_of tr) = [Aborted; Failed; Welcomed "anonymous"; Failed].
Proof.
  split; [done|]. split; [|split; [by left|]].
  - intros [H|H]; [done|]. by apply elem_of_list_singleton in H.
  - do 2 eexists. split; vm_compute; reflexivity.
Qed.

(** * Assumptions *)
Print Assumptions C107_challenge_is_json.
Print Assumptions C107_text_unchanged.
Print Assumptions C107_names_in_challenge.
Print Assumptions C108_session_refuted.
Print Assumptions C108_drawn_partial.
Print Assumptions C109_anonymous_only.
