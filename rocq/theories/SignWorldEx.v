(** Runs of cryptosign handshakes: an honest one, and one recorded signature that
    opens two servers.  The cryptography is arbitrary. *)
From Verif Require Import Prelude Value Msg IdGen Types Encoding Auth Acceptor Joiner AuthSpec
  EncodingFacts AuthProofs AcceptorProofs JoinerProofs AuthEx AuthWorld AuthWorldProofs SignWorld SignWorldProofs.

Local Open Scope string_scope.
Local Open Scope list_scope.

Local Ltac in_cases H := repeat (apply elem_of_cons in H as [H|H]; [try discriminate H|]);
  try (by apply elem_of_nil in H).

Definition bytes_u : string := "uuuuuuuuuuuuuuuuuuuuuuuuuuuuuuuu".
Definition bytes_a : string := "aaaaaaaaaaaaaaaaaaaaaaaaaaaaaaaa".
Definition bytes_b : string := "bbbbbbbbbbbbbbbbbbbbbbbbbbbbbbbb".
Definition sign_challenge (b : string) : challenge :=
  Challenge "cryptosign" (Some [("challenge", VStr (hex_encode b))]).
Definition sign_env (b : option string) : aenv :=
  AEnv ["cryptosign"] (fun _ => Approve (Response "alice" "user" None)) 77 5 None "now" b.

Section ex.
Context {CR : Crypto}.

Definition my_key : string := ed_public toy_seed.
Definition my_extra : gomap := Some [("pubkey", VStr (hex_encode my_key))].
Definition one_signer : nat -> signer := fun _ =>
  Signer "alice" (hex_encode toy_seed) None
    (Client "cryptosign" "alice" my_extra (cryptosign_authenticate toy_seed my_extra)) "home" false.
Definition my_hello : hello := Hello "home" "alice" (Some ["cryptosign"]) my_extra client_roles.
Definition my_signature (u : string) : authenticate :=
  Authenticate (hex_encode (ed_sign toy_seed u) ++ hex_encode u)%string my_extra.

Lemma one_genuine j : genuine (one_signer j).
Proof.
  unfold genuine, one_signer, new_cryptosign. cbn [sg_authid sg_private sg_extra sg_client].
  rewrite hex_decode_encode. reflexivity.
Qed.
Lemma my_key_text : String.eqb (hex_encode my_key) "" = false.
Proof.
  apply String.eqb_neq. intros E. apply (f_equal String.length) in E.
  rewrite hex_encode_length in E. unfold my_key in E. rewrite ed_public_length in E. discriminate E.
Qed.

(** * Single steps *)

Definition my_request : request := Request "cryptosign" "home" "alice" my_extra (RCryptoSign (hex_encode my_key)).
Definition asked_in : list aevent :=
  [ACalled (AAsked my_request (Approve (Response "alice" "user" None)));
   ACalled (AMethods ["cryptosign"]); AGot (MHello my_hello)].
Definition my_welcome : welcome := Welcome (generate_id 77) (Some
  [("realm", VStr "home"); ("roles", VMap router_roles); ("authid", VStr "alice");
   ("authrole", VStr "user"); ("authmethod", VMethod "cryptosign"); ("authextra", VMap my_extra)]).
Definition after_ask (b : string) : acceptor :=
  Acceptor AChallengeSent false "cryptosign" (Some my_hello) (Some my_request)
    (Some (Response "alice" "user" None)) (hex_encode b) None.

Lemma step_ask b : acceptor_step (sign_env (Some b)) (MHello my_hello) (new_acceptor false, [])
  = Ret (after_ask b, AMade (Ok (MChallenge (sign_challenge b))) :: asked_in) tt.
Proof.
  unfold acceptor_step, acceptor_receive. cbn [fst snd ac_state new_acceptor].
  rewrite bool_decide_eq_false_2 by discriminate. unfold receive_hello. cbn [ac_state new_acceptor].
  change (select_auth_method _ _) with (Ok (A := string) "cryptosign").
  change (mget (he_authextra my_hello) "pubkey") with (VStr (hex_encode my_key)).
  cbn [String.eqb Ascii.eqb Bool.eqb mAnonymous mTicket mWAMPCRA mCryptoSign].
  rewrite my_key_text. reflexivity.
Qed.
Lemma step_prove b u : String.length u = 32%nat -> exists a w,
  acceptor_step (sign_env None) (MAuthenticate (my_signature u)) (after_ask b, [])
  = Ret (a, [AMade (Ok (MWelcome w)); AGot (MAuthenticate (my_signature u))]) tt
  /\ mget (we_details w) "authmethod" = VMethod "cryptosign".
Proof.
  intros Hl. unfold acceptor_step, acceptor_receive. cbn [fst snd after_ask ac_state].
  rewrite bool_decide_eq_false_2 by discriminate. unfold receive_authenticate.
  cbn [after_ask ac_state ac_method ac_request my_request au_signature my_signature].
  change (String.eqb "cryptosign" mTicket) with false. change (String.eqb "cryptosign" mWAMPCRA) with false.
  change (String.eqb "cryptosign" mCryptoSign) with true. cbv iota beta. rewrite hex_decode_encode.
  destruct (cryptosign_accepted toy_seed (hex_encode u) u eq_refl) as (s & Hs & _ & Hv); [|done|].
  { apply hex_decode_iff, hex_decode_encode. }
  unfold sign_cryptosign in Hs. rewrite hex_decode_encode in Hs. injection Hs as <-.
  unfold my_key. rewrite Hv. do 2 eexists. split; reflexivity.
Qed.
Lemma step_sign j u : exists x,
  joiner_step (sg_client (one_signer j)) (JReceive (MChallenge (sign_challenge u)))
    (Joiner JHelloSent "home" false None, [])
  = Ret (x, [JGot (MChallenge (sign_challenge u)) (Ok (Some (MAuthenticate (my_signature u))))]) tt.
Proof.
  unfold joiner_step. cbn [fst snd]. rewrite challenge_cases. cbn [jn_state one_signer sg_client cl_authenticate].
  unfold cryptosign_authenticate.
  change (to_string (mget (ch_extra (sign_challenge u)) "challenge")) with (hex_encode u).
  unfold sign_cryptosign. rewrite hex_decode_encode. eexists. reflexivity.
Qed.

Lemma go_server people i e m ops w a t (P : world -> Prop) :
  acceptor_step e m (wo_servers w i, []) = Ret (a, t) tt ->
  (exists w', sign_run people ops (World (put (wo_servers w) i a) (wo_users w)
                (map (AtServer i) t ++ wo_trace w)) = Ret w' tt /\ P w') ->
  exists w', sign_run people (OServer i e m :: ops) w = Ret w' tt /\ P w'.
Proof. intros H HR. cbn [sign_run sign_step]. rewrite H. exact HR. Qed.
Lemma go_user people j o ops w u t (P : world -> Prop) :
  joiner_step (sg_client (people j)) o (wo_users w j, []) = Ret (u, t) tt ->
  (exists w', sign_run people ops (World (wo_servers w) (put (wo_users w) j u)
                (map (AtUser j) t ++ wo_trace w)) = Ret w' tt /\ P w') ->
  exists w', sign_run people (OUser j o :: ops) w = Ret w' tt /\ P w'.
Proof. intros H HR. cbn [sign_run sign_step]. rewrite H. exact HR. Qed.

(** * The rules hold *)

Lemma my_announce : announces my_hello my_key.
Proof.
  exists (hex_encode my_key), my_key. split; [reflexivity|].
  split; [apply hex_decode_iff, hex_decode_encode|].
  rewrite <- (pad_key_id my_key) at 2 by apply ed_public_length. apply pad_key_spec.
Qed.
Lemma my_signing j u : key_signing one_signer my_key u
  (AtUser j (JGot (MChallenge (sign_challenge u)) (Ok (Some (MAuthenticate (my_signature u)))))).
Proof.
  exists j, (sign_challenge u), (my_signature u), (hex_encode u). split; [done|]. split.
  - exists toy_seed. split; [apply hex_decode_iff, hex_decode_encode|reflexivity].
  - split; [reflexivity|apply hex_decode_iff, hex_decode_encode].
Qed.
Lemma app_eq_length (a b c d : string) : (a ++ b)%string = (c ++ d)%string -> String.length a = String.length c -> b = d.
Proof.
  revert c. induction a as [|x a IH]; intros [|y c] E L; try discriminate L; [exact E|].
  cbn in E. injection E as _ E. apply (IH c E). by injection L.
Qed.
Lemma my_signature_of u pub msg : signed_text (au_signature (my_signature u)) pub msg -> msg = u.
Proof.
  intros (s & Hd & Hs & _ & _). apply hex_decode_iff in Hd. cbn [my_signature au_signature] in Hd.
  rewrite (hex_decode_app _ _ _ _ (hex_decode_encode _) (hex_decode_encode u)) in Hd. injection Hd as Hd.
  symmetry in Hd. apply app_eq_length in Hd; [exact Hd|]. by rewrite Hs, ed_sign_length.
Qed.
Lemma my_unforged u t :
  (forall new i au past, t = new ++ AtServer i (AGot (MAuthenticate au)) :: past ->
     au = my_signature u /\ exists j,
       AtUser j (JGot (MChallenge (sign_challenge u)) (Ok (Some (MAuthenticate (my_signature u))))) ∈ past) ->
  unforged_signatures one_signer (eq my_key) t.
Proof.
  intros H new i au past pub msg E <- Hs. destruct (H _ _ _ _ E) as (-> & j & Hin).
  apply my_signature_of in Hs as ->. eexists. split; [exact Hin|apply my_signing].
Qed.

(** * Two runs *)

Definition honest : list wop :=
  [OUser 0 (JSendHello true); OServer 0 (sign_env (Some bytes_a)) (MHello my_hello);
   OUser 0 (JReceive (MChallenge (sign_challenge bytes_a))); OServer 0 (sign_env None) (MAuthenticate (my_signature bytes_a))].
(** The user is given a challenge that no server made. *)
Definition stolen : list wop :=
  [OUser 0 (JSendHello true); OUser 0 (JReceive (MChallenge (sign_challenge bytes_u)));
   OServer 0 (sign_env (Some bytes_a)) (MHello my_hello); OServer 0 (sign_env None) (MAuthenticate (my_signature bytes_u));
   OServer 1 (sign_env (Some bytes_b)) (MHello my_hello); OServer 1 (sign_env None) (MAuthenticate (my_signature bytes_u))].

Definition at_server (i : nat) (b u : string) (w : welcome) : list wevent :=
  [AtServer i (AMade (Ok (MWelcome w))); AtServer i (AGot (MAuthenticate (my_signature u)))].
Definition asked_at (i : nat) (b : string) : list wevent :=
  map (AtServer i) (AMade (Ok (MChallenge (sign_challenge b))) :: asked_in).
Definition signed_at (u : string) : list wevent :=
  [AtUser 0 (JGot (MChallenge (sign_challenge u)) (Ok (Some (MAuthenticate (my_signature u)))))].
Definition hello_at : list wevent := [AtUser 0 (JHello (Ok (MHello my_hello)))].

Lemma honest_run : exists w wl,
  sign_run one_signer honest (sign_init one_signer (fun _ => false)) = Ret w tt
  /\ mget (we_details wl) "authmethod" = VMethod "cryptosign"
  /\ wo_trace w = at_server 0 bytes_a bytes_a wl ++ signed_at bytes_a ++ asked_at 0 bytes_a ++ hello_at.
Proof.
  destruct (step_prove bytes_a bytes_a eq_refl) as (a1 & wl & E1 & Hm). destruct (step_sign 0 bytes_a) as (x & Ex).
  assert (H : exists w, sign_run one_signer honest (sign_init one_signer (fun _ => false)) = Ret w tt
    /\ wo_trace w = at_server 0 bytes_a bytes_a wl ++ signed_at bytes_a ++ asked_at 0 bytes_a ++ hello_at).
  { eapply go_user; [reflexivity|]. eapply go_server; [apply step_ask|].
    eapply go_user; [exact Ex|]. eapply go_server; [exact E1|].
    eexists. split; [reflexivity|]. reflexivity. }
  destruct H as (w & Hr & Ht). by exists w, wl.
Qed.
Lemma stolen_run : exists w wl0 wl1,
  sign_run one_signer stolen (sign_init one_signer (fun _ => false)) = Ret w tt
  /\ mget (we_details wl0) "authmethod" = VMethod "cryptosign"
  /\ mget (we_details wl1) "authmethod" = VMethod "cryptosign"
  /\ wo_trace w = at_server 1 bytes_b bytes_u wl1 ++ asked_at 1 bytes_b
                  ++ at_server 0 bytes_a bytes_u wl0 ++ asked_at 0 bytes_a ++ signed_at bytes_u ++ hello_at.
Proof.
  destruct (step_prove bytes_a bytes_u eq_refl) as (a0 & wl0 & E0 & Hm0).
  destruct (step_prove bytes_b bytes_u eq_refl) as (a1 & wl1 & E1 & Hm1). destruct (step_sign 0 bytes_u) as (x & Ex).
  assert (H : exists w, sign_run one_signer stolen (sign_init one_signer (fun _ => false)) = Ret w tt
    /\ wo_trace w = at_server 1 bytes_b bytes_u wl1 ++ asked_at 1 bytes_b
                  ++ at_server 0 bytes_a bytes_u wl0 ++ asked_at 0 bytes_a ++ signed_at bytes_u ++ hello_at).
  { eapply go_user; [reflexivity|]. eapply go_user; [exact Ex|]. eapply go_server; [apply step_ask|].
    eapply go_server; [exact E0|]. eapply go_server; [apply step_ask|]. eapply go_server; [exact E1|].
    eexists. split; [reflexivity|]. reflexivity. }
  destruct H as (w & Hr & Ht). by exists w, wl0, wl1.
Qed.

Lemma text_inv u ch : text_of (sign_challenge u) ch -> hex_denotes ch u.
Proof.
  intros H. assert (Hx : VStr (hex_encode u) = VStr ch) by exact H. injection Hx as <-.
  apply hex_decode_iff, hex_decode_encode.
Qed.
Lemma text_fun u u' ch : text_of (sign_challenge u) ch -> text_of (sign_challenge u') ch -> u = u'.
Proof.
  intros H1%text_inv H2%text_inv. apply hex_decode_iff in H1, H2. rewrite H1 in H2. by injection H2.
Qed.

Lemma honest_ok : exists w wl,
  (forall j, genuine (one_signer j))
  /\ sign_run one_signer honest (sign_init one_signer (fun _ => false)) = Ret w tt
  /\ fresh_draws honest /\ unforged_signatures one_signer (eq my_key) (wo_trace w)
  /\ AtServer 0 (AMade (Ok (MWelcome wl))) ∈ wo_trace w
  /\ mget (we_details wl) "authmethod" = VMethod "cryptosign"
  /\ key_let_in (wo_trace w) my_key 0.
Proof.
  destruct honest_run as (w & wl & Hr & Hm & Ht). exists w, wl. split; [exact one_genuine|]. split; [done|].
  rewrite Ht. unfold at_server, asked_at, signed_at, hello_at, asked_in. cbn [map app].
  split; [|split; [|split; [apply elem_of_list_here|split; [done|]]]].
  - split.
    + cbn. constructor; [by intros ?%elem_of_nil|constructor].
    + intros pre i e m post b j c ch E Hn Hin _ _. unfold honest in E.
      destruct pre as [|o1 [|o2 [|o3 [|o4 pre]]]]; cbn in E; try discriminate E.
      * injection E as <- <- <- <- _. in_cases Hin.
      * injection E as <- <- <- <- <- <- _. discriminate Hn.
      * injection E as _ _ _ _ E. by destruct pre.
  - apply (my_unforged bytes_a). intros new i au past E.
    destruct new as [|x1 [|x2 new]]; cbn in E; [discriminate E| |].
    + injection E as _ _ <- <-. split; [done|]. exists 0%nat. apply elem_of_list_here.
    + exfalso. injection E as _ _ E.
      do 6 (destruct new as [|? new]; cbn in E; [discriminate E|injection E as _ E]). by destruct new.
  - split; [exists wl; split; [apply elem_of_list_here|done]|].
    intros h Hin. in_cases Hin. injection Hin as ->. apply my_announce.
Qed.

Lemma stolen_twice : exists people statics pub ops w,
  (forall j, genuine (people j))
  /\ sign_run people ops (sign_init people statics) = Ret w tt
  /\ fresh_draws ops /\ unforged_signatures people (eq pub) (wo_trace w)
  /\ key_let_in (wo_trace w) pub 0 /\ key_let_in (wo_trace w) pub 1
  /\ length (hellos (fun _ => true) (wo_trace w)) = 1%nat
  /\ challenges_unseen (wo_trace w).
Proof.
  destruct stolen_run as (w & wl0 & wl1 & Hr & Hm0 & Hm1 & Ht).
  exists one_signer, (fun _ => false), my_key, stolen, w. split; [exact one_genuine|]. split; [exact Hr|].
  rewrite Ht. unfold at_server, asked_at, signed_at, hello_at, asked_in. cbn [map app].
  split; [|split; [|split; [|split; [|split]]]].
  - split.
    + apply (bool_decide_eq_true_1 (NoDup [bytes_a; bytes_b])). vm_compute. reflexivity.
    + intros pre i e m post b j c ch E Hn Hin Hc Hd. unfold stolen in E.
      assert (c = sign_challenge bytes_u /\ (b = bytes_a \/ b = bytes_b)) as [-> Hb].
      { destruct pre as [|o1 [|o2 [|o3 [|o4 [|o5 [|o6 pre]]]]]]; cbn in E; try discriminate E.
        - injection E as <- <- <- <- <- _. injection Hn as <-. in_cases Hin. injection Hin as _ ->. eauto.
        - injection E as <- <- <- <- <- <- _. discriminate Hn.
        - injection E as <- <- <- <- <- <- <- _. injection Hn as <-. in_cases Hin. injection Hin as _ ->. eauto.
        - injection E as <- <- <- <- <- <- <- <- _. discriminate Hn.
        - injection E as _ _ _ _ _ _ E. by destruct pre. }
      apply text_inv, hex_decode_iff in Hc. apply hex_decode_iff in Hd. rewrite Hc in Hd.
      injection Hd as <-. destruct Hb as [Hb|Hb]; discriminate Hb.
  - apply (my_unforged bytes_u). intros new i au past E.
    assert (Hx : forall l1 l2 : list wevent, l1 ++ signed_at bytes_u ++ l2 = past -> exists j,
       AtUser j (JGot (MChallenge (sign_challenge bytes_u)) (Ok (Some (MAuthenticate (my_signature bytes_u))))) ∈ past).
    { intros l1 l2 <-. exists 0%nat. apply elem_of_app. right. apply elem_of_list_here. }
    destruct new as [|x1 [|x2 new]]; cbn in E; [discriminate E| |].
    + injection E as _ _ <- E. split; [done|]. eapply Hx.
      rewrite <- E. exact (eq_refl : (asked_at 1 bytes_b ++ at_server 0 bytes_a bytes_u wl0 ++ asked_at 0 bytes_a)
         ++ signed_at bytes_u ++ hello_at = _).
    + injection E as _ _ E.
      do 5 (destruct new as [|? new]; cbn in E; [discriminate E|injection E as _ E]).
      destruct new as [|? new]; cbn in E.
      * injection E as _ <- E. split; [done|]. eapply Hx.
        rewrite <- E. exact (eq_refl : asked_at 0 bytes_a ++ signed_at bytes_u ++ hello_at = _).
      * exfalso. injection E as _ E.
        do 6 (destruct new as [|? new]; cbn in E; [discriminate E|injection E as _ E]). by destruct new.
  - split; [exists wl0; split; [do 6 apply elem_of_list_further; apply elem_of_list_here|done]|].
    intros h Hin. in_cases Hin; injection Hin as ->; apply my_announce.
  - split; [exists wl1; split; [apply elem_of_list_here|done]|].
    intros h Hin. in_cases Hin; injection Hin as ->; apply my_announce.
  - reflexivity.
  - intros i j c c' ch r Hin Hin' Hc Hc'.
    assert (c' = sign_challenge bytes_u) as ->. { in_cases Hin'. by injection Hin' as _ -> _. }
    assert (c = sign_challenge bytes_a \/ c = sign_challenge bytes_b) as [->| ->].
    { in_cases Hin; injection Hin as _ ->; eauto. }
    all: pose proof (text_fun _ _ _ Hc Hc') as E; discriminate E.
Qed.
End ex.
