(** The announced features, and the rest of the session details. *)
From Verif Require Import Prelude Value Msg IdGen Types Encoding Auth Acceptor Joiner BaseSpec WireSpec
  MsgSpec MsgWire AuthSpec AcceptorProofs JoinerProofs HandshakeSpec HandshakeProofs FeatureSpec.

Local Open Scope string_scope.
Local Open Scope N_scope.

(** * The two tables *)

Lemma elem_cons_pair (r f r0 f0 : string) l : (r, f) ∈ (r0, f0) :: l <-> (r = r0 /\ f = f0) \/ (r, f) ∈ l.
Proof.
  rewrite elem_of_cons. split; [intros [[= -> ->]|H]; tauto|intros [[-> ->]|H]; tauto].
Qed.

Lemma client_announces : announces_exactly client_roles client_role_names client_features.
Proof.
  split.
  - intros r. unfold has_role, client_role_names. rewrite !elem_of_cons, elem_of_nil. split.
    + intros (m & fs & E & _). unfold client_roles, mget in E. cbn [assoc] in E.
      repeat match type of E with context [String.eqb ?a ?b] => destruct (String.eqb_spec a b); [subst; tauto|] end.
      discriminate E.
    + intros [->|[->|[->|[->|[]]]]]; eexists _, _; split; reflexivity.
  - intros r f. unfold announces, client_features. rewrite !elem_cons_pair, elem_of_nil. split.
    + intros (m & fs & E & E2 & E3). unfold client_roles, mget in E. cbn [assoc] in E.
      repeat match type of E with
      | context [String.eqb ?a ?b] => destruct (String.eqb_spec a b) as [->|?];
          [injection E as <-; cbn in E2; injection E2 as <-; unfold mget in E3; cbn [assoc map] in E3;
           repeat match type of E3 with
           | context [String.eqb ?c ?d] => destruct (String.eqb_spec c d) as [Ef|?];
               [rewrite Ef; clear; repeat first [left; split; reflexivity|right]; fail|] end;
           discriminate E3|]
      end.
      discriminate E.
    + intros H. destruct_or! H; try destruct H as [-> ->]; try tauto; eexists _, _; repeat split; reflexivity.
Qed.

Lemma router_announces : announces_exactly router_roles router_role_names router_features.
Proof.
  split.
  - intros r. unfold has_role, router_role_names. rewrite !elem_of_cons, elem_of_nil. split.
    + intros (m & fs & E & _). unfold router_roles, mget in E. cbn [assoc] in E.
      repeat match type of E with context [String.eqb ?a ?b] => destruct (String.eqb_spec a b); [subst; tauto|] end.
      discriminate E.
    + intros [->|[->|[]]]; eexists _, _; split; reflexivity.
  - intros r f. unfold announces, router_features. rewrite !elem_cons_pair, elem_of_nil. split.
    + intros (m & fs & E & E2 & E3). unfold router_roles, mget in E. cbn [assoc] in E.
      repeat match type of E with
      | context [String.eqb ?a ?b] => destruct (String.eqb_spec a b) as [->|?];
          [injection E as <-; cbn in E2; injection E2 as <-; unfold mget in E3; cbn [assoc] in E3;
           repeat match type of E3 with
           | context [String.eqb ?c ?d] => destruct (String.eqb_spec c d) as [Ef|?];
               [rewrite Ef; clear; repeat first [left; split; reflexivity|right]; fail|] end;
           discriminate E3|]
      end.
      discriminate E.
    + intros H. destruct_or! H; try destruct H as [-> ->]; try tauto; eexists _, _; repeat split; reflexivity.
Qed.

(** * A serializer keeps what is announced *)

Lemma wire_get_back d d' k m' : wire_map d d' -> mget (Some d') k = VMap (Some m') ->
  exists m, mget (Some d) k = VMap (Some m) /\ wire_map m m'.
Proof.
  intros H E. specialize (H k). unfold mget in *. destruct (assoc k d') as [x|] eqn:E1; [|discriminate E]. subst x.
  inversion H as [v v' Hw E2 E3|]; subst. inversion Hw; subst. eauto.
Qed.
Lemma wire_get_forth d d' k m : wire_map d d' -> mget (Some d) k = VMap (Some m) ->
  exists m', mget (Some d') k = VMap (Some m') /\ wire_map m m'.
Proof.
  intros H E. unfold mget in E. destruct (assoc k d) as [x|] eqn:E1; [|discriminate E]. subst x.
  destruct (wire_get _ _ _ _ H E1) as (v' & E2 & Hw). apply wire_dict in Hw as (m' & -> & Hm). eauto.
Qed.
Lemma wire_get_bool d d' k b : wire_map d d' -> mget (Some d) k = VBool b <-> mget (Some d') k = VBool b.
Proof.
  intros H. specialize (H k). unfold mget. destruct H as [v v' Hw|]; [|done].
  split; intros ->; by inversion Hw.
Qed.
Lemma features_some m fs : mget m "features" = VMap (Some fs) -> exists l, m = Some l.
Proof. destruct m; [eauto|discriminate]. Qed.

Lemma wire_has_role d d' r : wire_map d d' -> has_role (Some d) r <-> has_role (Some d') r.
Proof.
  intros H. split; intros (m & fs & E & E2); destruct (features_some _ _ E2) as [l ->].
  - destruct (wire_get_forth _ _ _ _ H E) as (m' & E' & Hm).
    destruct (wire_get_forth _ _ _ _ Hm E2) as (fs' & E2' & _). by exists (Some m'), fs'.
  - destruct (wire_get_back _ _ _ _ H E) as (m' & E' & Hm).
    destruct (wire_get_back _ _ _ _ Hm E2) as (fs' & E2' & _). by exists (Some m'), fs'.
Qed.
Lemma wire_announces d d' r f : wire_map d d' -> announces (Some d) r f <-> announces (Some d') r f.
Proof.
  intros H. split; intros (m & fs & E & E2 & E3); destruct (features_some _ _ E2) as [l ->].
  - destruct (wire_get_forth _ _ _ _ H E) as (m' & E' & Hm).
    destruct (wire_get_forth _ _ _ _ Hm E2) as (fs' & E2' & Hfs). exists (Some m'), fs'.
    by rewrite <- (wire_get_bool _ _ _ _ Hfs).
  - destruct (wire_get_back _ _ _ _ H E) as (m' & E' & Hm).
    destruct (wire_get_back _ _ _ _ Hm E2) as (fs' & E2' & Hfs). exists (Some m'), fs'.
    by rewrite (wire_get_bool _ _ _ _ Hfs).
Qed.
Lemma wire_exactly d d' rs l : wire_map d d' -> announces_exactly (Some d) rs l -> announces_exactly (Some d') rs l.
Proof.
  intros H [H1 H2]. split.
  - intros r. by rewrite <- (wire_has_role _ _ _ H).
  - intros r f. by rewrite <- (wire_announces _ _ _ _ H).
Qed.

(** * The joiner *)

Lemma joiner_hellos ops : forall s j t,
  (forall h, JHello (Ok (MHello h)) ∈ snd s -> he_roles h = client_roles) ->
  joiner_run ops s = Ret (j, t) tt ->
  forall h, JHello (Ok (MHello h)) ∈ t -> he_roles h = client_roles.
Proof.
  induction ops as [|[c o] ops IH]; intros s j t Hs HR; cbn [joiner_run] in HR.
  - injection HR as ->. exact Hs.
  - destruct (joiner_step c o s) as [s1 []|] eqn:E; [|discriminate HR].
    eapply IH; [|exact HR]. intros h Hh. destruct s as [j0 t0]. destruct o as [ok|m]; cbn [joiner_step fst snd] in *.
    + destruct ok; cbn [send_hello] in E; injection E as <-; cbn [snd] in Hh;
        apply elem_of_cons in Hh as [Eh|Hh]; [injection Eh as ->; reflexivity|by apply Hs|discriminate Eh|by apply Hs].
    + destruct (joiner_receive c j0 m) as [j' r|w]; [|discriminate E]. injection E as <-. cbn [snd] in Hh.
      apply elem_of_cons in Hh as [Eh|Hh]; [discriminate Eh|by apply Hs].
Qed.

Lemma hello_announces {PL : Platform} realm static ops j t h :
  joiner_run ops (new_joiner realm static, []) = Ret (j, t) tt -> JHello (Ok (MHello h)) ∈ t ->
  announces_exactly (he_roles h) client_role_names client_features
  /\ sent (MHello h) (fun m => exists h', m = MHello h'
       /\ announces_exactly (he_roles h') client_role_names client_features).
Proof.
  intros H Hh. assert (he_roles h = client_roles) as E.
  { eapply (joiner_hellos ops _ j t); [|exact H|exact Hh]. cbn. intros h' Hh'. by apply elem_of_nil in Hh'. }
  split; [rewrite E; exact client_announces|]. apply sent_hello. intros h' Hs. exists h'. split; [reflexivity|].
  destruct Hs as (_ & _ & _ & _ & r' & -> & Hr). eapply wire_exactly; [exact Hr|]. rewrite E. exact client_announces.
Qed.

Lemma joiner_rest static ops : forall s j t,
  (jn_static (fst s) = static
   /\ forall d, jn_details (fst s) = Some d -> se_static d = static /\ se_authextra d = Some []
        /\ exists w, last_welcome (snd s) = Some w /\ se_roles d = roles_of w) ->
  joiner_run ops s = Ret (j, t) tt ->
  forall d, joiner_details j = Ok d -> se_static d = static /\ se_authextra d = Some []
        /\ exists w, last_welcome t = Some w /\ se_roles d = roles_of w.
Proof.
  induction ops as [|[c o] ops IH]; intros s j t Hs HR; cbn [joiner_run] in HR.
  - injection HR as ->. destruct Hs as [_ Hs]. intros d Hd. apply Hs. unfold joiner_details in Hd. cbn [fst].
    destruct (jn_details j); [by injection Hd as ->|discriminate Hd].
  - destruct (joiner_step c o s) as [s1 []|] eqn:E; [|discriminate HR].
    eapply IH; [|exact HR]. destruct s as [j0 t0]. destruct o as [ok|m]; cbn [joiner_step fst snd] in *.
    + destruct ok; cbn [send_hello] in E; injection E as <-; exact Hs.
    + destruct (joiner_receive c j0 m) as [j' r|w] eqn:Er; [|discriminate E]. injection E as <-.
      assert (Hq : forall m e, j' = j0 -> r = Err e ->
        jn_static j' = static /\ forall d, jn_details j' = Some d -> se_static d = static /\ se_authextra d = Some []
          /\ exists w, last_welcome (JGot m r :: t0) = Some w /\ se_roles d = roles_of w).
      { intros m0 e -> ->. destruct (quiet m0 (Err e) t0) as (_ & _ & E3); [discriminate|]. rewrite E3. exact Hs. }
      cbn [fst snd]. destruct m as [h|w|a|ch| | | | | | | | | | | | | | | | | | | | ];
        try (cbn [joiner_receive] in Er; injection Er as <- <-; by eapply Hq).
      * cbn [joiner_receive] in Er. destruct (jn_state j0).
        1,4: injection Er as <- <-; by eapply Hq.
        all: destruct (mget (we_details w) "authid"); try discriminate Er;
          destruct (mget (we_details w) "authrole"); try discriminate Er; injection Er as <- <-.
        all: cbn [jn_static jn_details last_welcome]; split; [apply Hs|]; intros d [= <-];
          unfold new_session_details; cbn [se_static se_authextra se_roles or_empty];
          split; [apply Hs|]; split; [reflexivity|]; exists w; split; [reflexivity|];
          unfold roles_of; by destruct (mget (we_details w) "roles") as [ | | | | | | | |[?|]| | ].
      * rewrite challenge_cases in Er. destruct (jn_state j0).
        1,3,4: injection Er as <- <-; by eapply Hq.
        destruct (cl_authenticate c ch) as [a|e|w]; [|injection Er as <- <-; by eapply Hq|discriminate Er].
        injection Er as <- <-. cbn [set_jstate jn_static jn_details last_welcome]. exact Hs.
Qed.

Lemma joiner_reports realm static ops j t d :
  joiner_run ops (new_joiner realm static, []) = Ret (j, t) tt -> joiner_details j = Ok d ->
  se_static d = static /\ se_authextra d = Some []
  /\ exists w, last_welcome t = Some w /\ se_roles d = roles_of w.
Proof.
  intros H. apply (joiner_rest static ops (new_joiner realm static, []) j t); [|exact H].
  cbn. split; [reflexivity|discriminate].
Qed.

(** * The acceptor *)

Section acceptor.
Context {PL : Platform} {CR : Crypto}.

Definition plain (o : outcome acceptor (list acall * res message)) (a : acceptor) (m : message) : Prop :=
  forall a' calls r, o = Ret a' (calls, r) ->
  ac_static a' = ac_static a
  /\ ((forall w, r <> Ok (MWelcome w)) /\ ac_details a' = ac_details a
      \/ exists w d, r = Ok (MWelcome w) /\ mget (we_details w) "roles" = VMap router_roles
           /\ ac_details a' = Some d /\ se_static d = ac_static a /\ se_roles d = router_roles
           /\ se_authextra d = extra_of m).

Lemma plain_welcome a0 a calls id resp extra m : ac_static a0 = ac_static a ->
  or_empty extra = extra_of m -> plain (answered calls (send_welcome a0 id resp extra)) a m.
Proof.
  intros Hs He a' calls' r H. apply answered_spec in H as (_ & msg & H & ->).
  unfold send_welcome in H. destruct (ac_hello a0) as [h|]; [|discriminate H].
  destruct resp as [rsp|]; [|discriminate H]. injection H as <- <-. cbn [ac_static ac_details].
  split; [exact Hs|]. right. eexists _, _. split; [reflexivity|]. split; [reflexivity|]. split; [reflexivity|].
  cbn. split; [exact Hs|]. split; [reflexivity|exact He].
Qed.
Lemma plain_other a0 a calls r m : ac_static a0 = ac_static a -> ac_details a0 = ac_details a ->
  (forall w, r <> Ok (MWelcome w)) -> plain (Ret a0 (calls, r)) a m.
Proof. intros Hs Hd Hr a' calls' r' [= <- <- <-]. split; [exact Hs|]. left. by split. Qed.
Lemma plain_crash why a m : plain (Crash why) a m.
Proof. intros a' calls r H. discriminate H. Qed.

Ltac plain_tac := first [apply plain_crash | apply plain_other; [reflexivity|reflexivity|intros ? ?; discriminate]
  | apply plain_welcome; reflexivity ].

Lemma receive_plain e a m : plain (acceptor_receive e a m) a m.
Proof.
  unfold acceptor_receive. destruct (bool_decide _); [plain_tac|].
  destruct m as [h| | | |au| | | | | | | | | | | | | | | | | | | ]; try plain_tac.
  - unfold receive_hello. destruct (ac_state a); [|plain_tac|plain_tac].
    destruct (select_auth_method _ _) as [m|er|w]; [|plain_tac|plain_tac].
    destruct (String.eqb m mAnonymous).
    { cbv zeta. destruct (av_answer e _); plain_tac. }
    destruct (String.eqb m mTicket); [plain_tac|].
    destruct (String.eqb m mWAMPCRA).
    { cbv zeta. assert (Hc : forall r calls, plain (let '(a', x) := cra_challenge e
         (Acceptor ANone (ac_static a) m (Some h) (ac_request a) (ac_response a) (ac_challenge a) (ac_details a)) r
         in Ret a' (calls, x)) a (MHello h)).
      { intros r calls. unfold cra_challenge. destruct r as [[i ro [c|]]|]; [|plain_tac|plain_tac].
        destruct (generate_cra_challenge _ _ _ _ _ _); plain_tac. }
      destruct (av_answer e _); [apply Hc|plain_tac|apply Hc]. }
    destruct (String.eqb m mCryptoSign); [|plain_tac].
    destruct (mget (he_authextra h) "pubkey"); try plain_tac.
    destruct (String.eqb _ ""); [plain_tac|]. cbv zeta.
    destruct (av_answer e _); [|plain_tac|]; (destruct (generate_cryptosign_challenge _); plain_tac).
  - unfold receive_authenticate. destruct (ac_state a); [plain_tac| |plain_tac].
    destruct (String.eqb (ac_method a) mTicket).
    { destruct (ac_hello a); [|plain_tac]. cbv zeta. destruct (av_answer e _); plain_tac. }
    destruct (String.eqb (ac_method a) mWAMPCRA).
    { destruct (ac_response a) as [[i ro [c|]]|] eqn:Er; [|plain_tac|plain_tac]. cbv zeta.
      destruct (if String.eqb (cra_salt c) "" then _ else _); [|plain_tac|plain_tac].
      destruct (verify_cra _ _ _); plain_tac. }
    destruct (String.eqb (ac_method a) mCryptoSign); [|plain_tac].
    destruct (ac_request a) as [[? ? ? ? []]|]; try plain_tac.
    destruct (hex_decode _); [|plain_tac]. destruct (verify_cryptosign _ _); plain_tac.
Qed.

Definition rest_inv (static : bool) (s : acceptor * list aevent) : Prop :=
  ac_static (fst s) = static
  /\ (forall w, AMade (Ok (MWelcome w)) ∈ snd s -> mget (we_details w) "roles" = VMap router_roles)
  /\ (forall d, ac_details (fst s) = Some d -> se_static d = static /\ se_roles d = router_roles
        /\ exists m, welcomed_by (snd s) = Some m /\ se_authextra d = extra_of m).

Lemma calls_elem calls w m t :
  AMade (Ok (MWelcome w)) ∈ (map ACalled calls ++ AGot m :: t)%list -> AMade (Ok (MWelcome w)) ∈ t.
Proof.
  intros H. apply elem_of_app in H as [H|H].
  - apply elem_of_list_fmap in H as (c & E & _). discriminate E.
  - apply elem_of_cons in H as [E|H]; [discriminate E|exact H].
Qed.
Lemma calls_by calls m t : welcomed_by (map ACalled calls ++ AGot m :: t)%list = welcomed_by t.
Proof. induction calls as [|c calls IH]; [reflexivity|exact IH]. Qed.
Lemma other_by r t : (forall w, r <> Ok (MWelcome w)) -> welcomed_by (AMade r :: t) = welcomed_by t.
Proof. intros H. destruct r as [[]| |]; try reflexivity. by edestruct H. Qed.
Lemma made_by w calls m t :
  welcomed_by (AMade (Ok (MWelcome w)) :: map ACalled calls ++ AGot m :: t)%list = Some m.
Proof. cbn [welcomed_by]. induction calls as [|c calls IH]; [reflexivity|exact IH]. Qed.

Lemma rest_step static e m s s' x : rest_inv static s -> acceptor_step e m s = Ret s' x -> rest_inv static s'.
Proof.
  intros (H1 & H2 & H3) H. unfold acceptor_step in H.
  destruct (acceptor_receive e (fst s) m) as [a [calls r]|w] eqn:E; [|discriminate H].
  injection H as <- <-. destruct (receive_plain e (fst s) m a calls r E) as (Hs & Hc).
  unfold rest_inv. cbn [fst snd]. split; [congruence|]. destruct Hc as [[Hr Hd]|(w & d & -> & Hw & Hd & Hds & Hdr & Hde)].
  - split.
    + intros w Hin. apply elem_of_cons in Hin as [Ew|Hin]; [injection Ew as Ew; by edestruct Hr|].
      apply H2. by eapply calls_elem.
    + intros d Ed. rewrite Hd in Ed. destruct (H3 d Ed) as (? & ? & m0 & Hm & Hx). split; [done|]. split; [done|].
      exists m0. rewrite other_by by exact Hr. by rewrite calls_by.
  - split.
    + intros w' Hin. apply elem_of_cons in Hin as [Ew|Hin]; [injection Ew as ->; exact Hw|].
      apply H2. by eapply calls_elem.
    + intros d' Ed. rewrite Hd in Ed. injection Ed as <-. split; [congruence|]. split; [done|].
      exists m. by rewrite made_by.
Qed.

Lemma rest_run static ins : forall s s' x, rest_inv static s -> acceptor_run ins s = Ret s' x -> rest_inv static s'.
Proof.
  induction ins as [|[e m] ins IH]; intros s s' x Hi H; cbn [acceptor_run] in H.
  - by injection H as <- <-.
  - destruct (acceptor_step e m s) as [s1 y|w] eqn:E; [|discriminate H].
    eapply IH; [|exact H]. by eapply rest_step.
Qed.
Lemma rest_reach static ins a tr x :
  acceptor_run ins (new_acceptor static, []) = Ret (a, tr) x -> rest_inv static (a, tr).
Proof.
  apply rest_run. split; [reflexivity|]. cbn. split; [|discriminate]. intros w H. by apply elem_of_nil in H.
Qed.

Lemma welcome_announces static ins a tr x w :
  acceptor_run ins (new_acceptor static, []) = Ret (a, tr) x -> AMade (Ok (MWelcome w)) ∈ tr ->
  exists roles, mget (we_details w) "roles" = VMap roles
    /\ announces_exactly roles router_role_names router_features.
Proof.
  intros H Hw. destruct (rest_reach _ _ _ _ _ H) as (_ & H2 & _).
  exists router_roles. split; [by apply H2|exact router_announces].
Qed.

(** Carried by a serializer to a joiner that waits for it. *)
Lemma welcome_tells static ins a tr x w realm jstatic ops j t c :
  acceptor_run ins (new_acceptor static, []) = Ret (a, tr) x -> AMade (Ok (MWelcome w)) ∈ tr ->
  we_session w < two53 ->
  joiner_run ops (new_joiner realm jstatic, []) = Ret (j, t) tt -> awaiting t ->
  sent (MWelcome w) (fun m => exists j' d, joiner_receive c j m = Ret j' (Ok None)
    /\ joiner_details j' = Ok d /\ announces_exactly (se_roles d) router_role_names router_features).
Proof.
  intros H Hw Hid HJ Ha. destruct (rest_reach _ _ _ _ _ H) as (_ & H2 & _). specialize (H2 w Hw).
  destruct (details_after_welcome _ _ _ _ _ H) as [Hag _]. destruct (Hag w Hw) as (d0 & _ & Hd0).
  destruct w as [id d]. cbn [we_session we_details] in *.
  destruct Hd0 as (_ & _ & Hai & Har & _). cbn [we_details] in *. destruct d as [d|]; [|discriminate H2].
  apply sent_welcome; [unfold two53 in Hid; unfold two64; lia|]. intros d' Hd.
  assert (Hget : forall k s, mget (Some d) k = VStr s -> mget (Some d') k = VStr s).
  { intros k s Hk. unfold mget in Hk. destruct (assoc k d) as [y|] eqn:Ey; [|discriminate Hk]. subst y.
    by eapply wire_get_str. }
  destruct (wire_get_forth _ _ _ _ Hd H2) as (r' & Hr' & Hrm).
  assert (Hrd : readable (Welcome id (Some d'))) by (eexists _, _; split; [by apply Hget|by apply Hget]).
  destruct (welcome_cases c j (Welcome id (Some d'))) as (o & E & Hc).
  apply (state_awaiting _ _ _ _ _ HJ) in Ha.
  assert (exists j', joiner_receive c j (MWelcome (Welcome id (Some d'))) = Ret j' (Ok None)) as (j' & Ej).
  { apply (proj2 (welcome_accepted _ _ _ _ _ HJ c _ Hrd)). by apply (state_awaiting _ _ _ _ _ HJ). }
  assert (HJ' : joiner_run (ops ++ [(c, JReceive (MWelcome (Welcome id (Some d'))))]) (new_joiner realm jstatic, [])
    = Ret (j', JGot (MWelcome (Welcome id (Some d'))) (Ok None) :: t) tt).
  { clear -HJ Ej. revert HJ. generalize (new_joiner realm jstatic, @nil jevent).
    induction ops as [|[c0 o0] ops IH]; intros s HJ; cbn [joiner_run app] in *.
    - injection HJ as ->. cbn [joiner_step fst snd]. by rewrite Ej.
    - destruct (joiner_step c0 o0 s) as [s1 []|]; [|discriminate HJ]. by apply IH. }
  pose proof (details_of_last_welcome _ _ _ _ _ HJ') as Hl. cbn [last_welcome] in Hl.
  destruct Hl as (dd & Edd & _). exists j', dd. split; [exact Ej|]. split; [exact Edd|].
  destruct (joiner_reports _ _ _ _ _ _ HJ' Edd) as (_ & _ & w' & Ew & Hroles). cbn [last_welcome] in Ew.
  injection Ew as <-. unfold roles_of in Hroles. cbn [we_details] in Hroles. rewrite Hr' in Hroles. rewrite Hroles.
  eapply wire_exactly; [exact Hrm|exact router_announces].
Qed.

Lemma acceptor_reports static ins a tr x d :
  acceptor_run ins (new_acceptor static, []) = Ret (a, tr) x -> acceptor_details a = Ok d ->
  se_static d = static
  /\ announces_exactly (se_roles d) router_role_names router_features
  /\ exists m, welcomed_by tr = Some m /\ se_authextra d = extra_of m.
Proof.
  intros H Hd. destruct (rest_reach _ _ _ _ _ H) as (_ & _ & H3). unfold acceptor_details in Hd. cbn [fst snd] in H3.
  destruct (ac_details a) as [d'|] eqn:Ea; [|discriminate Hd]. injection Hd as ->.
  destruct (H3 d eq_refl) as (? & E & ?). split; [done|]. split; [rewrite E; exact router_announces|done].
Qed.
End acceptor.
