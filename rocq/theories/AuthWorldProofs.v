(** Invariants of many concurrent handshakes, and WAMP-CRA agreement. *)
From Verif Require Import Prelude Value Msg IdGen Types Encoding Auth Acceptor Joiner AuthSpec
  EncodingFacts AuthProofs AcceptorProofs JoinerProofs AuthWorld.

Local Open Scope string_scope.
Local Open Scope list_scope.

Section world.
Context {PL : Platform} {CR : Crypto}.
Implicit Types (people : nat -> user).

(** * Histories of one server or user *)

Lemma acceptor_run_app ins1 ins2 s : acceptor_run (ins1 ++ ins2) s =
  match acceptor_run ins1 s with Ret s' _ => acceptor_run ins2 s' | Crash w => Crash w end.
Proof.
  revert s. induction ins1 as [|[e m] ins1 IH]; intros s; [done|]. cbn [app acceptor_run].
  destruct (acceptor_step e m s); [apply IH|done].
Qed.
Lemma acceptor_step_app e m a tr a' t x : acceptor_step e m (a, []) = Ret (a', t) x ->
  acceptor_step e m (a, tr) = Ret (a', t ++ tr) tt.
Proof.
  unfold acceptor_step. cbn [fst snd]. destruct (acceptor_receive e a m) as [a1 [calls r]|]; [|done].
  intros [= <- <- _]. cbn [app]. by rewrite <- app_assoc.
Qed.
Lemma joiner_step_app c o j tr j' t x : joiner_step c o (j, []) = Ret (j', t) x ->
  joiner_step c o (j, tr) = Ret (j', t ++ tr) tt.
Proof.
  destruct o as [ok|m]; cbn [joiner_step fst snd].
  - destruct ok; cbn [send_hello]; by intros [= <- <- _].
  - destruct (joiner_receive c j m); [|done]. by intros [= <- <- _].
Qed.

Lemma server_view_app i t1 t2 : server_view i (t1 ++ t2) = server_view i t1 ++ server_view i t2.
Proof. apply omap_app. Qed.
Lemma user_view_app i t1 t2 : user_view i (t1 ++ t2) = user_view i t1 ++ user_view i t2.
Proof. apply omap_app. Qed.
Lemma server_view_own i l : server_view i (map (AtServer i) l) = l.
Proof. induction l as [|e l IH]; [done|]. unfold server_view in *. cbn. by rewrite Nat.eqb_refl, IH. Qed.
Lemma server_view_other i k l : k <> i -> server_view i (map (AtServer k) l) = [].
Proof.
  intros H. induction l as [|e l IH]; [done|]. unfold server_view in *. cbn.
  apply Nat.eqb_neq in H. by rewrite H, IH.
Qed.
Lemma server_view_user i k l : server_view i (map (AtUser k) l) = [].
Proof. by induction l. Qed.
Lemma user_view_own i l : user_view i (map (AtUser i) l) = l.
Proof. induction l as [|e l IH]; [done|]. unfold user_view in *. cbn. by rewrite Nat.eqb_refl, IH. Qed.
Lemma user_view_other i k l : k <> i -> user_view i (map (AtUser k) l) = [].
Proof.
  intros H. induction l as [|e l IH]; [done|]. unfold user_view in *. cbn.
  apply Nat.eqb_neq in H. by rewrite H, IH.
Qed.
Lemma user_view_server i k l : user_view i (map (AtServer k) l) = [].
Proof. by induction l. Qed.

(** An event of one history, found in the whole. *)
Lemma server_view_split i t v1 e v2 : server_view i t = v1 ++ e :: v2 ->
  exists t1 t2, t = t1 ++ AtServer i e :: t2 /\ server_view i t1 = v1 /\ server_view i t2 = v2.
Proof.
  revert v1. induction t as [|x t IH]; intros v1 E; [by destruct v1|].
  destruct x as [k y|k y].
  - destruct (Nat.eqb_spec k i) as [->|Hk].
    + unfold server_view in E. cbn in E. rewrite Nat.eqb_refl in E. destruct v1 as [|y' v1]; cbn in E.
      * injection E as -> E. exists [], t. done.
      * injection E as <- E. destruct (IH v1 E) as (t1 & t2 & -> & <- & E2).
        exists (AtServer i y :: t1), t2. split; [done|]. split; [|done].
        unfold server_view. cbn. by rewrite Nat.eqb_refl.
    + apply Nat.eqb_neq in Hk. unfold server_view in E. cbn in E. rewrite Hk in E.
      destruct (IH v1 E) as (t1 & t2 & -> & <- & E2). exists (AtServer k y :: t1), t2.
      split; [done|]. split; [|done]. unfold server_view. cbn. by rewrite Hk.
  - destruct (IH v1 E) as (t1 & t2 & -> & <- & E2). by exists (AtUser k y :: t1), t2.
Qed.
Lemma server_view_in i t e : AtServer i e ∈ t -> e ∈ server_view i t.
Proof.
  intros (t1 & t2 & ->)%elem_of_list_split. rewrite server_view_app. apply elem_of_app. right.
  unfold server_view. cbn. rewrite Nat.eqb_refl. apply elem_of_list_here.
Qed.
Lemma server_in_view i t e : e ∈ server_view i t -> AtServer i e ∈ t.
Proof.
  intros (v1 & v2 & E)%elem_of_list_split. apply server_view_split in E as (t1 & t2 & -> & _ & _).
  apply elem_of_app. right. apply elem_of_list_here.
Qed.

(** * A challenge comes from a nonce *)

Lemma hello_challenge e a h a' calls c ch :
  receive_hello e a h = Ret a' (calls, Ok (MChallenge c)) -> ch_method c = "wampcra" -> text_of c ch ->
  exists n, av_nonce e = Some n /\ has_nonce ch n.
Proof.
  intros H Hm Ht. unfold receive_hello in H. destruct (ac_state a) eqn:Es; [|discriminate H..].
  destruct (select_auth_method _ _) as [m|er|w] eqn:Em; [|discriminate H..].
  destruct (String.eqb_spec m mAnonymous) as [->|Hm1].
  { exfalso. destruct (av_answer _ _); [|discriminate H|discriminate H].
    apply answered_spec in H as (_ & msg & H & E).
    apply send_welcome_spec in H as (? & ? & ? & ? & _ & _ & -> & _). discriminate E. }
  destruct (String.eqb_spec m mTicket) as [->|Hm2].
  { injection H as <- <- <-. discriminate Hm. }
  destruct (String.eqb_spec m mWAMPCRA) as [->|Hm3].
  { destruct (av_answer _ _) as [[authid role [k|]]| |]; cbn [cra_challenge] in H; try discriminate H.
    destruct (generate_cra_challenge _ _ _ _ _ _) as [x|er|w] eqn:Eg; [|discriminate H..].
    injection H as <- <- <-. unfold text_of in Ht. cbn [ch_extra] in Ht.
    assert (ch = x) as ->. { destruct (String.eqb (cra_salt k) ""); cbn in Ht; congruence. }
    destruct (av_nonce e) as [n|]; [|discriminate Eg]. exists n. split; [done|].
    do 5 eexists. exact Eg. }
  destruct (String.eqb_spec m mCryptoSign) as [->|Hm4]; [|discriminate H].
  exfalso. destruct (mget (he_authextra h) "pubkey"); try discriminate H.
  destruct (String.eqb _ _); [discriminate H|].
  destruct (generate_cryptosign_challenge (av_challenge e)) as [x|er|w];
    destruct (av_answer _ _) as [rs|er'|]; try discriminate H; injection H as <- <- <-; discriminate Hm.
Qed.
Lemma receive_challenge e a m a' calls c ch :
  acceptor_receive e a m = Ret a' (calls, Ok (MChallenge c)) -> ch_method c = "wampcra" -> text_of c ch ->
  exists n, av_nonce e = Some n /\ has_nonce ch n.
Proof.
  unfold acceptor_receive. destruct (bool_decide _); [discriminate|].
  destruct m; try discriminate; [apply hello_challenge|].
  intros H _ _. exfalso. unfold receive_authenticate in H. destruct (ac_state a); [discriminate H| |discriminate H].
  assert (Hw : forall calls0 x id r ex, answered calls0 (send_welcome x id r ex) <> Ret a' (calls, Ok (MChallenge c))).
  { intros calls0 x id r ex E. apply answered_spec in E as (_ & msg & E & Em).
    apply send_welcome_spec in E as (? & ? & ? & ? & _ & _ & -> & _). discriminate Em. }
  destruct (String.eqb (ac_method a) mTicket).
  { destruct (ac_hello a); [|discriminate H]. destruct (av_answer _ _); [by eapply Hw|discriminate H|by eapply Hw]. }
  destruct (String.eqb (ac_method a) mWAMPCRA).
  { destruct (ac_response a) as [[? ? [k|]]|] eqn:Er; [|discriminate H..].
    destruct (if String.eqb (cra_salt k) "" then _ else _) as [key|er|w]; [|discriminate H..].
    destruct (verify_cra _ _ _); [|discriminate H]. by eapply Hw. }
  destruct (String.eqb (ac_method a) mCryptoSign); [|discriminate H].
  destruct (ac_request a) as [[? ? ? ? [| |pk]]|]; try discriminate H.
  destruct (hex_decode pk); [|discriminate H]. destruct (verify_cryptosign _ _); [|discriminate H]. by eapply Hw.
Qed.

(** * The invariant *)

Record winv (people : nat -> user) (statics : nat -> bool) (ops : list wop) (w : world) : Prop := WInv {
  wi_server : forall i, exists ins,
    acceptor_run ins (new_acceptor (statics i), []) = Ret (wo_servers w i, server_view i (wo_trace w)) tt;
  wi_user : forall j, jinv (us_realm (people j)) (wo_users w j) (user_view j (wo_trace w));
  wi_got : forall j m r, AtUser j (JGot m r) ∈ wo_trace w -> OUser j (JReceive m) ∈ ops;
  wi_made : forall t1 i c t2 ch,
    wo_trace w = t1 ++ AtServer i (AMade (Ok (MChallenge c))) :: t2 ->
    ch_method c = "wampcra" -> text_of c ch ->
    exists pre e m post n, ops = pre ++ OServer i e m :: post /\ av_nonce e = Some n /\ has_nonce ch n
      /\ forall j m' r, AtUser j (JGot m' r) ∈ t2 -> OUser j (JReceive m') ∈ pre;
  wi_signed : forall t1 j c r t2,
    wo_trace w = t1 ++ AtUser j (JGot (MChallenge c) (Ok r)) :: t2 ->
    awaiting (user_view j t2) /\ ~ challenged (user_view j t2) }.

Lemma winv_init people statics : winv people statics [] (world_init people statics).
Proof.
  constructor; cbn [world_init wo_trace wo_servers wo_users].
  - intros i. by exists [].
  - intros j. apply jinv_new.
  - intros j m r H. by apply elem_of_nil in H.
  - intros t1 i c t2 ch E. by destruct t1.
  - intros t1 i c t2 ch E. by destruct t1.
Qed.

(** A split of an append, at an event that is not in the first part, or is. *)
Lemma app_split {A} (l1 l2 : list A) t1 x t2 : l1 ++ l2 = t1 ++ x :: t2 ->
  (exists s, l1 = t1 ++ x :: s /\ t2 = s ++ l2) \/ (exists s, t1 = l1 ++ s /\ l2 = s ++ x :: t2).
Proof.
  revert t1. induction l1 as [|y l1 IH]; intros t1 E.
  - right. by exists t1.
  - destruct t1 as [|z t1]; cbn in E; injection E as <- E.
    + left. by exists l1.
    + destruct (IH t1 E) as [(s & -> & ->)|(s & -> & ->)]; [left|right]; by exists s.
Qed.

Lemma winv_step people statics ops w o w' :
  winv people statics ops w -> world_step people o w = Ret w' tt -> winv people statics (ops ++ [o]) w'.
Proof.
  intros Hi H. destruct o as [i e m|j o]; cbn [world_step] in H.
  - destruct (acceptor_step e m (wo_servers w i, [])) as [[a t] x|] eqn:Es; [|discriminate H].
    injection H as <-. constructor; cbn [wo_servers wo_users wo_trace].
    + intros k. rewrite server_view_app. unfold put.
      destruct (wi_server _ _ _ _ Hi k) as [ins Hins]. destruct (Nat.eqb_spec k i) as [->|Hk].
      * exists (ins ++ [(e, m)]). rewrite acceptor_run_app, Hins. cbn [acceptor_run].
        rewrite (acceptor_step_app _ _ _ _ _ _ _ Es), server_view_own. done.
      * exists ins. by rewrite server_view_other by congruence.
    + intros j. rewrite user_view_app, user_view_server. apply (wi_user _ _ _ _ Hi).
    + intros j m' r Hin. apply elem_of_app in Hin as [Hin|Hin].
      * apply elem_of_list_fmap in Hin as (? & ? & _). discriminate.
      * apply elem_of_app. left. by eapply (wi_got _ _ _ _ Hi).
    + intros t1 k c t2 ch E Hc Ht. apply app_split in E as [(s & E & ->)|(s & -> & E)].
      * assert (k = i /\ AMade (Ok (MChallenge c)) ∈ t) as [-> Hin].
        { assert (Hin : AtServer k (AMade (Ok (MChallenge c))) ∈ map (AtServer i) t)
            by (rewrite E; apply elem_of_app; right; apply elem_of_list_here).
          apply elem_of_list_fmap in Hin as (y & [= -> <-] & Hy). done. }
        unfold acceptor_step in Es. cbn [fst snd] in Es.
        destruct (acceptor_receive e (wo_servers w i) m) as [a1 [calls r]|] eqn:Er; [|discriminate Es].
        injection Es as -> <- _. apply elem_of_cons in Hin as [[= <-]|Hin].
        2:{ exfalso. apply elem_of_app in Hin as [Hin|Hin].
            - apply elem_of_list_fmap in Hin as (? & ? & _). discriminate.
            - apply elem_of_list_singleton in Hin. discriminate. }
        destruct (receive_challenge _ _ _ _ _ _ _ Er Hc Ht) as (n & Hn & Hh).
        exists ops, e, m, [], n. split; [done|]. split; [done|]. split; [done|].
        intros j m' r Hin'. apply elem_of_app in Hin' as [Hin'|Hin']; [|by eapply (wi_got _ _ _ _ Hi)].
        assert (Hin2 : AtUser j (JGot m' r) ∈ map (AtServer i)
            (AMade (Ok (MChallenge c)) :: map ACalled calls ++ [AGot m]))
          by (rewrite E; apply elem_of_app; right; by apply elem_of_list_further).
        apply elem_of_list_fmap in Hin2 as (? & ? & _). discriminate.
      * destruct (wi_made _ _ _ _ Hi s k c t2 ch E Hc Ht) as (pre & e' & m' & post & n & -> & Hr).
        exists pre, e', m', (post ++ [OServer i e m]), n. split; [|done]. by rewrite <- app_assoc.
    + intros t1 j c r t2 E. apply app_split in E as [(s & E & ->)|(s & -> & E)].
      * exfalso. assert (Hin : AtUser j (JGot (MChallenge c) (Ok r)) ∈ map (AtServer i) t)
          by (rewrite E; apply elem_of_app; right; apply elem_of_list_here).
        apply elem_of_list_fmap in Hin as (? & ? & _). discriminate.
      * by eapply (wi_signed _ _ _ _ Hi).
  - destruct (joiner_step (us_client (people j)) o (wo_users w j, [])) as [[u t] []|] eqn:Es; [|discriminate H].
    injection H as <-. constructor; cbn [wo_servers wo_users wo_trace].
    + intros k. rewrite server_view_app, server_view_user. apply (wi_server _ _ _ _ Hi).
    + intros k. rewrite user_view_app. unfold put. pose proof (wi_user _ _ _ _ Hi k) as Hk.
      destruct (Nat.eqb_spec k j) as [->|Hn].
      * rewrite user_view_own. apply (joiner_step_app _ _ _ (user_view j (wo_trace w))) in Es.
        exact (step_jinv _ _ _ (wo_users w j, _) (u, _) Hk Es).
      * by rewrite user_view_other by congruence.
    + intros k m r Hin. apply elem_of_app. apply elem_of_app in Hin as [Hin|Hin].
      * right. apply elem_of_list_fmap in Hin as (y & [= -> <-] & Hy). apply elem_of_list_singleton.
        destruct o as [ok|m']; cbn [joiner_step fst snd] in Es.
        -- destruct ok; cbn [send_hello] in Es; injection Es as <- <-;
             apply elem_of_list_singleton in Hy; discriminate.
        -- destruct (joiner_receive _ _ m') as [j' r'|]; [|discriminate Es]. injection Es as <- <-.
           apply elem_of_list_singleton in Hy. by injection Hy as -> ->.
      * left. by eapply (wi_got _ _ _ _ Hi).
    + intros t1 i c t2 ch E Hc Ht. apply app_split in E as [(s & E & ->)|(s & -> & E)].
      * exfalso. assert (Hin : AtServer i (AMade (Ok (MChallenge c))) ∈ map (AtUser j) t)
          by (rewrite E; apply elem_of_app; right; apply elem_of_list_here).
        apply elem_of_list_fmap in Hin as (? & ? & _). discriminate.
      * destruct (wi_made _ _ _ _ Hi s i c t2 ch E Hc Ht) as (pre & e' & m' & post & n & -> & Hr).
        exists pre, e', m', (post ++ [OUser j o]), n. split; [|done]. by rewrite <- app_assoc.
    + intros t1 k c r t2 E. apply app_split in E as [(s & E & ->)|(s & -> & E)].
      2:{ by eapply (wi_signed _ _ _ _ Hi). }
      assert (k = j /\ t = [JGot (MChallenge c) (Ok r)] /\ s = []) as (-> & -> & ->).
      { destruct o as [ok|m']; cbn [joiner_step fst snd] in Es.
        - destruct ok; cbn [send_hello] in Es; injection Es as <- <-; destruct t1 as [|? [|]]; discriminate E.
        - destruct (joiner_receive _ _ m') as [j' r'|]; [|discriminate Es]. injection Es as <- <-.
          destruct t1 as [|? [|]]; cbn in E; try discriminate E. by injection E as -> -> -> <-. }
      cbn [app]. pose proof (wi_user _ _ _ _ Hi j) as (_ & Hs & _).
      destruct o as [ok|m']; cbn [joiner_step fst snd] in Es; [destruct ok; discriminate Es|].
      destruct (joiner_receive _ _ m') as [j' r'|] eqn:Er; [|discriminate Es].
      injection Es as -> -> ->. rewrite challenge_cases in Er.
      destruct (jn_state (wo_users w j)); try discriminate Er. by apply Hs.
Qed.

Lemma winv_run people statics ops : forall pre w w',
  winv people statics pre w -> world_run people ops w = Ret w' tt -> winv people statics (pre ++ ops) w'.
Proof.
  induction ops as [|o ops IH]; intros pre w w' Hi H; cbn [world_run] in H.
  - injection H as <-. by rewrite app_nil_r.
  - destruct (world_step people o w) as [w1 []|] eqn:E; [|discriminate H].
    pose proof (IH (pre ++ [o]) w1 w' (winv_step _ _ _ _ _ _ Hi E) H) as Hr.
    by rewrite <- app_assoc in Hr.
Qed.
Lemma reach_winv people statics ops w :
  world_run people ops (world_init people statics) = Ret w tt -> winv people statics ops w.
Proof. apply (winv_run people statics ops []), winv_init. Qed.

(** * Agreement *)

Lemma user_view_cons_split j t1 e t2 : user_view j (t1 ++ AtUser j e :: t2) = user_view j t1 ++ e :: user_view j t2.
Proof. rewrite user_view_app. unfold user_view at 2. cbn. by rewrite Nat.eqb_refl. Qed.

Lemma cra_agreement people statics safe ops w new i wl past :
  world_run people ops (world_init people statics) = Ret w tt -> fresh ops ->
  unforged people safe (wo_trace w) ->
  wo_trace w = new ++ AtServer i (AMade (Ok (MWelcome wl))) :: past ->
  mget (we_details wl) "authmethod" = VMethod "wampcra" ->
  agreement people safe i wl past.
Proof.
  intros Hrun [_ Hug] Huf Htr Hm. apply reach_winv in Hrun as Hi.
  destruct (wi_server _ _ _ _ Hi i) as [ins Hins].
  rewrite Htr, server_view_app in Hins. unfold server_view in Hins at 2. cbn in Hins.
  rewrite Nat.eqb_refl in Hins. change (omap _ past) with (server_view i past) in Hins.
  apply welcome_warranted in Hins. remember (server_view i past) as v eqn:Ev.
  assert (Hdiff : forall h r x, names wl h r x -> x = "wampcra").
  { intros h r x (_ & _ & _ & E). rewrite Hm in E. injection E as E. symmetry. exact (encode_inj _ _ E). }
  destruct Hins as [wl h r rq allowed old _ _ Hn|wl h r rq allowed au c mid old _ _ Hn
    |wl h r rq allowed au c mid old k key ch Hsel Hab Hn Hmid Hcm Hk Hkey Hch Hcu Hsig
    |wl h r rq allowed au c mid old pk raw pub msg _ _ Hn]; try (apply Hdiff in Hn; discriminate Hn).
  symmetry in Ev. apply (server_view_split i past []) in Ev as (u & past2 & -> & Hu & Ev).
  apply (server_view_split i past2 mid) in Ev as (m' & old' & -> & Hm' & Ev).
  exists h, rq, r, k, key, c, ch, (u ++ AtServer i (AGot (MAuthenticate au)) :: m'), old'.
  split; [by rewrite <- app_assoc|].
  assert (Hin : forall e, e ∈ server_view i old' -> AtServer i e ∈ old') by (intros e; apply server_in_view).
  split; [apply Hin; rewrite Ev; set_solver|]. split; [apply Hin; rewrite Ev; set_solver|].
  do 7 (split; [done|]). intros Hsafe.
  destruct (Huf (new ++ AtServer i (AMade (Ok (MWelcome wl))) :: u) i au _ key ch
              ltac:(rewrite Htr, <- app_assoc; reflexivity) Hsafe Hsig) as (e & He & Hsg).
  { exists i, c. split; [|done]. apply elem_of_app. right. apply elem_of_list_here. }
  destruct Hsg as (j & c' & au' & -> & Hct & Hkf).
  destruct (wi_made _ _ _ _ Hi (new ++ AtServer i (AMade (Ok (MWelcome wl))) :: u ++ AtServer i (AGot (MAuthenticate au)) :: m')
              i c old' ch ltac:(rewrite Htr, <- app_assoc; cbn; by rewrite <- app_assoc) Hcm Hch)
    as (pre & ev & m & post & n & Hops & Hnonce & Hhn & Hold).
  apply elem_of_app in He as [He|He].
  2:{ exfalso. apply elem_of_cons in He as [He|He]; [discriminate He|].
      apply Hold in He. exact (Hug _ _ _ _ _ _ _ _ _ Hops Hnonce He Hct Hhn). }
  apply elem_of_list_split in He as (m1 & m2 & ->).
  exists j, c', au', (u ++ AtServer i (AGot (MAuthenticate au)) :: m1), (m2 ++ []).
  rewrite app_nil_r. split; [by rewrite <- app_assoc|]. split; [done|]. split; [done|].
  destruct (wi_signed _ _ _ _ Hi (new ++ AtServer i (AMade (Ok (MWelcome wl))) :: u ++ AtServer i (AGot (MAuthenticate au)) :: m1)
    j c' (Some (MAuthenticate au')) (m2 ++ AtServer i (AMade (Ok (MChallenge c))) :: old')) as [Ha Hc].
  { rewrite Htr, <- !app_assoc. cbn. rewrite <- !app_assoc. done. }
  rewrite user_view_app in Ha, Hc. unfold user_view in Ha at 2. unfold user_view in Hc at 2. cbn in Ha, Hc.
  rewrite user_view_app. by split.
Qed.

(** * One server for one challenge *)

Lemma nonces_app o1 o2 : nonces (o1 ++ o2) = nonces o1 ++ nonces o2.
Proof. apply omap_app. Qed.

Lemma nodup_split ops pre1 i1 e1 m1 post1 pre2 i2 e2 m2 post2 n :
  NoDup (nonces ops) ->
  ops = pre1 ++ OServer i1 e1 m1 :: post1 -> av_nonce e1 = Some n ->
  ops = pre2 ++ OServer i2 e2 m2 :: post2 -> av_nonce e2 = Some n -> i1 = i2.
Proof.
  intros Hnd E1 H1 E2 H2. rewrite E1 in E2, Hnd. clear E1 ops.
  assert (Hone : forall i e m l, av_nonce e = Some n -> nonces (OServer i e m :: l) = n :: nonces l).
  { intros i e m l He. unfold nonces. cbn. by rewrite He. }
  revert pre2 E2 Hnd. induction pre1 as [|o pre1 IH]; intros [|o' pre2] E2 Hnd; cbn in E2.
  - by injection E2.
  - injection E2 as <- ->. exfalso. cbn [app] in Hnd. rewrite (Hone _ _ _ _ H1), nonces_app in Hnd.
    rewrite (Hone _ _ _ _ H2) in Hnd. apply NoDup_cons in Hnd as [Hnd _]. apply Hnd.
    apply elem_of_app. right. apply elem_of_list_here.
  - injection E2 as -> <-. exfalso. cbn [app] in Hnd. rewrite (Hone _ _ _ _ H2), nonces_app in Hnd.
    rewrite (Hone _ _ _ _ H1) in Hnd. apply NoDup_cons in Hnd as [Hnd _]. apply Hnd.
    apply elem_of_app. right. apply elem_of_list_here.
  - injection E2 as <- E2. apply (IH pre2 E2).
    unfold nonces in Hnd |- *. cbn in Hnd. destruct o as [? e ?|]; [|done].
    destruct (av_nonce e); [|done]. by apply NoDup_cons in Hnd as [_ Hnd].
Qed.

Lemma same_challenge people statics ops w i1 i2 c1 c2 ch :
  winv people statics ops w -> NoDup (nonces ops) ->
  AtServer i1 (AMade (Ok (MChallenge c1))) ∈ wo_trace w ->
  AtServer i2 (AMade (Ok (MChallenge c2))) ∈ wo_trace w ->
  ch_method c1 = "wampcra" -> ch_method c2 = "wampcra" -> text_of c1 ch -> text_of c2 ch -> i1 = i2.
Proof.
  intros Hi Hnd H1 H2 Hm1 Hm2 Ht1 Ht2.
  apply elem_of_list_split in H1 as (a1 & b1 & E1). apply elem_of_list_split in H2 as (a2 & b2 & E2).
  destruct (wi_made _ _ _ _ Hi _ _ _ _ _ E1 Hm1 Ht1) as (pre1 & e1 & m1 & post1 & n1 & Ho1 & Hn1 & Hh1 & _).
  destruct (wi_made _ _ _ _ Hi _ _ _ _ _ E2 Hm2 Ht2) as (pre2 & e2 & m2 & post2 & n2 & Ho2 & Hn2 & Hh2 & _).
  assert (n1 = n2) as <-.
  { destruct Hh1 as (? & ? & ? & ? & ? & Hg1), Hh2 as (? & ? & ? & ? & ? & Hg2).
    by destruct (challenge_nonce _ _ _ _ _ _ _ _ _ _ _ _ _ Hg1 Hg2). }
  exact (nodup_split _ _ _ _ _ _ _ _ _ _ _ _ Hnd Ho1 Hn1 Ho2 Hn2).
Qed.

(** * No more WELCOMEs than HELLOs *)

(** The texts that users of some kind signed. *)
Definition signed_texts (which : nat -> bool) (t : list wevent) : list string :=
  omap (fun e => match e with
    | AtUser j (JGot (MChallenge c) (Ok _)) =>
        if which j then Some (to_string (mget (ch_extra c) "challenge")) else None
    | _ => None end) t.

Definition waits (t : list wevent) (j : nat) : Prop :=
  awaiting (user_view j t) /\ ~ challenged (user_view j t).

Lemma user_view_cons j k e t :
  user_view j (AtUser k e :: t) = if Nat.eqb k j then e :: user_view j t else user_view j t.
Proof. unfold user_view. cbn. by destruct (Nat.eqb k j). Qed.

Lemma signed_hellos which t js :
  (forall t1 j c r t2, t = t1 ++ AtUser j (JGot (MChallenge c) (Ok r)) :: t2 -> waits t2 j) ->
  NoDup js -> Forall (fun j => which j = true /\ waits t j) js ->
  (length (signed_texts which t) + length js <= length (hellos which t))%nat.
Proof.
  revert js. induction t as [|e t IH]; intros js Hs Hnd Hjs.
  - destruct js as [|j js]; [done|]. apply Forall_cons in Hjs as [[_ [[] _]] _].
  - assert (Hs' : forall t1 j c r t2, t = t1 ++ AtUser j (JGot (MChallenge c) (Ok r)) :: t2 -> waits t2 j).
    { intros t1 j c r t2 ->. by apply (Hs (e :: t1) j c r). }
    specialize (fun js => IH js Hs').
    destruct e as [i x|k x].
    { apply (IH js Hnd). eapply Forall_impl; [exact Hjs|]. done. }
    (* an event after which nobody waits who did not wait before *)
    assert (Hsame : (forall j, j ∈ js -> waits (AtUser k x :: t) j -> waits t j) ->
      (length (signed_texts which t) + length js <= length (hellos which t))%nat).
    { intros Hw. apply (IH js Hnd). rewrite Forall_forall in Hjs |- *. intros j Hj.
      destruct (Hjs j Hj). split; [done|]. by apply Hw. }
    assert (Hoff : forall j, (Nat.eqb k j) = false -> waits (AtUser k x :: t) j -> waits t j).
    { intros j E. unfold waits. rewrite user_view_cons, E. done. }
    destruct x as [[m|er|why]|m r].
    + (* HELLO *)
      cbn [hellos List.filter]. change (signed_texts which (AtUser k (JHello (Ok m)) :: t)) with (signed_texts which t).
      set (js' := filter (fun j => j <> k) js).
      assert (Hj' : Forall (fun j => which j = true /\ waits t j) js').
      { rewrite Forall_forall in Hjs |- *. intros j Hj. apply elem_of_list_filter in Hj as [Hk Hj].
        destruct (Hjs j Hj) as [Hw Hwt]. split; [done|]. apply Hoff; [|done]. by apply Nat.eqb_neq. }
      pose proof (IH js' (NoDup_filter _ _ Hnd) Hj') as Hle. fold (hellos which t).
      destruct (decide (k ∈ js)) as [Hk|Hk].
      * assert (which k = true) as ->. { rewrite Forall_forall in Hjs. by destruct (Hjs k Hk). }
        cbn [length]. assert (length js <= S (length js'))%nat; [|lia].
        assert (Hsub : js ⊆ k :: js').
        { intros j Hj. destruct (decide (j = k)) as [->|]; [apply elem_of_list_here|].
          apply elem_of_list_further. by apply elem_of_list_filter. }
        apply (NoDup_submseteq _ _ Hnd), submseteq_length in Hsub. exact Hsub.
      * assert (js' = js) as E.
        { unfold js'. clear -Hk. induction js as [|j js IH]; [done|].
          apply not_elem_of_cons in Hk as [Hj Hk]. rewrite filter_cons_True by done. by rewrite IH. }
        rewrite E in Hle. destruct (which k); cbn [length]; lia.
    + apply Hsame. intros j _. unfold waits. rewrite user_view_cons. by destruct (Nat.eqb k j).
    + apply Hsame. intros j _. unfold waits. rewrite user_view_cons. by destruct (Nat.eqb k j).
    + change (hellos which (AtUser k (JGot m r) :: t)) with (hellos which t).
      assert (Hq : (forall y, r <> Ok y) -> (length (signed_texts which (AtUser k (JGot m r) :: t)) + length js
                                              <= length (hellos which t))%nat).
      { intros Hr. assert (signed_texts which (AtUser k (JGot m r) :: t) = signed_texts which t) as ->.
        { unfold signed_texts. cbn. destruct r as [y|er|why]; [by destruct (Hr y)|by destruct m..]. }
        apply Hsame. intros j _. unfold waits. rewrite user_view_cons. destruct (Nat.eqb k j); [|done].
        destruct (quiet m r (user_view j t) Hr) as (-> & -> & _). done. }
      destruct r as [y|er|why]; [|apply Hq; discriminate..]. clear Hq.
      destruct (match m with MWelcome _ => true | MChallenge _ => true | _ => false end) eqn:Em.
      2:{ assert (signed_texts which (AtUser k (JGot m (Ok y)) :: t) = signed_texts which t) as ->
            by (unfold signed_texts; cbn; by destruct m).
          apply Hsame. intros j _. unfold waits. rewrite user_view_cons. destruct (Nat.eqb k j); [|done].
          cbn [awaiting challenged]. by destruct m. }
      destruct m as [|wl| |c| | | | | | | | | | | | | | | | | | | | ]; try discriminate Em.
      * change (signed_texts which (AtUser k (JGot (MWelcome wl) (Ok y)) :: t)) with (signed_texts which t).
        apply Hsame. intros j _. unfold waits. rewrite user_view_cons. destruct (Nat.eqb k j); [|done].
        cbn [awaiting]. by intros [[] _].
      * assert (Hk : k ∉ js).
        { intros Hk. rewrite Forall_forall in Hjs. destruct (Hjs k Hk) as [_ [_ Hc]]. apply Hc.
          rewrite user_view_cons, Nat.eqb_refl. exact Logic.I. }
        assert (Hjs' : Forall (fun j => which j = true /\ waits t j) js).
        { rewrite Forall_forall in Hjs |- *. intros j Hj. destruct (Hjs j Hj). split; [done|].
          apply Hoff; [|done]. apply Nat.eqb_neq. by intros ->. }
        destruct (which k) eqn:Ek.
        -- assert (signed_texts which (AtUser k (JGot (MChallenge c) (Ok y)) :: t)
             = to_string (mget (ch_extra c) "challenge") :: signed_texts which t) as ->
             by (unfold signed_texts; cbn; by rewrite Ek).
           pose proof (IH (k :: js)) as Hle. cbn [length] in Hle |- *.
           assert (waits t k) by (by apply (Hs [] k c y t)).
           specialize (Hle ltac:(by constructor) ltac:(by constructor)). lia.
        -- assert (signed_texts which (AtUser k (JGot (MChallenge c) (Ok y)) :: t) = signed_texts which t) as ->
             by (unfold signed_texts; cbn; by rewrite Ek).
           by apply IH.
Qed.

Lemma signed_text_in which t j c r ch :
  AtUser j (JGot (MChallenge c) (Ok r)) ∈ t -> which j = true -> text_of c ch -> ch ∈ signed_texts which t.
Proof.
  intros Hin Hw Ht. apply elem_of_list_omap. exists (AtUser j (JGot (MChallenge c) (Ok r))).
  split; [done|]. cbn. rewrite Hw. unfold text_of in Ht. by rewrite Ht.
Qed.

Lemma welcomes_le_hellos people statics key which ops w is :
  world_run people ops (world_init people statics) = Ret w tt -> fresh ops ->
  unforged people (eq key) (wo_trace w) ->
  (forall j, has_key (people j) key -> which j = true) ->
  NoDup is -> Forall (let_in (wo_trace w) key) is ->
  (length is <= length (hellos which (wo_trace w)))%nat.
Proof.
  intros Hrun Hfr Huf Hwhich Hnd Hin. apply reach_winv in Hrun as Hi.
  assert (Hle : (length (signed_texts which (wo_trace w)) <= length (hellos which (wo_trace w)))%nat).
  { pose proof (signed_hellos which (wo_trace w) []) as H. cbn in H. rewrite Nat.add_0_r in H.
    apply H; [|constructor..]. intros t1 j c r t2 E. by apply (wi_signed _ _ _ _ Hi t1 j c r t2). }
  (* each server's text *)
  assert (Htexts : Forall (fun i => exists c ch, AtServer i (AMade (Ok (MChallenge c))) ∈ wo_trace w
      /\ ch_method c = "wampcra" /\ text_of c ch /\ ch ∈ signed_texts which (wo_trace w)) is).
  { rewrite Forall_forall in Hin |- *. intros i Hii. destruct (Hin i Hii) as [(wl & Hwl & Hm) Hkeys].
    apply elem_of_list_split in Hwl as (new & past & Htr).
    destruct (cra_agreement _ _ _ _ _ _ _ _ _ Hrun Hfr Huf Htr Hm)
      as (h & rq & r & k & key' & c & ch & recent & old & -> & _ & Hasked & Hab & _ & Hk & Hck & Hmeth & Ht & Hcu & Hsg).
    assert (key' = key) as ->.
    { apply (Hkeys rq r k key'); [|exact Hk|exact Hck]. rewrite Htr. set_solver. }
    destruct (Hsg eq_refl) as (j & c' & au & r1 & r2 & -> & Ht' & Hkf & _).
    exists c, ch. split; [rewrite Htr; set_solver|].
    split; [done|]. split; [done|].
    apply (signed_text_in which _ j c' (Some (MAuthenticate au))); [rewrite Htr; set_solver| |done].
    apply Hwhich. eexists. split; [|exact Hkf]. done. }
  assert (Hlist : exists chs, Forall2 (fun i ch => exists c, AtServer i (AMade (Ok (MChallenge c))) ∈ wo_trace w
      /\ ch_method c = "wampcra" /\ text_of c ch /\ ch ∈ signed_texts which (wo_trace w)) is chs).
  { clear -Htexts. induction Htexts as [|i is (c & ch & H) _ [chs IH]]; [by exists []|].
    exists (ch :: chs). constructor; [by exists c|done]. }
  destruct Hlist as [chs Hl]. rewrite (Forall2_length _ _ _ Hl).
  assert (Hndc : NoDup chs).
  { clear -Hl Hnd Hi Hfr. induction Hl as [|i ch is chs (c & Hc & Hm & Ht & _) Hl IH]; [constructor|].
    apply NoDup_cons in Hnd as [Hi' Hnd]. constructor; [|by apply IH].
    intros Hin. apply Hi'. apply elem_of_list_lookup_1 in Hin as [n Hn].
    apply (Forall2_lookup_r _ _ _ _ _ Hl) in Hn as (i' & Hn & c' & Hc' & Hm' & Ht' & _).
    rewrite (same_challenge _ _ _ _ i i' c c' ch Hi (proj1 Hfr) Hc Hc' Hm Hm' Ht Ht').
    by eapply elem_of_list_lookup_2. }
  assert (Hsub : chs ⊆ signed_texts which (wo_trace w)).
  { intros ch Hch. apply elem_of_list_lookup_1 in Hch as [n Hn].
    apply (Forall2_lookup_r _ _ _ _ _ Hl) in Hn as (i' & _ & c' & _ & _ & _ & H). exact H. }
  apply (NoDup_submseteq _ _ Hndc), submseteq_length in Hsub. lia.
Qed.
End world.
