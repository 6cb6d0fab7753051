(** Invariants of many cryptosign handshakes, and what a WELCOME rests on. *)
From Verif Require Import Prelude Value Msg Types Encoding Auth Acceptor Joiner AuthSpec
  EncodingFacts AuthProofs AcceptorProofs JoinerProofs AuthWorld AuthWorldProofs SignWorld.

Local Open Scope string_scope.
Local Open Scope list_scope.

Section world.
Context {CR : Crypto}.
Implicit Types (people : nat -> signer).

Record sinv (people : nat -> signer) (statics : nat -> bool) (w : world) : Prop := SInv {
  si_server : forall i, exists ins,
    acceptor_run ins (new_acceptor (statics i), []) = Ret (wo_servers w i, server_view i (wo_trace w)) tt;
  si_user : forall j, jinv (sg_realm (people j)) (wo_users w j) (user_view j (wo_trace w));
  si_signed : forall t1 j c r t2,
    wo_trace w = t1 ++ AtUser j (JGot (MChallenge c) (Ok r)) :: t2 ->
    awaiting (user_view j t2) /\ ~ challenged (user_view j t2)
    /\ exists a, r = Some (MAuthenticate a) /\ cl_authenticate (sg_client (people j)) c = Ok a }.

Lemma sinv_init people statics : sinv people statics (sign_init people statics).
Proof.
  constructor; cbn [sign_init wo_trace wo_servers wo_users].
  - intros i. by exists [].
  - intros j. apply jinv_new.
  - intros t1 i c t2 ch E. by destruct t1.
Qed.

Lemma sinv_step people statics w o w' :
  sinv people statics w -> sign_step people o w = Ret w' tt -> sinv people statics w'.
Proof.
  intros Hi H. destruct o as [i e m|j o]; cbn [sign_step] in H.
  - destruct (acceptor_step e m (wo_servers w i, [])) as [[a t] x|] eqn:Es; [|discriminate H].
    injection H as <-. constructor; cbn [wo_servers wo_users wo_trace].
    + intros k. rewrite server_view_app. unfold put.
      destruct (si_server _ _ _ Hi k) as [ins Hins]. destruct (Nat.eqb_spec k i) as [->|Hk].
      * exists (ins ++ [(e, m)]). rewrite acceptor_run_app, Hins. cbn [acceptor_run].
        rewrite (acceptor_step_app _ _ _ _ _ _ _ Es), server_view_own. done.
      * exists ins. by rewrite server_view_other by congruence.
    + intros j. rewrite user_view_app, user_view_server. apply (si_user _ _ _ Hi).
    + intros t1 j c r t2 E. apply app_split in E as [(s & E & ->)|(s & -> & E)].
      * exfalso. assert (Hin : AtUser j (JGot (MChallenge c) (Ok r)) ∈ map (AtServer i) t)
          by (rewrite E; apply elem_of_app; right; apply elem_of_list_here).
        apply elem_of_list_fmap in Hin as (? & ? & _). discriminate.
      * by eapply (si_signed _ _ _ Hi).
  - destruct (joiner_step (sg_client (people j)) o (wo_users w j, [])) as [[u t] []|] eqn:Es; [|discriminate H].
    injection H as <-. constructor; cbn [wo_servers wo_users wo_trace].
    + intros k. rewrite server_view_app, server_view_user. apply (si_server _ _ _ Hi).
    + intros k. rewrite user_view_app. unfold put. pose proof (si_user _ _ _ Hi k) as Hk.
      destruct (Nat.eqb_spec k j) as [->|Hn].
      * rewrite user_view_own. apply (joiner_step_app _ _ _ (user_view j (wo_trace w))) in Es.
        exact (step_jinv _ _ _ (wo_users w j, _) (u, _) Hk Es).
      * by rewrite user_view_other by congruence.
    + intros t1 k c r t2 E. apply app_split in E as [(s & E & ->)|(s & -> & E)].
      2:{ by eapply (si_signed _ _ _ Hi). }
      assert (k = j /\ t = [JGot (MChallenge c) (Ok r)] /\ s = []) as (-> & -> & ->).
      { destruct o as [ok|m']; cbn [joiner_step fst snd] in Es.
        - destruct ok; cbn [send_hello] in Es; injection Es as <- <-; destruct t1 as [|? [|]]; discriminate E.
        - destruct (joiner_receive _ _ m') as [j' r'|]; [|discriminate Es]. injection Es as <- <-.
          destruct t1 as [|? [|]]; cbn in E; try discriminate E. by injection E as -> -> -> <-. }
      cbn [app]. pose proof (si_user _ _ _ Hi j) as (_ & Hs & _).
      destruct o as [ok|m']; cbn [joiner_step fst snd] in Es; [destruct ok; discriminate Es|].
      destruct (joiner_receive _ _ m') as [j' r'|] eqn:Er; [|discriminate Es].
      injection Es as -> -> ->. rewrite challenge_cases in Er.
      destruct (jn_state (wo_users w j)); try discriminate Er.
      destruct Hs as [Hs _]. destruct (Hs eq_refl) as [H1 H2]. split; [done|]. split; [done|].
      destruct (cl_authenticate _ c) as [a|er|why]; [|discriminate Er..].
      injection Er as _ <-. by exists a.
Qed.

Lemma reach_sinv people statics ops w :
  sign_run people ops (sign_init people statics) = Ret w tt -> sinv people statics w.
Proof.
  assert (H : forall ops w0, sinv people statics w0 -> sign_run people ops w0 = Ret w tt -> sinv people statics w).
  { clear ops. intros ops. induction ops as [|o ops IH]; intros w0 Hi H; cbn [sign_run] in H.
    - by injection H as <-.
    - destruct (sign_step people o w0) as [w1 []|] eqn:E; [|discriminate H].
      exact (IH w1 (sinv_step _ _ _ _ _ Hi E) H). }
  apply H, sinv_init.
Qed.

(** What a genuine client makes of a challenge. *)
Lemma genuine_answer s c a : genuine s -> cl_authenticate (sg_client s) c = Ok a ->
  exists seed, hex_denotes (sg_private s) seed /\ String.length seed = 32%nat
    /\ sign_cryptosign (to_string (mget (ch_extra c) "challenge")) seed = Ok (au_signature a).
Proof.
  unfold genuine, new_cryptosign. intros Hg Ha.
  destruct (hex_decode (sg_private s)) as [seed|] eqn:Ed; [|discriminate Hg].
  destruct (Nat.eqb_spec (String.length seed) 32) as [Hl|]; [|discriminate Hg].
  exists seed. split; [by apply hex_decode_iff|]. split; [done|].
  assert (exists ex, cl_authenticate (sg_client s) = cryptosign_authenticate seed (Some ex)) as [ex E].
  { destruct (mget _ "pubkey"); try (injection Hg as <-; eexists; reflexivity).
    destruct (String.eqb _ _); [|discriminate Hg]. injection Hg as <-. eexists. reflexivity. }
  rewrite E in Ha. unfold cryptosign_authenticate in Ha.
  destruct (sign_cryptosign _ seed) as [r|er|why]; [|discriminate Ha..]. by injection Ha as <-.
Qed.

Lemma cryptosign_agreement people statics safe ops w new i wl past :
  (forall j, genuine (people j)) ->
  sign_run people ops (sign_init people statics) = Ret w tt ->
  unforged_signatures people safe (wo_trace w) ->
  wo_trace w = new ++ AtServer i (AMade (Ok (MWelcome wl))) :: past ->
  mget (we_details wl) "authmethod" = VMethod "cryptosign" ->
  key_agreement people safe i wl past.
Proof.
  intros Hgen Hrun Huf Htr Hm. apply reach_sinv in Hrun as Hi.
  destruct (si_server _ _ _ Hi i) as [ins Hins].
  rewrite Htr, server_view_app in Hins. unfold server_view in Hins at 2. cbn in Hins.
  rewrite Nat.eqb_refl in Hins. change (omap _ past) with (server_view i past) in Hins.
  apply welcome_warranted in Hins. remember (server_view i past) as v eqn:Ev.
  assert (Hdiff : forall h r x, names wl h r x -> x = "cryptosign").
  { intros h r x (_ & _ & _ & E). rewrite Hm in E. injection E as E. symmetry. exact (encode_inj _ _ E). }
  destruct Hins as [wl h r rq allowed old _ _ Hn|wl h r rq allowed au c mid old _ _ Hn
    |wl h r rq allowed au c mid old k key ch _ _ Hn
    |wl h r rq allowed au c mid old pk raw pub msg _ Hab Hn _ _ Hpk Hraw Hpub Hsig];
    try (apply Hdiff in Hn; discriminate Hn).
  assert (Hin : forall e, e ∈ server_view i past -> AtServer i e ∈ past) by (intros e; apply server_in_view).
  rewrite <- Ev in Hin. symmetry in Ev. exists h, rq, r, pk, pub.
  split; [apply Hin; set_solver|]. split; [apply Hin; set_solver|].
  do 3 (split; [done|]). split; [by exists pk, raw|]. intros Hsafe.
  apply (server_view_split i past []) in Ev as (u & past2 & -> & Hu & Ev).
  destruct (Huf (new ++ AtServer i (AMade (Ok (MWelcome wl))) :: u) i au past2 pub msg
              ltac:(rewrite Htr, <- app_assoc; reflexivity) Hsafe Hsig) as (e & He & Hsg).
  destruct Hsg as (j & c' & au' & ch & -> & Hk & Hct & Hhex).
  apply elem_of_list_split in He as (m1 & m2 & ->).
  destruct (si_signed _ _ _ Hi (new ++ AtServer i (AMade (Ok (MWelcome wl))) :: u ++ AtServer i (AGot (MAuthenticate au)) :: m1)
    j c' (Some (MAuthenticate au')) m2) as (Ha & Hc & a & [= <-] & Hau).
  { rewrite Htr, <- !app_assoc. cbn. by rewrite <- !app_assoc. }
  exists (u ++ AtServer i (AGot (MAuthenticate au)) :: m1), j, c', au', msg, m2.
  split; [by rewrite <- app_assoc|]. split; [done|]. split; [|done].
  destruct (genuine_answer _ _ _ (Hgen j) Hau) as (seed & Hseed & Hl & Hsn).
  destruct Hk as (seed' & Hseed' & <-).
  apply hex_decode_iff in Hseed, Hseed'. rewrite Hseed in Hseed'. injection Hseed' as <-.
  unfold text_of in Hct. rewrite Hct in Hsn. change (to_string (VStr ch)) with ch in Hsn.
  destruct Hsig as (sig & _ & _ & Hml & _).
  destruct (cryptosign_accepted seed ch msg Hl Hhex Hml) as (s & Hs & Hst & _).
  rewrite Hs in Hsn. by injection Hsn as <-.
Qed.
End world.
