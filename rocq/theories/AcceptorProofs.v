(** The invariant of the acceptor and what follows from it. *)
From Verif Require Import Prelude Value Msg IdGen Types Encoding Auth Acceptor AuthSpec
  EncodingFacts AuthProofs.

Local Open Scope string_scope.
Local Open Scope list_scope.

Section acceptor.
Context {PL : Platform} {CR : Crypto}.

Definition no_welcome (t : list aevent) : Prop := forall w, AMade (Ok (MWelcome w)) ∉ t.

(** What an acceptor that sent a CHALLENGE remembers. *)
Definition pending (a : acceptor) (tr : list aevent) : Prop :=
  exists h allowed c mid pre old,
    ac_hello a = Some h /\ selected allowed h (ac_method a)
    /\ tr = mid ++ AMade (Ok (MChallenge c)) :: pre ++ ACalled (AMethods allowed) :: AGot (MHello h) :: old
    /\ no_challenge mid /\ ch_method c = ac_method a
    /\ ((ac_method a = "ticket" /\ pre = [])
        \/ (ac_method a = "wampcra" /\ exists rq r k, pre = [ACalled (AAsked rq (Approve r))]
            /\ about rq h "wampcra" RBase /\ ac_response a = Some r /\ rs_cra r = Some k
            /\ mget (ch_extra c) "challenge" = VStr (ac_challenge a)
            /\ challenges_user (ac_challenge a) r)
        \/ (ac_method a = "cryptosign" /\ exists rq ans pk, pre = [ACalled (AAsked rq ans)]
            /\ about rq h "cryptosign" (RCryptoSign pk) /\ mget (he_authextra h) "pubkey" = VStr pk
            /\ ac_request a = Some rq
            /\ match ans with
               | Approve r => ac_response a = Some r
               | Refuse _ => False
               | Neither => ac_response a = None
               end)).

Definition inv (a : acceptor) (tr : list aevent) : Prop :=
  match ac_state a with
  | ANone => ac_details a = None /\ no_welcome tr
  | AChallengeSent => ac_details a = None /\ no_welcome tr /\ pending a tr
  | AWelcomeSent =>
      exists w d new past, tr = new ++ AMade (Ok (MWelcome w)) :: past
        /\ no_welcome new /\ no_welcome past /\ warranted past w
        /\ ac_details a = Some d /\ agrees d w
  end.

Lemma no_welcome_cons e t : (forall w, e <> AMade (Ok (MWelcome w))) -> no_welcome t -> no_welcome (e :: t).
Proof. intros H Ht w Hin. apply elem_of_cons in Hin as [Hin|Hin]; [by eapply H|by eapply Ht]. Qed.
Lemma no_challenge_cons e t : (forall c, e <> AMade (Ok (MChallenge c))) -> no_challenge t -> no_challenge (e :: t).
Proof. intros H Ht c Hin. apply elem_of_cons in Hin as [Hin|Hin]; [by eapply H|by eapply Ht]. Qed.
Lemma no_challenge_nil : no_challenge [].
Proof. intros c H. by apply elem_of_nil in H. Qed.
Lemma no_welcome_nil : no_welcome [].
Proof. intros c H. by apply elem_of_nil in H. Qed.

Ltac nw := repeat (first [assumption | apply no_welcome_nil | apply no_welcome_cons; [intros ?; discriminate|] ]).
Ltac nc := repeat (first [assumption | apply no_challenge_nil | apply no_challenge_cons; [intros ?; discriminate|] ]).

(** More events without CHALLENGE change nothing. *)
Lemma pending_more a tr new : no_challenge new -> pending a tr -> pending a (new ++ tr).
Proof.
  intros Hn (h & allowed & c & mid & pre & old & Hh & Hs & -> & Hm & Hcm & Hr).
  exists h, allowed, c, (new ++ mid), pre, old. split; [done|]. split; [done|].
  split; [by rewrite <- app_assoc|]. split; [|by split].
  intros c' Hc. apply elem_of_app in Hc as [Hc|Hc]; [by eapply Hn|by eapply Hm].
Qed.

Lemma send_welcome_spec a id resp extra a' m : send_welcome a id resp extra = Ret a' m ->
  exists h r w d, ac_hello a = Some h /\ resp = Some r /\ m = MWelcome w
    /\ names w h r (ac_method a) /\ ac_state a' = AWelcomeSent
    /\ ac_details a' = Some d /\ agrees d w /\ we_session w = id.
Proof.
  unfold send_welcome. destruct (ac_hello a) as [h|] eqn:Eh; [|discriminate].
  destruct resp as [r|]; [|discriminate]. intros [= <- <-].
  do 4 eexists. split; [done|]. split; [done|]. split; [done|].
  split; [by repeat split|]. split; [done|]. split; [reflexivity|]. by repeat split.
Qed.

Lemma answered_spec calls o a' calls' r : answered calls o = Ret a' (calls', r) ->
  calls' = calls /\ exists m, o = Ret a' m /\ r = Ok m.
Proof. destruct o as [a m|w]; [|discriminate]. intros [= <- <- <-]. eauto. Qed.

Lemma inv_welcome a' tr past w d :
  no_welcome past -> warranted past w -> ac_state a' = AWelcomeSent -> ac_details a' = Some d ->
  agrees d w ->
  tr = AMade (Ok (MWelcome w)) :: past -> inv a' tr.
Proof.
  intros Hn Hw Hs Hd Ha ->. unfold inv. rewrite Hs. exists w, d, [], past.
  split; [done|]. split; [apply no_welcome_nil|]. done.
Qed.

Lemma hello_inv e a h tr a' calls r :
  inv a tr -> receive_hello e a h = Ret a' (calls, r) ->
  ac_state a <> AWelcomeSent ->
  inv a' (AMade r :: map ACalled calls ++ AGot (MHello h) :: tr).
Proof.
  intros Hinv H Hst. unfold receive_hello in H.
  destruct (ac_state a) eqn:Es; [| |done].
  2:{ injection H as <- <- <-. unfold inv in Hinv |- *. rewrite Es in Hinv |- *.
      destruct Hinv as (Hd & Hn & Hp). split; [done|]. split; [nw|].
      apply (pending_more a tr [_; _]); [nc|done]. }
  unfold inv in Hinv. rewrite Es in Hinv. destruct Hinv as [Hd Hn].
  destruct (select_auth_method _ _) as [m|er|w] eqn:Em; [| |discriminate].
  2:{ injection H as <- <- <-. unfold inv. rewrite Es. split; [done|]. nw. }
  apply select_selected in Em.
  destruct (String.eqb_spec m mAnonymous) as [->|Hm1].
  { destruct (av_answer e (new_request h mAnonymous)) as [rs|er|] eqn:Ea.
    - apply answered_spec in H as (-> & msg & H & ->).
      apply send_welcome_spec in H as (h' & r' & w & d & Hh & [= <-] & -> & Hna & Hs & Hdd & Hag & _).
      cbn [ac_hello ac_method] in Hh, Hna. injection Hh as <-.
      eapply (inv_welcome _ _ _ w); [| |exact Hs|exact Hdd|exact Hag|reflexivity]; [cbn; nw|].
      cbn. eapply w_anonymous; [exact Em|by repeat split|exact Hna].
    - injection H as <- <- <-. unfold inv. cbn. split; [done|]. nw.
    - apply answered_spec in H as (_ & msg & H & _). discriminate H. }
  destruct (String.eqb_spec m mTicket) as [->|Hm2].
  { injection H as <- <- <-. unfold inv. cbn [ac_state ac_details]. split; [done|]. split; [cbn; nw|].
    exists h, (av_methods e), (Challenge mTicket (Some [])), [], [], tr. split; [done|]. split; [done|].
    split; [done|]. split; [nc|]. split; [done|]. by left. }
  destruct (String.eqb_spec m mWAMPCRA) as [->|Hm3].
  { set (a1 := Acceptor _ _ _ _ _ _ _ _) in H.
    assert (Hc : forall rs a'' x, cra_challenge e a1 (Some rs) = (a'', x) ->
      av_answer e (new_request h mWAMPCRA) = Approve rs ->
      inv a'' (AMade x :: map ACalled [AAsked (new_request h mWAMPCRA) (Approve rs); AMethods (av_methods e)]
                ++ AGot (MHello h) :: tr)).
    { intros [authid role [k|]] a'' x; cbn [cra_challenge].
      2:{ intros [= <- <-] _. unfold inv. cbn. split; [done|]. nw. }
      destruct (generate_cra_challenge _ _ _ _ _ _) as [ch|er|w] eqn:Egen; intros [= <- <-] Hans;
        [|unfold inv; cbn; split; [done|]; nw..].
      unfold inv. cbn [ac_state ac_details a1]. split; [done|]. split; [cbn; nw|].
      eexists h, (av_methods e), _, [], [ACalled _], tr. split; [reflexivity|]. split; [exact Em|].
      split; [reflexivity|]. split; [nc|]. split; [reflexivity|]. right. left. split; [done|].
      exists (new_request h mWAMPCRA), (Response authid role (Some k)), k. split; [done|].
      split; [by repeat split|]. split; [done|]. split; [done|].
      cbn [ch_extra ac_challenge]. split; [destruct (String.eqb (cra_salt k) ""); reflexivity|].
      destruct (av_nonce e) as [n|]; [|discriminate Egen]. do 3 eexists. exact Egen. }
    destruct (av_answer e (new_request h mWAMPCRA)) as [rs|er|] eqn:Ea.
    - destruct (cra_challenge e a1 (Some rs)) as [a'' x] eqn:Ec. injection H as <- <- <-.
      apply Hc; done.
    - injection H as <- <- <-. unfold inv. cbn. split; [done|]. nw.
    - cbn in H. injection H as <- <- <-. unfold inv. cbn. split; [done|]. nw. }
  destruct (String.eqb_spec m mCryptoSign) as [->|Hm4].
  2:{ injection H as <- <- <-. unfold inv. cbn. split; [done|]. nw. }
  destruct (mget (he_authextra h) "pubkey") as [| | | | |pk| | | | |] eqn:Epk;
    try solve [injection H as <- <- <-; unfold inv; cbn; split; [done|]; nw].
  destruct (String.eqb_spec pk "") as [->|Hpk];
    [injection H as <- <- <-; unfold inv; cbn; split; [done|]; nw|].
  destruct (generate_cryptosign_challenge (av_challenge e)) as [ch|er|w];
    destruct (av_answer e (new_cryptosign_request h pk)) as [rs|er'|] eqn:Ea;
    try discriminate; injection H as <- <- <-;
    try solve [unfold inv; cbn; split; [done|]; nw].
  - unfold inv. cbn [ac_state ac_details]. split; [done|]. split; [cbn; nw|].
    eexists h, (av_methods e), _, [], [ACalled _], tr. split; [reflexivity|]. split; [exact Em|].
    split; [reflexivity|]. split; [nc|]. split; [reflexivity|]. right. right. split; [done|].
    exists (new_cryptosign_request h pk), (Approve rs), pk. by repeat split.
  - unfold inv. cbn [ac_state ac_details]. split; [done|]. split; [cbn; nw|].
    eexists h, (av_methods e), _, [], [ACalled _], tr. split; [reflexivity|]. split; [exact Em|].
    split; [reflexivity|]. split; [nc|]. split; [reflexivity|]. right. right. split; [done|].
    exists (new_cryptosign_request h pk), Neither, pk. by repeat split.
Qed.

Lemma key_of_cra k : (if String.eqb (cra_salt k) "" then Ok (cra_secret k)
  else derive_key (cra_salt k) (cra_secret k) (cra_iterations k) (cra_keylen k)) = key_of k.
Proof. reflexivity. Qed.

Lemma authenticate_inv e a au tr a' calls r :
  inv a tr -> receive_authenticate e a au = Ret a' (calls, r) ->
  ac_state a <> AWelcomeSent ->
  inv a' (AMade r :: map ACalled calls ++ AGot (MAuthenticate au) :: tr).
Proof.
  intros Hinv H Hst. unfold receive_authenticate in H. destruct (ac_state a) eqn:Es; [| |done].
  { injection H as <- <- <-. unfold inv in Hinv |- *. rewrite Es in Hinv |- *.
    destruct Hinv as (Hd & Hn). split; [done|]. nw. }
  pose proof Hinv as Hinv0. unfold inv in Hinv. rewrite Es in Hinv. destruct Hinv as (Hd & Hn & Hp).
  assert (Hsame : forall cs x, (forall w, x <> Ok (MWelcome w)) -> (forall c, x <> Ok (MChallenge c)) ->
    inv a (AMade x :: map ACalled cs ++ AGot (MAuthenticate au) :: tr)).
  { intros cs x Hx Hx'. unfold inv. rewrite Es. split; [done|]. split.
    - apply no_welcome_cons; [congruence|]. intros w Hw. apply elem_of_app in Hw as [Hw|Hw].
      + apply elem_of_list_fmap in Hw as (? & ? & _). discriminate.
      + revert w Hw. fold (no_welcome (AGot (MAuthenticate au) :: tr)). nw.
    - change (AMade x :: map ACalled cs ++ AGot (MAuthenticate au) :: tr)
        with ((AMade x :: map ACalled cs) ++ [AGot (MAuthenticate au)] ++ tr).
      rewrite app_assoc. apply pending_more; [|done]. intros c Hc.
      apply elem_of_app in Hc as [Hc|Hc]; [|apply elem_of_list_singleton in Hc; discriminate].
      apply elem_of_cons in Hc as [Hc|Hc]; [injection Hc as Hc; by eapply Hx'|].
      apply elem_of_list_fmap in Hc as (? & ? & _). discriminate. }
  destruct Hp as (h & allowed & c & mid & pre & old & Hh & Hs & Htr & Hm & Hcm & Hr).
  destruct (String.eqb_spec (ac_method a) mTicket) as [Em|Hm1].
  { destruct Hr as [[_ ->]|[[Em' _]|[Em' _]]]; [|rewrite Em in Em'; discriminate..].
    rewrite Hh in H. destruct (av_answer e (new_ticket_request h (au_signature au))) as [rs|er|] eqn:Ea.
    - apply answered_spec in H as (-> & msg & H & ->).
      apply send_welcome_spec in H as (h' & r' & w & d & Hh' & [= <-] & -> & Hna & Hs' & Hdd & Hag & _).
      rewrite Hh in Hh'. injection Hh' as <-.
      eapply (inv_welcome _ _ _ w d); [| |exact Hs'|exact Hdd|exact Hag|reflexivity].
      + cbn. nw.
      + rewrite Htr. cbn [map app]. rewrite Em in Hs, Hna, Hcm.
        eapply w_ticket; [exact Hs|by repeat split|exact Hna|exact Hm|exact Hcm].
    - injection H as <- <- <-. apply Hsame; discriminate.
    - apply answered_spec in H as (_ & msg & H & _). unfold send_welcome in H. rewrite Hh in H. discriminate H. }
  destruct (String.eqb_spec (ac_method a) mWAMPCRA) as [Em|Hm2].
  { destruct Hr as [[Em' _]|[[_ Hr]|[Em' _]]]; [rewrite Em in Em'; discriminate| |rewrite Em in Em'; discriminate].
    destruct Hr as (rq & rs & k & -> & Hab & Hrs & Hk & Hch & Hcu). rewrite Hrs in H.
    destruct rs as [authid role rc]. cbn in Hk. subst rc. rewrite key_of_cra in H.
    destruct (key_of k) as [key|er|w] eqn:Ek; [| |discriminate].
    2:{ injection H as <- <- <-. apply Hsame; discriminate. }
    apply key_of_spec in Ek.
    destruct (verify_cra _ _ _) eqn:Ev.
    2:{ injection H as <- <- <-. apply Hsame; discriminate. }
    apply verify_cra_iff in Ev.
    apply answered_spec in H as (-> & msg & H & ->).
    apply send_welcome_spec in H as (h' & r' & w & d & Hh' & [= <-] & -> & Hna & Hs' & Hdd & Hag & _).
    rewrite Hh in Hh'. injection Hh' as <-.
    eapply (inv_welcome _ _ _ w d); [| |exact Hs'|exact Hdd|exact Hag|reflexivity].
    + cbn. nw.
    + rewrite Htr. cbn [map app]. rewrite Em in Hs, Hna, Hcm.
      eapply w_wampcra; [exact Hs|exact Hab|exact Hna|exact Hm|exact Hcm|reflexivity|exact Ek|exact Hch|exact Hcu|exact Ev]. }
  destruct (String.eqb_spec (ac_method a) mCryptoSign) as [Em|Hm3].
  2:{ injection H as <- <- <-. apply Hsame; discriminate. }
  destruct Hr as [[Em' _]|[[Em' _]|[_ Hr]]]; [rewrite Em in Em'; discriminate..|].
  destruct Hr as (rq & ans & pk & -> & Hab & Hpk & Hrq & Hrs). rewrite Hrq in H.
  destruct rq as [rm rr ri rx rk]. destruct Hab as (Hab1 & Hab2 & Hab3 & Hab4 & Hab5). cbn in Hab5. subst rk.
  destruct (hex_decode pk) as [raw|] eqn:Ehex.
  2:{ injection H as <- <- <-. apply Hsame; discriminate. }
  destruct (verify_cryptosign (au_signature au) raw) eqn:Ev.
  2:{ injection H as <- <- <-. apply Hsame; discriminate. }
  apply answered_spec in H as (-> & msg & H & ->).
  apply send_welcome_spec in H as (h' & r' & w & d & Hh' & Hr' & -> & Hna & Hs' & Hdd & Hag & _).
  rewrite Hh in Hh'. injection Hh' as <-. rewrite Hr' in Hrs.
  destruct ans as [rs| |]; try done. injection Hrs as ->.
  apply (verify_cryptosign_iff _ _ _ (pad_key_spec raw)) in Ev as [m Ev].
  eapply (inv_welcome _ _ _ w d); [| |exact Hs'|exact Hdd|exact Hag|reflexivity].
  - cbn. nw.
  - rewrite Htr. cbn [map app]. rewrite Em in Hs, Hna, Hcm.
    eapply w_cryptosign; [exact Hs|by repeat split|exact Hna|exact Hm|exact Hcm|exact Hpk
                         |apply hex_decode_iff; exact Ehex|apply pad_key_spec|exact Ev].
Qed.

Lemma receive_inv e a m tr a' calls r :
  inv a tr -> acceptor_receive e a m = Ret a' (calls, r) ->
  inv a' (AMade r :: map ACalled calls ++ AGot m :: tr).
Proof.
  intros Hinv H. unfold acceptor_receive in H.
  destruct (bool_decide (ac_state a = AWelcomeSent)) eqn:Eb.
  - apply bool_decide_eq_true in Eb. injection H as <- <- <-.
    unfold inv in Hinv |- *. rewrite Eb in Hinv |- *.
    destruct Hinv as (w & d & new & past & -> & Hnew & Hr). eexists w, d, (AMade (Err _) :: AGot m :: new), past.
    split; [reflexivity|]. split; [|done]. nw.
  - apply bool_decide_eq_false in Eb.
    destruct m; try (by eapply hello_inv); try (by eapply authenticate_inv);
      injection H as <- <- <-; unfold inv in Hinv |- *; destruct (ac_state a) eqn:Es; try done;
      try (destruct Hinv as (Hd & Hn & Hp); split; [done|]; split; [nw|];
           apply (pending_more a tr [_; _]); [nc|done]);
      (destruct Hinv as (Hd & Hn); split; [done|]; nw).
Qed.

Lemma step_inv e m s s' x :
  inv (fst s) (snd s) -> acceptor_step e m s = Ret s' x -> inv (fst s') (snd s').
Proof.
  intros Hinv. unfold acceptor_step.
  destruct (acceptor_receive e (fst s) m) as [a [calls r]|w] eqn:E; [|discriminate].
  intros [= <- <-]. by eapply receive_inv.
Qed.

Lemma run_inv ins s s' x :
  inv (fst s) (snd s) -> acceptor_run ins s = Ret s' x -> inv (fst s') (snd s').
Proof.
  revert s. induction ins as [|[e m] ins IH]; intros s Hinv; cbn [acceptor_run].
  - intros [= <- <-]. done.
  - destruct (acceptor_step e m s) as [s1 y|w] eqn:E; [|discriminate].
    apply IH. by eapply step_inv.
Qed.

Lemma init_inv static : inv (new_acceptor static) [].
Proof. split; [done|]. apply no_welcome_nil. Qed.

Lemma reach_inv static ins a tr x :
  acceptor_run ins (new_acceptor static, []) = Ret (a, tr) x -> inv a tr.
Proof. intros H. exact (run_inv ins (new_acceptor static, []) (a, tr) x (init_inv static) H). Qed.

(** * Consequences *)

Lemma split_unique w w' new new' past past' :
  new ++ AMade (Ok (MWelcome w)) :: past = new' ++ AMade (Ok (MWelcome w')) :: past' ->
  no_welcome new' -> no_welcome past' -> w = w' /\ past = past' /\ new = new'.
Proof.
  revert new'. induction new as [|e new IH]; intros [|e' new'] E Hn Hp; cbn in E.
  - injection E as <- <-. done.
  - injection E as <- ->. exfalso. eapply Hn. left.
  - injection E as -> <-. exfalso. eapply Hp. apply elem_of_app. right. left.
  - injection E as <- E. destruct (IH _ E) as (-> & -> & ->); [|done|done].
    intros w'' H. eapply Hn. by right.
Qed.

Lemma welcome_warranted static ins a new w past x :
  acceptor_run ins (new_acceptor static, []) = Ret (a, new ++ AMade (Ok (MWelcome w)) :: past) x ->
  warranted past w.
Proof.
  intros H. apply reach_inv in H. unfold inv in H.
  destruct (ac_state a).
  - destruct H as [_ H]. exfalso. eapply H. apply elem_of_app. right. left.
  - destruct H as (_ & H & _). exfalso. eapply H. apply elem_of_app. right. left.
  - destruct H as (w' & d & new' & past' & E & Hn & Hp & Hw & _).
    by destruct (split_unique _ _ _ _ _ _ E Hn Hp) as (-> & -> & _).
Qed.

Lemma details_after_welcome static ins a tr x :
  acceptor_run ins (new_acceptor static, []) = Ret (a, tr) x ->
  (forall w, AMade (Ok (MWelcome w)) ∈ tr -> exists d, acceptor_details a = Ok d /\ agrees d w)
  /\ (forall d, acceptor_details a = Ok d -> exists w, AMade (Ok (MWelcome w)) ∈ tr).
Proof.
  intros H. apply reach_inv in H. unfold inv, acceptor_details in *.
  destruct (ac_state a).
  - destruct H as [-> H]. split; [intros w Hw; by apply H in Hw|discriminate].
  - destruct H as (-> & H & _). split; [intros w Hw; by apply H in Hw|discriminate].
  - destruct H as (w' & d & new' & past' & -> & Hn & Hp & _ & -> & Hag). split.
    + intros w Hw. exists d. split; [done|]. apply elem_of_app in Hw as [Hw|Hw]; [by apply Hn in Hw|].
      apply elem_of_cons in Hw as [[= ->]|Hw]; [done|by apply Hp in Hw].
    + intros d' [= <-]. exists w'. apply elem_of_app. right. left.
Qed.

Lemma after_welcome_rejected static ins a tr x w e m :
  acceptor_run ins (new_acceptor static, []) = Ret (a, tr) x -> AMade (Ok (MWelcome w)) ∈ tr ->
  exists er, acceptor_receive e a m = Ret a ([], Err er).
Proof.
  intros H Hin. apply reach_inv in H. unfold inv in H. destruct (ac_state a) eqn:Es.
  - destruct H as [_ H]. by apply H in Hin.
  - destruct H as (_ & H & _). by apply H in Hin.
  - unfold acceptor_receive. rewrite bool_decide_eq_true_2 by done. eauto.
Qed.

(** * No panic *)

Definition proper_env (e : aenv) : Prop :=
  forall rq, proper_answer (av_answer e rq) /\ proper_keylen (av_answer e rq).
Definition proper_event (ev : aevent) : Prop :=
  match ev with
  | ACalled (AAsked _ ans) => proper_answer ans /\ proper_keylen ans
  | _ => True
  end.

Lemma answered_hello calls a id r extra : is_Some (ac_hello a) ->
  exists s x, answered calls (send_welcome a id (Some r) extra) = Ret s (calls, x).
Proof. intros [h Hh]. unfold send_welcome. rewrite Hh. cbn. eauto. Qed.

Ltac aw := match goal with |- context [answered ?c (send_welcome ?a ?i (Some ?r) ?x)] =>
  let s := fresh "s" in let y := fresh "y" in
  let E := fresh "E" in destruct (answered_hello c a i r x) as (s & y & E); [|rewrite E; clear E] end.

Ltac ret0 := solve [do 3 eexists; split; [reflexivity|by repeat constructor]].

Lemma receive_no_panic e a m tr :
  inv a tr -> Forall proper_event tr -> proper_env e ->
  exists a' calls r, acceptor_receive e a m = Ret a' (calls, r)
    /\ Forall proper_event (map ACalled calls).
Proof.
  intros Hinv Htr He. unfold acceptor_receive.
  destruct (bool_decide (ac_state a = AWelcomeSent)) eqn:Eb; [ret0|].
  apply bool_decide_eq_false in Eb.
  destruct m as [h| | | |au| | | | | | | | | | | | | | | | | | |]; try ret0.
  - unfold receive_hello. destruct (ac_state a) eqn:Es; [|ret0|done].
    destruct (select_auth_method _ _) as [m|er|w] eqn:Em; [|ret0|].
    2:{ exfalso. unfold select_auth_method in Em. destruct (match he_authmethods h with Some l => l | None => [] end);
        [discriminate|]. destruct (find_method _ _) as [m u]. destruct (String.eqb m ""); discriminate. }
    destruct (String.eqb m mAnonymous).
    { destruct (He (new_request h m)) as [Hp Hq].
      destruct (av_answer e (new_request h m)) as [rs|er|] eqn:Ea; [| |done].
      - aw; [by eexists|]. do 3 eexists. split; [reflexivity|].
        repeat (apply Forall_cons; split); try done.
      - do 3 eexists. split; [reflexivity|]. repeat (apply Forall_cons; split); try done. }
    destruct (String.eqb m mTicket); [ret0|].
    destruct (String.eqb m mWAMPCRA).
    { destruct (He (new_request h m)) as [Hp Hq].
      destruct (av_answer e (new_request h m)) as [rs|er|] eqn:Ea; [| |done].
      - destruct (cra_challenge e _ (Some rs)) as [a'' x]. do 3 eexists. split; [reflexivity|].
        repeat (apply Forall_cons; split); try done.
      - do 3 eexists. split; [reflexivity|]. repeat (apply Forall_cons; split); try done. }
    destruct (String.eqb m mCryptoSign); [|ret0].
    destruct (mget (he_authextra h) "pubkey") as [| | | | |pk| | | | |];
      try (ret0).
    destruct (String.eqb pk ""); [ret0|].
    destruct (He (new_cryptosign_request h pk)) as [Hp Hq].
    destruct (av_answer e (new_cryptosign_request h pk)) as [rs|er|] eqn:Ea; [| |done].
    + destruct (av_challenge e) as [ch|]; cbn [generate_cryptosign_challenge];
        (do 3 eexists; split; [reflexivity|]; repeat (apply Forall_cons; split); try done).
    + do 3 eexists. split; [reflexivity|]. repeat (apply Forall_cons; split); try done.
  - unfold receive_authenticate. destruct (ac_state a) eqn:Es; [ret0| |done].
    unfold inv in Hinv. rewrite Es in Hinv.
    destruct Hinv as (Hd & Hn & h & allowed & c & mid & pre & old & Hh & Hs & Hev & Hm & Hcm & Hr).
    destruct (String.eqb_spec (ac_method a) mTicket) as [Em|Hm1].
    { rewrite Hh. destruct (He (new_ticket_request h (au_signature au))) as [Hp Hq].
      destruct (av_answer e (new_ticket_request h (au_signature au))) as [rs|er|] eqn:Ea; [| |done].
      - aw; [by rewrite Hh|]. do 3 eexists. split; [reflexivity|].
        repeat (apply Forall_cons; split); try done.
      - do 3 eexists. split; [reflexivity|]. repeat (apply Forall_cons; split); try done. }
    destruct (String.eqb_spec (ac_method a) mWAMPCRA) as [Em|Hm2].
    { destruct Hr as [[Em' _]|[[_ Hr]|[Em' _]]]; [rewrite Em in Em'; discriminate| |rewrite Em in Em'; discriminate].
      destruct Hr as (rq & rs & k & -> & Hab & Hrs & Hk & Hch & Hcu). rewrite Hrs.
      destruct rs as [authid role rc]. cbn in Hk. subst rc. rewrite key_of_cra.
      assert (Hkl : cra_salt k = "" \/ (0 <= cra_keylen k <= kdf_max)%Z).
      { rewrite Hev in Htr. apply Forall_app in Htr as [_ Htr]. inversion Htr as [|? ? _ Htr1]; subst.
        inversion Htr1 as [|? ? Hpe _]; subst. destruct Hpe as [_ Hpe]. exact Hpe. }
      unfold key_of. destruct (String.eqb_spec (cra_salt k) "") as [E|E].
      - destruct (verify_cra _ _ _); [|ret0].
        aw; [by rewrite Hh|]. ret0.
      - destruct Hkl as [?|Hkl]; [done|].
        destruct (derive_key_ok (cra_salt k) (cra_secret k) (cra_iterations k) (cra_keylen k) Hkl) as [key ->].
        destruct (verify_cra _ _ _); [|ret0].
        aw; [by rewrite Hh|]. ret0. }
    destruct (String.eqb_spec (ac_method a) mCryptoSign) as [Em|Hm3]; [|ret0].
    destruct Hr as [[Em' _]|[[Em' _]|[_ Hr]]]; [rewrite Em in Em'; discriminate..|].
    destruct Hr as (rq & ans & pk & -> & Hab & Hpk & Hrq & Hrs). rewrite Hrq.
    destruct rq as [rm rr ri rx rk]. destruct Hab as (Hab1 & Hab2 & Hab3 & Hab4 & Hab5). cbn in Hab5. subst rk.
    destruct (hex_decode pk) as [raw|]; [|ret0].
    destruct (verify_cryptosign _ _); [|ret0].
    assert (Hans : exists rs, ac_response a = Some rs).
    { rewrite Hev in Htr. apply Forall_app in Htr as [_ Htr]. inversion Htr as [|? ? _ Htr1]; subst.
      inversion Htr1 as [|? ? Hpe _]; subst. destruct Hpe as [Hpe _].
      destruct ans as [rs| |]; [by exists rs|done|done]. }
    destruct Hans as [rs ->].
    aw; [by rewrite Hh|]. ret0.
Qed.

Lemma run_no_panic ins s :
  inv (fst s) (snd s) -> Forall proper_event (snd s) -> Forall (fun i => proper_env (fst i)) ins ->
  exists s', acceptor_run ins s = Ret s' tt.
Proof.
  intros Hinv Hp Hi. revert s Hinv Hp. induction Hi as [|[e m] ins He Hi IH]; intros s Hinv Hp; [by exists s|].
  cbn [acceptor_run]. unfold acceptor_step.
  destruct (receive_no_panic e (fst s) m (snd s) Hinv Hp He) as (a' & calls & r & Hr & Hc).
  rewrite Hr. apply IH; [by eapply receive_inv|]. cbn. constructor; [done|].
  apply Forall_app. split; [done|]. by constructor.
Qed.

Lemma acceptor_never_panics static ins :
  Forall (fun i => proper_env (fst i)) ins ->
  exists s', acceptor_run ins (new_acceptor static, []) = Ret s' tt.
Proof. apply run_no_panic; [apply init_inv|constructor]. Qed.

(** Receive and its flag. *)
Lemma receive_bytes_flag e a decoded ok a' calls r m b :
  acceptor_receive_bytes e a decoded ok = Ret a' (calls, r, Ok (m, b)) ->
  (b = true <-> exists w, m = MWelcome w) /\ r = Ok m.
Proof.
  unfold acceptor_receive_bytes. destruct decoded as [x|er|w]; [|discriminate|discriminate].
  destruct (acceptor_receive e a x) as [a1 [c1 [y|er|w]]|w]; try discriminate.
  destruct ok; [|discriminate]. intros [= <- <- <- <- <-]. split; [|done].
  rewrite bool_decide_eq_true. split; [|by intros [w ->]].
  destruct y; try discriminate. eauto.
Qed.

End acceptor.
