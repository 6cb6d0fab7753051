(** The network with serializers behaves like the one without. *)
From Verif Require Import Prelude Value Msg IdGen Types PathMatch Broker Dealer Session Mutex Network.
From Verif Require Import WireSpec MsgSpec NetworkSpec NetworkWire MsgWire WireFacts.

Local Open Scope string_scope.
Local Open Scope list_scope.
Local Open Scope N_scope.

Ltac like_inv H :=
  let Ht := fresh "Ht" in
  match type of H with msg_like _ ?m' => destruct m' end;
  destruct H as [Ht H]; try discriminate Ht; clear Ht;
  match type of H with Forall2 fld_like (msg_fields (_ ?a)) (msg_fields (_ ?b)) => destruct a, b end;
  cbn [msg_fields] in H; cbn in H;
  repeat match type of H with Forall2 _ (_ :: _) (_ :: _) =>
    let Hf := fresh "Hf" in apply Forall2_cons in H as [Hf H] end;
  clear H;
  repeat match goal with
  | Hf : fld_like (FId _) (FId _) |- _ => cbn in Hf; injection Hf as Hf; subst
  | Hf : fld_like (FStr _) (FStr _) |- _ => cbn in Hf; injection Hf as Hf; subst
  end.

(** * Reading *)
Definition res_like (r1 r2 : res sout) : Prop :=
  match r1, r2 with
  | Ok _, Ok _ => True
  | Err e, Err e' => e = e'
  | _, _ => False
  end.
Lemma recv_like s m m' : msg_like m m' ->
  exists s1 r1 r2, sstep s (SReceiveMessage m) = (s1, r1) /\ sstep s (SReceive (Ok m')) = (s1, r2)
  /\ res_like r1 r2.
Proof.
  intros H. unfold sstep. cbn [sop_prog].
  destruct m; like_inv H; cbn -[union difference insert delete lookup singleton bool_decide];
    unfold flag;
    cbn -[union difference insert delete lookup singleton bool_decide];
    repeat match goal with
    | Hf : fld_like (FDict ?a) (FDict ?b) |- context [to_bool (mget ?a ?k)] =>
        rewrite (like_flag a b k Hf)
    end;
    try (do 3 eexists; split; [reflexivity|]; split; [reflexivity|]; cbn; done).
  all: repeat first
    [ progress cbn -[union difference insert delete lookup singleton bool_decide]
    | match goal with |- context [match ?x with _ => _ end] =>
        lazymatch x with
        | run_prog _ _ => fail
        | context [match _ with _ => _ end] => fail
        | _ => destruct x eqn:?
        end end ].
  all: try (do 3 eexists; split; [reflexivity|]; split; [reflexivity|]; cbn; done).
Qed.

(** * Routing *)
Definition outs_like (a a' : message * N) : Prop := snd a = snd a' /\ msg_like (fst a) (fst a').
Definition answers_like (r r' : outcome (broker * dealer) (list (message * N))) : Prop :=
  match r, r' with
  | Crash x, Crash x' => x = x'
  | Ret s outs, Ret s' outs' => s = s' /\ Forall2 outs_like outs outs'
  | _, _ => False
  end.

Lemma answers_same b o c m d : answers_like (answers o c m b d) (answers o c m b d).
Proof.
  destruct (answers o c m b d) as [s outs|w]; cbn; [|done]. split; [done|].
  induction outs; constructor; [split; [done|apply msg_like_refl]|done].
Qed.

Lemma event_like sub pub d args kwargs args' kwargs' :
  fld_like (FArgs args) (FArgs args') -> fld_like (FKwArgs kwargs) (FKwArgs kwargs') ->
  msg_like (MEvent (new_event sub pub d args kwargs)) (MEvent (new_event sub pub d args' kwargs')).
Proof. intros. split; [done|]. cbn. repeat (constructor; [first [done|apply fld_like_refl]|]). constructor. Qed.
Lemma invocation_like i g d args kwargs args' kwargs' :
  fld_like (FArgs args) (FArgs args') -> fld_like (FKwArgs kwargs) (FKwArgs kwargs') ->
  msg_like (MInvocation (new_invocation i g d args kwargs)) (MInvocation (new_invocation i g d args' kwargs')).
Proof. intros. split; [done|]. cbn. repeat (constructor; [first [done|apply fld_like_refl]|]). constructor. Qed.
Lemma result_like i d args kwargs args' kwargs' :
  fld_like (FArgs args) (FArgs args') -> fld_like (FKwArgs kwargs) (FKwArgs kwargs') ->
  msg_like (MResult (new_result i d args kwargs)) (MResult (new_result i d args' kwargs')).
Proof. intros. split; [done|]. cbn. repeat (constructor; [first [done|apply fld_like_refl]|]). constructor. Qed.
Lemma or_empty_like d d' : fld_like (FDict d) (FDict d') -> fld_like (FDict (or_empty d)) (FDict (or_empty d')).
Proof. destruct d, d'; try done. intros _. apply fld_like_refl. Qed.
Lemma error_like t r u d d' args kwargs args' kwargs' : fld_like (FDict d) (FDict d') ->
  fld_like (FArgs args) (FArgs args') -> fld_like (FKwArgs kwargs) (FKwArgs kwargs') ->
  msg_like (MError (new_error t r d u args kwargs)) (MError (new_error t r d' u args' kwargs')).
Proof.
  intros. split; [done|]. cbn -[or_empty].
  repeat (constructor; [first [done|by apply or_empty_like|apply fld_like_refl]|]). constructor.
Qed.

Lemma to_bool_ack (v : value) {A} (x : option A) :
  match v with VBool true => x | _ => None end = if to_bool v then x else None.
Proof. by destruct v as [|[]| | | | | | | | |]. Qed.

Lemma publish_like o b c r op op' t a a' k k' d :
  fld_like (FDict op) (FDict op') -> fld_like (FArgs a) (FArgs a') -> fld_like (FKwArgs k) (FKwArgs k') ->
  answers_like (answers o c (MPublish (Publish r op t a k)) b d) (answers o c (MPublish (Publish r op' t a' k')) b d).
Proof.
  intros Ho Ha Hk. unfold answers, bstep, b_receive_publish. cbn [pu_options pu_request pu_topic pu_args pu_kwargs].
  rewrite !to_bool_ack, (like_flag op op' _ Ho).
  destruct (b_by_session b !! c); [|by split].
  assert (forall r, Forall2 outs_like (match (if to_bool (mget op' opt_acknowledge) then Some r else None)
    with Some a => [a] | None => [] end) (match (if to_bool (mget op' opt_acknowledge) then Some r else None)
    with Some a => [a] | None => [] end)) as Hack.
  { intros ?. destruct (to_bool _); [|constructor]. constructor; [split; [done|apply msg_like_refl]|constructor]. }
  assert (forall e e' rs, msg_like (MEvent e) (MEvent e') ->
    Forall2 outs_like (map (fun r : N => (MEvent e, r)) rs) (map (fun r => (MEvent e', r)) rs)) as Hev.
  { intros e e' rs' He. induction rs'; constructor; [by split|done]. }
  destruct (b_find _ _ _) as [l|]; [|split; [done|apply Hack]].
  destruct (b_heap _ !! l) as [s|]; [|done].
  destruct (decide _); [split; [done|apply Hack]|].
  destruct (b_details _); [destruct (b_sessions _ !! c); [|done]|];
    (split; [done|]); (apply Forall2_app; [apply Hev; by apply event_like|apply Hack]).
Qed.

Lemma call_like o b c r op op' p a a' k k' x x' d :
  fld_like (FDict op) (FDict op') -> fld_like (FArgs a) (FArgs a') -> fld_like (FKwArgs k) (FKwArgs k') ->
  bp_binary x = false -> bp_binary x' = false ->
  answers_like (answers o c (MCall (Call r op p a k x)) b d) (answers o c (MCall (Call r op' p a' k' x')) b d).
Proof.
  intros Ho Ha Hk Hx Hx'. unfold answers, dstep, d_receive_message, d_call, d_allocate, d_details_map, d_send, bool_opt.
  cbn [ca_options ca_request ca_procedure ca_args ca_kwargs ca_bin].
  rewrite Hx, Hx', !(like_flag op op' _ Ho). cbn [andb].
  assert (forall s m m' to, msg_like m m' -> answers_like (Ret s [(m, to)]) (Ret s [(m', to)])) as Hone.
  { intros ???? Hl. split; [done|]. constructor; [by split|constructor]. }
  destruct (d_find _ _ _) as [l|]; [|apply Hone, msg_like_refl].
  destruct (d_heap d !! l) as [g|]; [|done].
  destruct (decide _); [apply Hone, msg_like_refl|].
  destruct (d_pick o g) as [[callee nx]|]; [|done].
  destruct (match d_inv _ !! (c, r) with Some _ => _ | None => _ end) as [d1 inv].
  destruct (d_details d1); [destruct (d_sessions d1 !! c); [|done]|];
    (destruct (d_sessions d1 !! callee); [|by split]); apply Hone; by apply invocation_like.
Qed.

Lemma yield_like o b c r op op' a a' k k' x x' d :
  fld_like (FDict op) (FDict op') -> fld_like (FArgs a) (FArgs a') -> fld_like (FKwArgs k) (FKwArgs k') ->
  bp_binary x = false -> bp_binary x' = false ->
  answers_like (answers o c (MYield (Yield r op a k x)) b d) (answers o c (MYield (Yield r op' a' k' x')) b d).
Proof.
  intros Ho Ha Hk Hx Hx'. unfold answers, dstep, d_receive_message, d_yield, bool_opt.
  cbn [yi_options yi_request yi_args yi_kwargs yi_bin].
  rewrite Hx, Hx', !(like_flag op op' _ Ho). cbn [andb].
  destruct (d_pending d !! r) as [p|]; [|by split].
  destruct (d_sessions _ !! pe_caller p); [|by split].
  split; [done|]. constructor; [|constructor]. split; [done|]. by apply result_like.
Qed.

Lemma err_like o b c t r dt dt' u a a' k k' d :
  fld_like (FDict dt) (FDict dt') -> fld_like (FArgs a) (FArgs a') -> fld_like (FKwArgs k) (FKwArgs k') ->
  answers_like (answers o c (MError (Error t r dt u a k)) b d) (answers o c (MError (Error t r dt' u a' k')) b d).
Proof.
  intros Ho Ha Hk. unfold answers, dstep, d_receive_message, d_error.
  cbn [er_type er_request er_details er_uri er_args er_kwargs].
  destruct (negb _); [by split|]. destruct (d_pending d !! _) as [p|]; [|by split].
  split; [done|]. constructor; [|constructor]. split; [done|]. by apply error_like.
Qed.
Lemma subscribe_like o b c r op op' t d : (forall k s, mget op k <> VMethod s) ->
  fld_like (FDict op) (FDict op') ->
  answers_like (answers o c (MSubscribe (Subscribe r op t)) b d) (answers o c (MSubscribe (Subscribe r op' t)) b d).
Proof.
  intros Hm Hf.
  replace (answers o c (MSubscribe (Subscribe r op t)) b d) with (answers o c (MSubscribe (Subscribe r op' t)) b d);
    [apply answers_same|].
  unfold answers, bstep, b_receive_message, b_subscribe. cbn [su_topic su_options su_request].
  by rewrite (like_string (mget op opt_match) (mget op' opt_match) (Hm _) (like_get op op' _ Hf)).
Qed.
Lemma register_like o b c r op op' t d : (forall k s, mget op k <> VMethod s) ->
  fld_like (FDict op) (FDict op') ->
  answers_like (answers o c (MRegister (Register r op t)) b d) (answers o c (MRegister (Register r op' t)) b d).
Proof.
  intros Hm Hf.
  replace (answers o c (MRegister (Register r op t)) b d) with (answers o c (MRegister (Register r op' t)) b d);
    [apply answers_same|].
  unfold answers, dstep, d_receive_message, d_register. cbn [rg_procedure rg_options rg_request].
  by rewrite (like_string (mget op o_match) (mget op' o_match) (Hm _) (like_get op op' _ Hf)),
     (like_string (mget op o_invoke) (mget op' o_invoke) (Hm _) (like_get op op' _ Hf)).
Qed.

Lemma answers_congr o c m m' b d : msg_like m m' ->
  bp_binary (msg_bin m) = false -> bp_binary (msg_bin m') = false ->
  (forall k s, mget (options_of m) k <> VMethod s) ->
  answers_like (answers o c m b d) (answers o c m' b d).
Proof.
  intros H Hx Hx' Hm. destruct m; like_inv H; try apply answers_same; try (by split).
  - by apply err_like.
  - by apply publish_like.
  - by apply subscribe_like.
  - by apply call_like.
  - by apply register_like.
  - by apply yield_like.
Qed.
