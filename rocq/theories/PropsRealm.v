(** Properties C99 to C101: identities, answers and panics at a router put
    together from Acceptor, Broker and Dealer (Realm.v); the words used are
    defined in RealmSpec.v. *)
From Verif Require Import Prelude Value Msg IdGen Types Auth Acceptor AuthSpec AuthEx Broker Dealer DealerSpec DealerKind DealerEx
  Realm RealmSpec RealmProofs RealmCrash RealmEx.

Local Open Scope string_scope.
Local Open Scope list_scope.

(** ** C99 *)
Theorem C99_recipient : forall (CR : Crypto) statics ops r x new j m past, N.of_nat (length ops) <= two53 ->
  rrun ops (new_realm statics) = Ret r x -> rl_log r = new ++ RGave j m :: past ->
  exists d, on past j = Some d /\ authenticated past j d.
Proof. exact @gives_to_welcomed. Qed.
Theorem C99_caller : forall (CR : Crypto) statics ops r x new j v past, N.of_nat (length ops) <= two53 ->
  rrun ops (new_realm statics) = Ret r x -> rl_log r = new ++ RGave j (MInvocation v) :: past ->
  exists i d c past', past = RTook i (MCall c) :: past' /\ on past' i = Some d /\ authenticated past' i d
    /\ shows (in_details v) "caller" (if snd (disclosure past') then Some d else None).
Proof. exact @caller_shown. Qed.
Theorem C99_publisher : forall (CR : Crypto) statics ops r x new j e past, N.of_nat (length ops) <= two53 ->
  rrun ops (new_realm statics) = Ret r x -> rl_log r = new ++ RGave j (MEvent e) :: past ->
  exists i d p gs past', past = gs ++ RTook i (MPublish p) :: past'
    /\ Forall (fun g => exists k, g = RGave k (MEvent e)) gs /\ on past' i = Some d /\ authenticated past' i d
    /\ shows (ev_details e) "publisher" (if fst (disclosure past') then Some d else None).
Proof. exact @publisher_shown. Qed.
Theorem C99_one_connection_per_id : forall (CR : Crypto) statics ops r x i j d d', N.of_nat (length ops) <= two53 ->
  rrun ops (new_realm statics) = Ret r x -> on (rl_log r) i = Some d -> on (rl_log r) j = Some d' ->
  se_id d = se_id d' -> i = j.
Proof. exact @one_connection. Qed.
(** Alice's call before and after disclosure is switched on, and her
    publication; connection 3 is given nothing. *)
Example C99_ex : forall CR : Crypto, exists v v' e,
  gaves ops_shown = [RGave 0 (MPublished (Published 3 2)); RGave 1 (MEvent e);
     RGave 0 (MResult (Result 1 (Some []) (Some [VStr "yo"]) None no_bin)); RGave 1 (MInvocation v');
     RGave 1 (MInvocation v); RGave 1 (MSubscribed (Subscribed 2 1)); RGave 1 (MRegistered (Registered 1 1))]
  /\ mget (in_details v) "caller_authid" = VNil /\ mget (in_details v') "caller_authid" = VStr "alice"
  /\ mget (ev_details e) "publisher_authrole" = VStr "user"
  /\ on (rlog ops_shown) 3 = None /\ is_Some (on (rlog ops_shown) 0).
Proof. intros CR. do 3 eexists. split; [vm_compute; reflexivity|]. repeat split; vm_compute; by eauto. Qed.

(** ** C100 *)
Theorem C100_result_partial : forall (CR : Crypto) statics ops r u new j x past, N.of_nat (length ops) <= two53 ->
  rrun ops (new_realm statics) = Ret r u -> NoDup (session_ids (rl_log r)) ->
  rl_log r = new ++ RGave j (MResult x) :: past -> exists c, RTook j (MCall c) ∈ past /\ ca_request c = re_request x.
Proof. exact @result_own. Qed.
Theorem C100_error_partial : forall (CR : Crypto) statics ops r u new j x past, N.of_nat (length ops) <= two53 ->
  rrun ops (new_realm statics) = Ret r u -> NoDup (session_ids (rl_log r)) ->
  rl_log r = new ++ RGave j (MError x) :: past -> er_type x = 48 ->
  exists c, RTook j (MCall c) ∈ past /\ ca_request c = er_request x.
Proof. exact @error_own. Qed.
Example C100_ex : forall CR : Crypto, NoDup (session_ids (rlog ops_shown))
  /\ RGave 0 (MResult (Result 1 (Some []) (Some [VStr "yo"]) None no_bin)) ∈ rlog ops_shown.
Proof.
  intros CR. split; [vm_compute; repeat constructor; set_solver|].
  assert (H : exists a b l, gaves ops_shown = a :: b :: RGave 0 (MResult (Result 1 (Some []) (Some [VStr "yo"]) None no_bin)) :: l)
    by (do 3 eexists; vm_compute; reflexivity).
  destruct H as (a & b & l & H). apply gave_in. rewrite H. by right; right; left.
Qed.
(** A session id drawn again after its first holder left: what was for Alice
    goes to somebody anonymous who never called. *)
Theorem C100_reused_id_refuted : forall CR : Crypto, exists ops r j x past d, N.of_nat (length ops) < 20
  /\ rrun ops (new_realm (fun _ => false)) = Ret r tt /\ rl_log r = RGave j (MResult x) :: past
  /\ (forall c, RTook j (MCall c) ∉ past) /\ on past j = Some d /\ se_authid d = "nobody"
  /\ exists i c d', RTook i (MCall c) ∈ past /\ ca_request c = re_request x
       /\ RAttached i d' ∈ past /\ se_authid d' = "alice".
Proof.
  intros CR. destruct (rlog_run ops_reused) as (r & H & E); [by vm_compute|].
  assert (exists x past, rlog ops_reused = RGave 2 (MResult x) :: past /\ no_call 2 past = true
    /\ se_authid <$> on past 2 = Some "nobody"
    /\ called 0 (re_request x) past = true /\ came 0 "alice" past = true)
    as (x & past & El & Hn & Ho & H1 & H2).
  { do 2 eexists. split; [vm_compute; reflexivity|]. by repeat split; vm_compute. }
  rewrite El in E. destruct (on past 2) as [d|] eqn:Hd; [|done]. injection Ho as Ho.
  exists ops_reused, r, 2%nat, x, past, d. split; [by vm_compute|]. split; [done|]. split; [done|].
  split; [intros c; by apply no_call_sound|]. split; [done|]. split; [done|].
  apply called_sound in H1 as (c & Hin1 & H1). apply came_sound in H2 as (d' & Hin2 & H2).
  exists 0%nat, c, d'. by repeat split.
Qed.

(** ** C101 *)
Theorem C101_one_client_refuted : forall CR : Crypto, exists ops w,
  Forall proper_op ops /\ Forall (fun op => match op with RMessage 0 _ _ _ => True | _ => False end) ops
  /\ rrun ops (new_realm (fun _ => false)) = Crash w.
Proof.
  intros CR. exists ops_rude. eexists. split; [exact rude_proper|]. split; [by repeat constructor|vm_compute; reflexivity].
Qed.
(** With proper authenticators only a CALL, an UNREGISTER or the leaving of an
    added session can. *)
Theorem C101_causes_partial : forall (CR : Crypto) statics ops op r w, N.of_nat (length ops) <= two53 ->
  Forall proper_op (ops ++ [op]) -> rrun ops (new_realm statics) = Ret r tt -> rstep op r = Crash w ->
  (exists i e o m d, op = RMessage i e o m /\ on (rl_log r) i = Some d
     /\ match m with MCall _ | MUnregister _ => True | _ => False end)
  \/ exists i o d, op = RClose i o /\ on (rl_log r) i = Some d.
Proof. exact @crash_from_session. Qed.
(** And if clients keep the rules of C48, nothing does. *)
Theorem C101_kindly_partial : forall (CR : Crypto) statics ops, Forall proper_op ops -> kindly statics ops ->
  N.of_nat (length ops) <= two53 -> exists r, rrun ops (new_realm statics) = Ret r tt.
Proof. intros CR statics ops H1 H2 H3. destruct (kindly_run statics ops H1 H2 H3) as (r & H & _). by exists r. Qed.
Example C101_ex : forall CR : Crypto, Forall proper_op ops_kind /\ kindly (fun _ => false) ops_kind
  /\ length (gaves ops_kind) = 6%nat.
Proof. intros CR. split; [exact kind_proper|]. split; [exact ops_kind_kindly|by vm_compute]. Qed.

(** * Assumptions *)
Print Assumptions C99_recipient.
Print Assumptions C99_caller.
Print Assumptions C99_publisher.
Print Assumptions C99_one_connection_per_id.
Print Assumptions C100_result_partial.
Print Assumptions C100_error_partial.
Print Assumptions C100_reused_id_refuted.
Print Assumptions C101_one_client_refuted.
Print Assumptions C101_causes_partial.
Print Assumptions C101_kindly_partial.
