(** Concurrent use of a session: every acceptance is paid for. *)
From Verif Require Import Prelude Value Msg Mutex Session SessionSpec SessionProofs.

Lemma filter_length_cons {A} (f : A -> bool) x l :
  length (List.filter f (x :: l)) = ((if f x then 1 else 0) + length (List.filter f l))%nat.
Proof. cbn. by destruct (f x). Qed.

Section bank.
(** Calls satisfying [pays] bring a coin when they begin; the session holds
    [pool s] coins; a call satisfying [costs] needs a coin to be accepted. *)
Context (pool : session -> nat) (pays costs : sop -> bool).

Fixpoint funded (op : sop) (own : nat) (p : sprog) : Prop :=
  match p with
  | PRet r => match r with Ok _ => if costs op then (1 <= own)%nat else True | _ => True end
  | PAct f => forall s, match f s with
                        | (s', p') => exists own', (pool s' + own' <= pool s + own)%nat /\ funded op own' p'
                        end
  end.

Hypothesis start : pool new_session = 0%nat.
Hypothesis pay : forall op, funded op (if pays op then 1 else 0)%nat (sop_prog op).

Fixpoint total (l : list nat) : nat := match l with [] => 0 | x :: l' => x + total l' end%nat.
Definition thread_ok (t : gothread) (own : nat) : Prop :=
  match gt_now t with None => True | Some (op, p) => funded op own p end.
Definition solvent (c : gconfig) : Prop :=
  exists owns : list nat, Forall2 thread_ok (g_threads c) owns
    /\ (accepted costs (g_log c) + total owns + pool (g_state c) <= begun pays (g_log c))%nat.

Lemma sum_insert (l : list nat) i x y : l !! i = Some x ->
  (total (<[i := y]> l) + x = total l + y)%nat.
Proof.
  intros H. rewrite <- (take_drop_middle l i x H) at 2. rewrite insert_take_drop by (by eapply lookup_lt_Some).
  assert (forall a b, total (a ++ b) = total a + total b)%nat as A
    by (induction a as [|? a IH]; intros b; cbn; [done|rewrite IH; lia]).
  rewrite !A. cbn. lia.
Qed.

Lemma solvent_step c c' : solvent c -> gstep c c' -> solvent c'.
Proof.
  intros (owns & F & B) Hstep. revert owns F B.
  destruct Hstep as [t op todo s th log Ht|t op f todo s s' p' th log Ht E|t op r todo s th log Ht]; intros owns F B;
    unfold begun, accepted in *; cbn [g_threads g_state g_log] in *;
    destruct (Forall2_lookup_l _ _ _ _ _ F Ht) as (own & Ho & Hok); unfold thread_ok in Hok; cbn [gt_now] in Hok.
  - exists (<[t := (own + if pays op then 1 else 0)%nat]> owns). split.
    + apply Forall2_insert; [done|]. unfold thread_ok; cbn [gt_now].
      assert (forall p o o', (o <= o')%nat -> funded op o p -> funded op o' p) as Mono.
      { clear. fix IH 1. intros [r|f] o o' Ho Hf.
        - destruct r; [|done..]. cbn in *. destruct (costs op); [lia|done].
        - intros s. specialize (Hf s). destruct (f s) as [s' p']. destruct Hf as (own' & H1 & H2).
          exists own'. split; [lia|done]. }
      apply (Mono _ (if pays op then 1 else 0)%nat); [lia|apply pay].
    + pose proof (sum_insert _ _ _ (own + if pays op then 1 else 0)%nat Ho) as Hs.
      unfold accepted, begun; cbn [g_log g_state]; rewrite !filter_length_cons. destruct (pays op); lia.
  - cbn [funded] in Hok. specialize (Hok s). rewrite E in Hok. destruct Hok as (own' & Hp & Hf).
    exists (<[t := own']> owns). split; [by apply Forall2_insert|].
    pose proof (sum_insert _ _ _ own' Ho) as Hs. unfold accepted, begun; cbn [g_log g_state]. lia.
  - exists (<[t := (own - match r with Ok _ => if costs op then 1 else 0 | _ => 0 end)%nat]> owns). split.
    + by apply Forall2_insert.
    + match goal with |- context [<[t := ?v]> owns] => pose proof (sum_insert _ _ _ v Ho) as Hs end.
      cbn [funded] in Hok. unfold accepted, begun; cbn [g_log g_state]; rewrite !filter_length_cons. destruct r; [|lia..]. destruct (costs op); lia.
Qed.

Theorem bank work c : greach (ginit work) c ->
  (accepted costs (g_log c) <= begun pays (g_log c))%nat.
Proof.
  intros R. assert (solvent c) as (owns & _ & H); [|lia].
  induction R as [|c c' R IH Hs]; [|by apply (solvent_step c)].
  exists (map (fun _ => 0%nat) work). split; cbn.
  - induction work; constructor; done.
  - rewrite start. induction work as [|w work IH]; [done|]. cbn in *. lia.
Qed.
End bank.

Section flag.
(** The pool is one flag [mem] of the session. *)
Context (mem : session -> bool) (pays costs : sop -> bool).
Definition held (s : session) : nat := if mem s then 1 else 0.

(** The program never turns the flag on. *)
Fixpoint quiet (p : sprog) : Prop :=
  match p with
  | PRet _ => True
  | PAct f => forall s, match f s with (s', p') => (mem s' = true -> mem s = true) /\ quiet p' end
  end.
Lemma quiet_funded op p : costs op = false -> quiet p -> forall own, funded held costs op own p.
Proof.
  intros Hc. revert p. fix IH 1. intros [r|f] Q own.
  - cbn. destruct r; [|done..]. by rewrite Hc.
  - intros s. specialize (Q s). destruct (f s) as [s' p']. destruct Q as [Q1 Q2].
    exists own. split; [|by apply IH]. unfold held. destruct (mem s'); [rewrite Q1 by done|]; lia.
Qed.
(** Turning it on, paid for. *)
Lemma store_funded op f r : costs op = false -> funded held costs op 1 (write f (PRet r)).
Proof.
  intros Hc s. exists 0%nat. split; [unfold held; destruct (mem _), (mem _); lia|].
  cbn. destruct r; [|done..]. by rewrite Hc.
Qed.
Lemma load_funded op (get : session -> bool) k own : costs op = false ->
  (forall x, funded held costs op own (k x)) -> funded held costs op own (load get k).
Proof. intros Hc H s. exists own. split; [lia|apply H]. Qed.
(** Taking it. *)
Lemma take_funded op (get : session -> bool) del k own :
  (forall s, get s = true -> mem s = true) -> (forall s, mem (del s) = true -> get s = false) ->
  (forall s, mem (del s) = true -> mem s = true) ->
  funded held costs op 1 (k true) -> funded held costs op own (k false) ->
  funded held costs op own (load_and_delete get del k).
Proof.
  intros H1 H2 H3 F1 F2 s. cbn. destruct (get s) eqn:G.
  - exists 1%nat. split; [|done]. unfold held. rewrite (H1 _ G).
    destruct (mem (del s)) eqn:D; [specialize (H2 _ D); congruence|lia].
  - exists own. split; [|done]. unfold held. destruct (mem (del s)) eqn:D; [rewrite (H3 _ D)|]; lia.
Qed.
End flag.

Ltac each_op := intros [[data|e|w] m|[m|e|w]|m]; try exact I;
  destruct m as [m|m|m|m|m|m|m|m|m|m|m|m|m|m|m|m|m|m|m|m|m|m|m|m].
Ltac keep := intros ?H; apply bool_decide_eq_true_1 in H; apply bool_decide_eq_true_2; cbn in *;
  first [done | set_solver | (rewrite lookup_delete_is_Some in H; tauto)
        | (rewrite lookup_insert_is_Some in H; naive_solver)].
Ltac hush :=
  repeat match goal with
  | |- quiet _ (PRet _) => exact I
  | |- quiet _ (if ?b then _ else _) => destruct b
  | |- quiet _ (match ?x with Some _ => _ | None => _ end) => destruct x
  | |- quiet _ (PAct _) => intros ?s
  | |- quiet _ (write _ _) => intros ?s
  | |- quiet _ (load _ _) => intros ?s
  | |- quiet _ (load_and_delete _ _ _) => intros ?s
  | |- (_ = true -> _ = true) /\ _ => split; [solve [keep]|]
  end.
Ltac free := (* the call does not need a coin *)
  unfold is_error, is_registered, is_published, tCall, tRegister, tUnregister, tSubscribe, tUnsubscribe, tPublish in *; cbn [received_message];
  try reflexivity;
  repeat match goal with |- context [?a =? ?b] => destruct (N.eqb_spec a b); try congruence end; reflexivity.
Ltac quietly := solve [apply quiet_funded; [free|hush]].
Ltac gone_or_not := intros ?s ?H; cbn in *;
  first [exact H
        |apply bool_decide_eq_true_1 in H; first [apply bool_decide_eq_true_2|apply bool_decide_eq_false_2];
         first [set_solver|rewrite lookup_delete_is_Some in H; tauto|rewrite lookup_delete_is_Some in H; intros ?; tauto]].
Ltac grab := solve [apply take_funded; [gone_or_not|gone_or_not|gone_or_not
  |cbn; try (intros ?s; exists 1%nat; split; [apply Nat.le_refl|]); repeat case_match; first [exact I|lia|done]
  |exact I]].
Ltac leaf := first [exact I | quietly | grab
  | match goal with H : ?x = ?r |- _ => is_var r; subst r; first [quietly|grab] end].
Ltac errors := repeat match goal with
  | |- funded _ _ _ _ (if er_type ?m =? ?T then _ else _) => destruct (N.eqb_spec (er_type m) T) end.
Ltac ident r := match goal with
  | |- context [ca_request ?m] => destruct (decide (ca_request m = r))
  | |- context [rg_request ?m] => destruct (decide (rg_request m = r))
  | |- context [pu_request ?m] => destruct (decide (pu_request m = r))
  | |- context [su_request ?m] => destruct (decide (su_request m = r))
  | |- context [ur_request ?m] => destruct (decide (ur_request m = r))
  | |- context [us_request ?m] => destruct (decide (us_request m = r))
  | |- context [rd_request ?m] => destruct (decide (rd_request m = r))
  | |- context [pd_request ?m] => destruct (decide (pd_request m = r))
  | |- context [er_request ?m] => destruct (decide (er_request m = r))
  end.
Ltac sender := match goal with |- context [if ?a =? ?b then _ else _] => destruct (N.eqb_spec a b) end;
  first [solve [apply store_funded; reflexivity]
        |solve [case_match; [apply store_funded; reflexivity|quietly]]
        |solve [apply load_funded; [reflexivity|intros []; [apply store_funded; reflexivity|exact I]]]
        |quietly].
Ltac bank_it r := each_op;
  cbn [is_call is_register is_publish is_subscribe is_unregister is_unsubscribe sent_message sop_prog receive_prog send_prog];
  try quietly; try sender; errors; try exact I; try quietly; ident r; leaf.

Section request.
Context (r : N).
Notation in_set X := (held (fun s => bool_decide (r ∈ X s))).
Notation in_map X := (held (fun s => bool_decide (is_Some (X s !! r)))).
Lemma register_pay : forall op, funded (in_set cs_registers)
  (fun op => is_registered r op || is_error 64 r op) op (if is_register r op then 1 else 0) (sop_prog op).
Proof. bank_it r. Qed.
Lemma publish_pay : forall op, funded (in_set cs_publishes)
  (fun op => is_published r op || is_error 16 r op) op (if is_publish r op then 1 else 0) (sop_prog op).
Proof. bank_it r. Qed.
Lemma call_pay : forall op, funded (in_set cs_calls) (is_error 48 r) op (if is_call r op then 1 else 0) (sop_prog op).
Proof. bank_it r. Qed.
Lemma subscribe_pay : forall op, funded (in_set cs_subscribes) (is_error 32 r) op (if is_subscribe r op then 1 else 0) (sop_prog op).
Proof. bank_it r. Qed.
Lemma unregister_pay : forall op, funded (in_map cs_unregisters) (is_error 66 r) op (if is_unregister r op then 1 else 0) (sop_prog op).
Proof. bank_it r. Qed.
Lemma unsubscribe_pay : forall op, funded (in_map cs_unsubscribes) (is_error 34 r) op (if is_unsubscribe r op then 1 else 0) (sop_prog op).
Proof. bank_it r. Qed.
End request.

Lemma size_add (X : gset N) x : (size ({[x]} ∪ X) <= size X + 1)%nat.
Proof. rewrite size_union_alt, size_singleton. pose proof (subseteq_size (X ∖ {[x]}) X). set_solver by lia. Qed.
Lemma size_del (X : gset N) x : (size (X ∖ {[x]}) <= size X)%nat.
Proof. apply subseteq_size. set_solver. Qed.
Lemma size_del_in (X : gset N) x : x ∈ X -> (size (X ∖ {[x]}) + 1 <= size X)%nat.
Proof.
  intros H. rewrite size_difference by set_solver. rewrite size_singleton.
  assert (size {[x]} <= size X)%nat as L by (apply subseteq_size; set_solver). rewrite size_singleton in L. lia.
Qed.

Ltac total_it pool :=
  each_op; unfold any_registered, any_unregistered, any_subscribed, any_unsubscribed;
  cbn [received_message sop_prog receive_prog send_prog];
  repeat match goal with
  | |- funded _ _ _ _ (PRet _) => first [exact I | cbn; lia]
  | |- funded _ _ _ _ (if ?b then _ else _) => destruct b eqn:?
  | |- funded _ _ _ _ (match ?x with Some _ => _ | None => _ end) => destruct x eqn:?
  | |- funded _ _ _ ?own _ => let s := fresh "s" in intros s; cbn [write load load_and_delete];
      first [ exists own; split; [apply Nat.le_refl|]
            | exists 0%nat; split; [cbn; rewrite Nat.add_0_r; apply size_add|]
            | match goal with |- context [pool s ∖ {[?g]}] =>
                let D := fresh "D" in destruct (bool_decide (g ∈ pool s)) eqn:D;
                [apply bool_decide_eq_true_1 in D; exists 1%nat; split; [cbn; pose proof (size_del_in _ _ D); lia|]
                |exists 0%nat; split; [cbn; pose proof (size_del (pool s) g); lia|]] end ]
  end.
Lemma unregistered_pay : forall op, funded (fun s => size (cs_registrations s)) any_unregistered op
  (if any_registered op then 1 else 0) (sop_prog op).
Proof. total_it cs_registrations. Qed.
Lemma unsubscribed_pay : forall op, funded (fun s => size (cs_subscriptions s)) any_unsubscribed op
  (if any_subscribed op then 1 else 0) (sop_prog op).
Proof. total_it cs_subscriptions. Qed.

Lemma concurrent_register work c r : greach (ginit work) c ->
  (accepted (fun op => is_registered r op || is_error 64 r op) (g_log c) <= begun (is_register r) (g_log c))%nat.
Proof. exact (bank _ _ _ eq_refl (register_pay r) work c). Qed.
Lemma concurrent_publish work c r : greach (ginit work) c ->
  (accepted (fun op => is_published r op || is_error 16 r op) (g_log c) <= begun (is_publish r) (g_log c))%nat.
Proof. exact (bank _ _ _ eq_refl (publish_pay r) work c). Qed.
Lemma concurrent_errors work c r : greach (ginit work) c ->
  (accepted (is_error 48 r) (g_log c) <= begun (is_call r) (g_log c)
  /\ accepted (is_error 32 r) (g_log c) <= begun (is_subscribe r) (g_log c)
  /\ accepted (is_error 66 r) (g_log c) <= begun (is_unregister r) (g_log c)
  /\ accepted (is_error 34 r) (g_log c) <= begun (is_unsubscribe r) (g_log c))%nat.
Proof.
  intros R. split; [exact (bank _ _ _ eq_refl (call_pay r) work c R)|].
  split; [exact (bank _ _ _ eq_refl (subscribe_pay r) work c R)|].
  split; [exact (bank _ _ _ eq_refl (unregister_pay r) work c R)|].
  exact (bank _ _ _ eq_refl (unsubscribe_pay r) work c R).
Qed.
Lemma concurrent_ends work c : greach (ginit work) c ->
  (accepted any_unregistered (g_log c) <= begun any_registered (g_log c)
  /\ accepted any_unsubscribed (g_log c) <= begun any_subscribed (g_log c))%nat.
Proof.
  intros R. split; [exact (bank _ _ _ eq_refl unregistered_pay work c R)|].
  exact (bank _ _ _ eq_refl unsubscribed_pay work c R).
Qed.
