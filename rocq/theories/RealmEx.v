(** Concrete runs of a router, with any cryptographic primitives. *)
From Verif Require Import Prelude Value Msg IdGen Types Auth Acceptor AuthSpec Joiner AuthEx Broker Dealer DealerSpec DealerKind DealerEx DealerKindEx
  Realm RealmSpec.

Local Open Scope string_scope.
Local Open Scope list_scope.

(** The authenticator of AuthEx, with a session id of our choice. *)
Definition renv (id : N) : aenv :=
  AEnv ["anonymous"; "ticket"] toy_answer id 5 (Some "sixteen bytes...") "2026-11-16T00:00:00.000Z" (Some toy_rand).
Definition rmsg (i : nat) (m : message) : rop := RMessage i (renv 0) e0 m.
(** Connection [i] joins: anonymously, and as alice with a ticket. *)
Definition join_anon (i : nat) (id : N) : list rop := [RMessage i (renv id) e0 (MHello (toy_hello ["anonymous"]))].
Definition join_alice (i : nat) (id : N) : list rop :=
  [RMessage i (renv id) e0 (MHello (toy_hello ["ticket"])); RMessage i (renv id) e0 (auth_msg "open sesame")].
Definition r_reg (req : N) (p : string) : message := MRegister (Register req (Some []) p).

(** Alice calls and publishes; the connection 1 serves and listens; connection 3
    tries a wrong ticket and then a call. *)
Definition ops_shown : list rop :=
  join_alice 0 11 ++ join_anon 1 12 ++
  [RMessage 3 (renv 13) e0 (MHello (toy_hello ["ticket"])); RMessage 3 (renv 13) e0 (auth_msg "please");
   rmsg 1 (r_reg 1 "p"); rmsg 1 (MSubscribe (Subscribe 2 (Some []) "t"));
   rmsg 0 (MCall (acall 1 "p" [])); RDisclose true true;
   rmsg 0 (MCall (acall 2 "p" [])); rmsg 1 (MYield (ayield 2 []));
   rmsg 0 (MPublish (Publish 3 (Some [("acknowledge", VBool true)]) "t" None None));
   rmsg 3 (MCall (acall 4 "p" []))].

(** Alice calls and leaves; her session id is drawn again for connection 2. *)
Definition ops_reused : list rop :=
  join_alice 0 11 ++ join_anon 1 12 ++
  [rmsg 1 (r_reg 1 "p"); rmsg 0 (MCall (acall 1 "p" [])); RClose 0 e0] ++
  join_anon 2 11 ++ [rmsg 1 (MYield (ayield 2 []))].

(** One anonymous client. *)
Definition ops_rude : list rop :=
  join_anon 0 11 ++ [rmsg 0 (r_reg 1 "p"); rmsg 0 (MUnregister (Unregister 2 99))].

Section ex.
Context {CR : Crypto}.
Definition rlog (ops : list rop) : list revent :=
  match rrun ops (new_realm (fun _ => false)) with Ret r _ => rl_log r | Crash _ => [] end.
Definition is_gave (e : revent) : bool := match e with RGave _ _ => true | _ => false end.
Definition gaves (ops : list rop) : list revent := filter is_gave (rlog ops).

Lemma gave_in e ops : e ∈ gaves ops -> e ∈ rlog ops.
Proof. unfold gaves. intros H. by apply elem_of_list_filter in H as [_ H]. Qed.
Lemma rlog_run ops : rlog ops <> [] -> exists r, rrun ops (new_realm (fun _ => false)) = Ret r tt /\ rl_log r = rlog ops.
Proof. unfold rlog. destruct (rrun ops (new_realm (fun _ => false))) as [r []|w]; [|done]. intros _. by exists r. Qed.
End ex.

(** Nothing of what connection [j] sent is a CALL. *)
Definition no_call (j : nat) (log : list revent) : bool :=
  forallb (fun e => match e with RTook k (MCall _) => negb (Nat.eqb k j) | _ => true end) log.
Lemma no_call_sound j log c : no_call j log = true -> RTook j (MCall c) ∉ log.
Proof.
  intros H Hin. unfold no_call in H. rewrite forallb_forall in H. apply elem_of_list_In in Hin. specialize (H _ Hin).
  cbn in H. by rewrite Nat.eqb_refl in H.
Qed.

(** A call of [i] with this request id; [i] joined under this name. *)
Definition called (i : nat) (q : N) (log : list revent) : bool :=
  existsb (fun e => match e with RTook k (MCall c) => Nat.eqb k i && N.eqb (ca_request c) q | _ => false end) log.
Definition came (i : nat) (name : string) (log : list revent) : bool :=
  existsb (fun e => match e with RAttached k d => Nat.eqb k i && String.eqb (se_authid d) name | _ => false end) log.
Lemma called_sound i q log : called i q log = true -> exists c, RTook i (MCall c) ∈ log /\ ca_request c = q.
Proof.
  intros (e & Hin & H)%existsb_exists. destruct e as [| | |k m| |]; try discriminate. destruct m; try discriminate.
  apply andb_true_iff in H as [->%Nat.eqb_eq H%N.eqb_eq]. eexists. rewrite elem_of_list_In. by split.
Qed.
Lemma came_sound i n log : came i n log = true -> exists d, RAttached i d ∈ log /\ se_authid d = n.
Proof.
  intros (e & Hin & H)%existsb_exists. destruct e as [|k d| | | |]; try discriminate.
  apply andb_true_iff in H as [->%Nat.eqb_eq H%String.eqb_eq]. eexists. rewrite elem_of_list_In. by split.
Qed.

Section kind.
Context {CR : Crypto}.
Lemma renv_proper id rq : proper_answer (av_answer (renv id) rq) /\ proper_keylen (av_answer (renv id) rq).
Proof.
  destruct rq as [m r i x [|t|pk]]; cbn [av_answer renv]; unfold toy_answer; cbn [rq_kind rq_method].
  - destruct (String.eqb m "wampcra"); [|destruct (String.eqb m "anonymous")]; (split; [discriminate|]);
      try exact I. right. cbn. pose proof kdf_max_ok. lia.
  - destruct (String.eqb t "open sesame"); split; try discriminate; exact I.
  - destruct (String.eqb pk toy_pub); split; try discriminate; exact I.
Qed.
Lemma rude_proper : Forall proper_op ops_rude.
Proof. repeat (apply Forall_cons; split; [exact (renv_proper _)|]). by apply Forall_nil. Qed.

Fixpoint kind_run (ops : list rop) (r : realm) : Prop :=
  match ops with
  | [] => True
  | op :: ops' => kind_op r op /\ match rstep op r with Ret r' _ => kind_run ops' r' | Crash _ => True end
  end.
Lemma kind_run_kindly statics ops : kind_run ops (new_realm statics) -> kindly statics ops.
Proof.
  intros H pre op post r ->. revert H. generalize (new_realm statics).
  induction pre as [|x pre IH]; intros r0; cbn [kind_run rrun app].
  - by intros [H _] [= <-].
  - intros [_ H]. destruct (rstep x r0) as [r1 u|w]; [|done]. by apply IH.
Qed.
(** Alice and somebody share "p"; one gives it up, the other leaves. *)
Definition ops_kind : list rop :=
  join_alice 0 11 ++ join_anon 1 12 ++ join_anon 2 13 ++
  [rmsg 0 (MRegister (Register 1 (Some rr) "p")); rmsg 1 (MRegister (Register 1 (Some rr) "p"));
   rmsg 2 (MCall (acall 1 "p" [])); rmsg 0 (MUnregister (Unregister 2 1)); rmsg 2 (MCall (acall 2 "p" []));
   RClose 1 e0; rmsg 2 (MCall (acall 3 "p" [])); RClose 2 e0].
Lemma kind_proper : Forall proper_op ops_kind.
Proof. repeat (apply Forall_cons; split; [first [exact (renv_proper _)|exact I]|]). by apply Forall_nil. Qed.
Lemma ops_kind_kindly : kindly (fun _ => false) ops_kind.
Proof.
  apply kind_run_kindly. vm_compute. repeat (match goal with
    | |- _ /\ _ => split
    | |- True => exact I
    | H : exists _, _ |- _ => destruct H
    | H : _ /\ _ |- _ => destruct H
    | H : _ \/ _ |- _ => destruct H
    | H : False |- _ => destruct H
    | H : ?x <> ?x |- _ => by destruct H
    | H : ?x = ?y |- _ => first [discriminate H | injection H; clear H; intros; subst | subst]
    | |- _ -> _ => intros ?
    end); try tauto; try congruence.
  all: left; exists "p"; own.
Qed.
End kind.
