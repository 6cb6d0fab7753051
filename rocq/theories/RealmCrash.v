(** When the router as a whole panics. *)
From Verif Require Import Prelude Value Msg IdGen Types Auth Acceptor AuthSpec AcceptorProofs PathMatch
  Broker BrokerSpec BrokerSafe BrokerProofs Dealer DealerSpec DealerFacts DealerRegs DealerCalls DealerProofs DealerPolite DealerFinal DealerKind DealerKindProofs
  Realm RealmSpec RealmProofs.

Local Open Scope list_scope.

Section realm.
Context {CR : Crypto}.
Implicit Types (r : realm) (log : list revent).

Record pinv r : Prop := {
  pi_b : brun new_broker (rl_bh r) = Ret (rl_broker r) (rl_bouts r);
  pi_d : drun new_dealer (rl_dh r) = Ret (rl_dealer r) (rl_douts r);
  pi_acc i : AcceptorProofs.inv (rl_acceptor r i) (shakes i (rl_log r)) /\ Forall proper_event (shakes i (rl_log r)) }.

Lemma pinv_new statics : pinv (new_realm statics).
Proof. constructor; [done|done|]. intros i. split; [apply init_inv|constructor]. Qed.

Lemma on_broker_ok r o op : pinv r -> exists b out, bstep o (rl_broker r) op = Ret b out
  /\ on_broker o op r = Ret (Realm (rl_acceptor r) (rl_session r) (rl_closed r) (rl_by_id r) b (rl_dealer r) (rl_log r)
             (rl_bh r ++ [(o, op)]) (rl_bouts r ++ [out]) (rl_dh r) (rl_douts r)) out
  /\ pinv (Realm (rl_acceptor r) (rl_session r) (rl_closed r) (rl_by_id r) b (rl_dealer r) (rl_log r)
             (rl_bh r ++ [(o, op)]) (rl_bouts r ++ [out]) (rl_dh r) (rl_douts r)).
Proof.
  intros P. destruct (broker_never_panics (rl_bh r ++ [(o, op)])) as (b & outs & H & _).
  rewrite brun_app, (pi_b _ P) in H. cbn [brun] in H.
  destruct (bstep o (rl_broker r) op) as [b' out|w] eqn:E; [|done].
  exists b', out. split; [done|]. unfold on_broker. rewrite E. split; [done|].
  constructor; [|apply P|apply P]. eapply RealmProofs.brun_snoc; [apply P|done].
Qed.
Lemma on_dealer_ok r o op d out : pinv r -> dstep o (rl_dealer r) op = Ret d out ->
  on_dealer o op r = Ret (Realm (rl_acceptor r) (rl_session r) (rl_closed r) (rl_by_id r) (rl_broker r) d (rl_log r)
             (rl_bh r) (rl_bouts r) (rl_dh r ++ [(o, op)]) (rl_douts r ++ [out])) out
  /\ pinv (Realm (rl_acceptor r) (rl_session r) (rl_closed r) (rl_by_id r) (rl_broker r) d (rl_log r)
             (rl_bh r) (rl_bouts r) (rl_dh r ++ [(o, op)]) (rl_douts r ++ [out])).
Proof.
  intros P E. unfold on_dealer. rewrite E. split; [done|].
  constructor; [apply P| |apply P]. eapply drun_snoc; [apply P|done].
Qed.
Definition dealt r := (rl_dealer r, rl_dh r, rl_douts r).
Lemma give_pinv m to r : pinv r -> pinv (give m to r) /\ dealt (give m to r) = dealt r.
Proof.
  intros P. unfold give. destruct (rl_by_id r !! to) as [i|]; [|done]. split; [|done].
  constructor; [apply P..|]. intros j. apply (pi_acc _ P j).
Qed.
Lemma give_all_pinv m tos : forall r, pinv r -> pinv (give_all m tos r) /\ dealt (give_all m tos r) = dealt r.
Proof.
  induction tos as [|to tos IH]; intros r P; [done|]. cbn [give_all].
  destruct (give_pinv m to r P) as [P1 E1]. destruct (IH _ P1) as [P2 E2]. split; [done|]. by rewrite E2.
Qed.

(** What an event asks of the dealer that might panic. *)
Definition deals (op : rop) r : option (oracle * dop) :=
  match op with
  | RMessage i _ o m =>
      if rl_closed r i then None else
      match rl_session r i with
      | Some d => match m with MCall _ | MYield _ | MRegister _ | MUnregister _ | MError _ => Some (o, DReceive (se_id d) m) | _ => None end
      | None => None
      end
  | RClose i o => match rl_session r i with Some d => Some (o, DRemove (se_id d)) | None => None end
  | RDisclose _ _ => None
  end.
Definition harmless (q : dop) : Prop := match q with DAdd _ | DDisclose _ => True | _ => False end.
Definition moved (op : rop) r r' : Prop :=
  dealt r' = dealt r
  \/ exists o q out, (harmless q \/ deals op r = Some (o, q)) /\ dstep o (rl_dealer r) q = Ret (rl_dealer r') out
       /\ rl_dh r' = rl_dh r ++ [(o, q)] /\ rl_douts r' = rl_douts r ++ [out].

Lemma moved_eq op r r' r'' : moved op r r' -> dealt r'' = dealt r' -> moved op r r''.
Proof.
  intros M E. unfold dealt in E. injection E as E1 E2 E3. unfold moved, dealt. rewrite E1, E2, E3.
  exact M.
Qed.
Lemma took_pinv r i m : pinv r -> pinv (rset_log (RTook i m :: rl_log r) r).
Proof. intros P. constructor; [apply P..|]. intros j. apply (pi_acc _ P j). Qed.

Lemma serve_ok r i e o m d : pinv r -> rl_closed r i = false -> rl_session r i = Some d ->
  (forall o' q, deals (RMessage i e o m) r = Some (o', q) -> exists d' out, dstep o' (rl_dealer r) q = Ret d' out) ->
  exists r', serve o (se_id d) m (rset_log (RTook i m :: rl_log r) r) = Ret r' tt /\ pinv r' /\ moved (RMessage i e o m) r r'.
Proof.
  intros P Hcl Hi Hq. cbn [deals] in Hq. rewrite Hcl, Hi in Hq.
  pose proof (took_pinv r i m P) as P1. set (r1 := rset_log (RTook i m :: rl_log r) r) in *.
  assert (ViaB : forall op', exists out r2, on_broker o op' r1 = Ret r2 out /\ pinv r2 /\ dealt r2 = dealt r).
  { intros op'. destruct (on_broker_ok r1 o op' P1) as (b & out & _ & E & P2). eauto 8. }
  assert (ViaD : forall m', m = m' -> match m' with MCall _ | MYield _ | MRegister _ | MUnregister _ | MError _ => True | _ => False end ->
    exists r', match on_dealer o (DReceive (se_id d) m') r1 with
      | Crash w => Crash w
      | Ret r (DMsg a to) => Ret (give a to r) tt
      | Ret r _ => Ret r tt
      end = Ret r' tt /\ pinv r' /\ moved (RMessage i e o m') r r').
  { intros m' <- Hm. destruct (Hq o (DReceive (se_id d) m)) as (d' & out & E); [by destruct m|].
    destruct (on_dealer_ok r1 o _ d' out P1 E) as [-> P2].
    match type of P2 with pinv ?x => set (r2 := x) in * end.
    assert (M : moved (RMessage i e o m) r r2).
    { right. exists o, (DReceive (se_id d) m), out. split; [right; cbn [deals]; rewrite Hcl, Hi; by destruct m|]. done. }
    destruct out; try by exists r2.
    match goal with |- context [give ?a ?b ?c] => destruct (give_pinv a b c P2) as [P3 E3] end.
    eexists. split; [reflexivity|]. split; [done|]. by eapply moved_eq. }
  assert (None : exists r', Ret r1 tt = Ret r' tt /\ pinv r' /\ moved (RMessage i e o m) r r').
  { exists r1. split; [done|]. split; [done|]. by left. }
  assert (Sub : exists r', match on_broker o (BReceive (se_id d) m) r1 with
      | Crash w => Crash w
      | Ret r (BMsg a to) => Ret (give a to r) tt
      | Ret r _ => Ret r tt
      end = Ret r' tt /\ pinv r' /\ moved (RMessage i e o m) r r').
  { destruct (ViaB (BReceive (se_id d) m)) as (out & r2 & -> & P2 & E2).
    destruct out; try (exists r2; split; [done|]; split; [done|]; by left).
    match goal with |- context [give ?a ?b ?c] => destruct (give_pinv a b c P2) as [P3 E3] end.
    eexists. split; [reflexivity|]. split; [done|]. left. by rewrite E3. }
  destruct m; cbn [serve]; try exact None; try exact Sub; try (by apply ViaD).
  destruct (ViaB (BPublish (se_id d) m)) as (out & r2 & -> & P2 & E2).
  destruct out as [| | | |ev rs ack]; try (exists r2; split; [done|]; split; [done|]; by left).
  assert (exists r3, match ev with Some e => give_all (MEvent e) rs r2 | None => r2 end = r3 /\ pinv r3 /\ dealt r3 = dealt r)
    as (r3 & -> & P3 & E3).
  { destruct ev as [ev|]; [|eauto]. destruct (give_all_pinv (MEvent ev) rs r2 P2) as [P3 E3]. eexists. split; [done|].
    split; [done|]. by rewrite E3. }
  destruct ack as [[a to]|].
  - destruct (give_pinv a to r3 P3) as [P4 E4]. eexists. split; [done|]. split; [done|]. left. by rewrite E4.
  - eexists. split; [done|]. split; [done|]. by left.
Qed.

Lemma harmless_ok o d q : harmless q -> exists d' out, dstep o d q = Ret d' out.
Proof.
  destruct q; try done; cbn [dstep]; intros _; [|eauto]. unfold d_add_session. destruct (d_sessions d !! _); eauto.
Qed.
Lemma join_ok op r i a : pinv r -> exists r', join i a r = Ret r' tt /\ pinv r' /\ moved op r r'.
Proof.
  intros P. unfold join.
  assert (Close : forall r1, pinv r1 -> moved op r r1 -> exists r', Ret (close i r1) tt = Ret r' tt /\ pinv r' /\ moved op r r').
  { intros r1 P1 M. eexists. split; [done|]. split; [|by eapply moved_eq]. constructor; try apply P1. }
  assert (M0 : moved op r r) by (by left).
  destruct (acceptor_details a) as [d|e|w]; [|by apply Close..].
  destruct (on_broker_ok r (Oracle sh_id sh_id 0) (BAdd d) P) as (b & out & _ & -> & P2).
  match type of P2 with pinv ?x => set (r2 := x) in * end.
  assert (M2 : moved op r r2) by (by left).
  destruct out; try by apply Close.
  destruct (harmless_ok (Oracle sh_id sh_id 0) (rl_dealer r) (DAdd d) I) as (d' & out & E).
  destruct (on_dealer_ok r2 _ _ d' out P2 E) as [-> P3].
  match type of P3 with pinv ?x => set (r3 := x) in * end.
  assert (M3 : moved op r r3).
  { right. exists (Oracle sh_id sh_id 0), (DAdd d), out. split; [by left|]. split; [exact E|done]. }
  destruct out; try by apply Close.
  eexists. split; [done|]. split; [|by eapply moved_eq]. constructor; try apply P3.
Qed.

Lemma rstep_ok op r : pinv r -> proper_op op ->
  (forall o q, deals op r = Some (o, q) -> exists d out, dstep o (rl_dealer r) q = Ret d out) ->
  exists r', rstep op r = Ret r' tt /\ pinv r' /\ moved op r r'.
Proof.
  intros P Hp Hq. destruct op as [i e o m|i o|p c].
  - cbn [rstep]. destruct (rl_closed r i) eqn:Hcl; [exists r; split; [done|]; split; [done|by left]|].
    destruct (rl_session r i) as [d|] eqn:Hi; [by apply serve_ok|].
    destruct (pi_acc _ P i) as [I F].
    destruct (receive_no_panic e (rl_acceptor r i) m (shakes i (rl_log r)) I F Hp) as (a & calls & reply & E & Hc).
    rewrite E. cbn zeta. set (t := AMade reply :: map ACalled calls ++ [AGot m]).
    match goal with |- context [join i a ?x] => set (r1 := x) end.
    assert (P1 : pinv r1).
    { constructor; [apply P..|]. intros j. unfold r1. cbn [rl_log rl_acceptor rset_log rset_acceptor]. rewrite shakes_app.
      destruct (decide (j = i)) as [->|n].
      - rewrite put_eq, shakes_own. unfold t. cbn [app]. rewrite <- app_assoc. split; [by eapply receive_inv|].
        constructor; [done|]. apply Forall_app. split; [done|]. by constructor.
      - rewrite put_ne by done. rewrite shakes_other by done. apply P. }
    assert (Done : exists r', Ret r1 tt = Ret r' tt /\ pinv r' /\ moved (RMessage i e o m) r r').
    { exists r1. split; [done|]. split; [done|]. by left. }
    destruct reply as [[ |w| | | | | | | | | | | | | | | | | | | | | | ]|e'|w]; try exact Done.
    exact (join_ok (RMessage i e o m) r1 i a P1).
  - cbn [rstep deals] in *. destruct (rl_session r i) as [d|] eqn:Hi.
    + destruct (on_broker_ok r o (BRemove (se_id d)) P) as (b & out & _ & -> & P2).
      match type of P2 with pinv ?x => set (r2 := x) in * end.
      destruct (Hq o (DRemove (se_id d)) eq_refl) as (d' & out' & E).
      destruct (on_dealer_ok r2 o (DRemove (se_id d)) d' out' P2 E) as [-> P3].
      eexists. split; [reflexivity|]. split; [constructor; try apply P3|].
      right. exists o, (DRemove (se_id d)), out'. split; [right; cbn [deals]; by rewrite Hi|]. split; [exact E|done].
    + eexists. split; [reflexivity|]. split; [constructor; apply P|by left].
  - cbn [rstep]. destruct (on_broker_ok r (Oracle sh_id sh_id 0) (BDisclose p) P) as (b & out & _ & -> & P2).
    match type of P2 with pinv ?x => set (r2 := x) in * end.
    destruct (harmless_ok (Oracle sh_id sh_id 0) (rl_dealer r) (DDisclose c) I) as (d' & out' & E).
    destruct (on_dealer_ok r2 _ (DDisclose c) d' out' P2 E) as [-> P3].
    eexists. split; [reflexivity|]. split; [constructor; try apply P3|].
    right. exists (Oracle sh_id sh_id 0), (DDisclose c), out'. split; [by left|]. split; [exact E|done].
Qed.

Lemma rrun_snoc pre op r : rrun (pre ++ [op]) r = match rrun pre r with Ret r' _ => rstep op r' | Crash w => Crash w end.
Proof.
  revert r. induction pre as [|x pre IH]; intros r; cbn [rrun app].
  - by destruct (rstep op r) as [? []|].
  - destruct (rstep x r); [apply IH|done].
Qed.
Lemma returned_dealt r0 r op o q : rstep op r0 = Ret r tt -> deals op r0 = Some (o, q) ->
  exists d out, dstep o (rl_dealer r0) q = Ret d out.
Proof.
  intros H Hq. destruct (dstep o (rl_dealer r0) q) as [d out|w] eqn:E; [eauto|exfalso].
  destruct op as [i e o' m|i o'|p c]; cbn [deals rstep] in *; [| |done].
  - destruct (rl_closed r0 i); [done|]. destruct (rl_session r0 i) as [d|] eqn:Hi; [|done].
    destruct m; try done; injection Hq as <- <-; cbn [serve] in H; unfold on_dealer in H; cbn [rl_dealer rset_log] in H;
      by rewrite E in H.
  - destruct (rl_session r0 i) as [d|] eqn:Hi; [|done]. injection Hq as <- <-. unfold on_broker in H.
    destruct (bstep _ _ _); [|done]. unfold on_dealer in H. cbn [rl_dealer] in H. by rewrite E in H.
Qed.
Lemma proper_pinv statics ops : forall r, Forall proper_op ops -> rrun ops (new_realm statics) = Ret r tt -> pinv r.
Proof.
  induction ops as [|op ops IH] using rev_ind; intros r Hp; [intros [= <-]; apply pinv_new|].
  apply Forall_app in Hp as [Hp Ho]. inversion Ho as [|? ? Ho' _]; subst. rewrite rrun_snoc.
  destruct (rrun ops (new_realm statics)) as [r0 []|w] eqn:E; [|done]. specialize (IH _ Hp eq_refl). intros H.
  (* no assumption on the dealer here: the step returned *)
  assert (Hq : forall o q, deals op r0 = Some (o, q) -> exists d out, dstep o (rl_dealer r0) q = Ret d out).
  { intros o q. by apply (returned_dealt r0 r). }
  destruct (rstep_ok op r0 IH Ho' Hq) as (r' & E' & P & _). rewrite H in E'. by injection E' as <-.
Qed.

(** ** The properties *)
Lemma crash_causes statics ops op r w : Forall proper_op (ops ++ [op]) ->
  rrun ops (new_realm statics) = Ret r tt -> rstep op r = Crash w ->
  (exists i e o m d, op = RMessage i e o m /\ rl_session r i = Some d
     /\ match m with MCall _ | MUnregister _ => True | _ => False end)
  \/ exists i o d, op = RClose i o /\ rl_session r i = Some d.
Proof.
  intros [Hp Ho]%Forall_app H Hc. inversion Ho as [|? ? Ho' _]; subst.
  pose proof (proper_pinv _ _ _ Hp H) as P.
  assert (No : ~ forall o q, deals op r = Some (o, q) -> exists d out, dstep o (rl_dealer r) q = Ret d out).
  { intros Hq. destruct (rstep_ok op r P Ho' Hq) as (r' & E' & _). congruence. }
  destruct op as [i e o m|i o|p c]; cbn [deals] in No.
  - left. destruct (rl_closed r i); [by destruct No|]. destruct (rl_session r i) as [d|] eqn:Hi; [|by destruct No].
    exists i, e, o, m, d. split; [done|]. split; [done|].
    destruct m; try exact I; destruct No; intros o' q; try done; intros [= <- <-];
      (eapply others_never_panic; [apply P|exact I]).
  - right. destruct (rl_session r i) as [d|] eqn:Hi; [eauto 6|by destruct No].
  - by destruct No.
Qed.

Lemma crash_from_session statics ops op r w : N.of_nat (length ops) <= two53 -> Forall proper_op (ops ++ [op]) ->
  rrun ops (new_realm statics) = Ret r tt -> rstep op r = Crash w ->
  (exists i e o m d, op = RMessage i e o m /\ on (rl_log r) i = Some d
     /\ match m with MCall _ | MUnregister _ => True | _ => False end)
  \/ exists i o d, op = RClose i o /\ on (rl_log r) i = Some d.
Proof.
  intros Hl Hp H Hc. destruct (RealmProofs.run_inv _ _ _ _ Hl H) as [k I].
  destruct (crash_causes _ _ _ _ _ Hp H Hc) as [(i & e & o & m & d & -> & Hi & Hm)|(i & o & d & -> & Hi)].
  - left. exists i, e, o, m, d. by rewrite (ri_on _ _ _ I).
  - right. exists i, o, d. by rewrite (ri_on _ _ _ I).
Qed.

Lemma kindly_run statics ops : Forall proper_op ops -> kindly statics ops -> N.of_nat (length ops) <= two53 ->
  exists r, rrun ops (new_realm statics) = Ret r tt /\ pinv r /\ kinv (dealings r) (rl_dealer r).
Proof.
  induction ops as [|op ops IH] using rev_ind; intros Hp Hk Hl.
  { exists (new_realm statics). split; [done|]. split; [apply pinv_new|apply kinv_init]. }
  apply Forall_app in Hp as [Hp Ho]. inversion Ho as [|? ? Ho' _]; subst. rewrite app_length in Hl. cbn [length] in Hl.
  destruct IH as (r & E & P & K); [done| |lia|].
  { intros pre x post r' -> Hr. apply (Hk pre x (post ++ [op]) r'); [by rewrite <- app_assoc|done]. }
  assert (Rule : kind_op r op) by (by apply (Hk ops op [] r)).
  assert (exists k, rinv statics k r /\ N.of_nat k < two53) as (k & R & Hkb).
  { assert (G : forall l k r0 r1, rinv statics k r0 -> N.of_nat (k + length l) <= two53 -> rrun l r0 = Ret r1 tt ->
      rinv statics (k + length l) r1).
    { induction l as [|x l IHl]; intros k r0 r1 I0 Hb; cbn [rrun length].
      - intros [= <-]. by rewrite Nat.add_0_r.
      - cbn [length] in Hb. destruct (rstep x r0) as [r2 u|w] eqn:E2; [|done]. intros H2.
        rewrite <- Nat.add_succ_comm. apply (IHl (S k) r2); [|lia|done]. eapply rstep_inv; [done| |done]. lia. }
    exists (0 + length ops)%nat. split; [|lia]. eapply G; [apply rinv_new|lia|done]. }
  assert (Len : N.of_nat (length (rl_dh r)) < two53) by (pose proof (ri_ld _ _ _ R); lia).
  destruct (run_cinv (rl_dh r) _ _ ltac:(lia) (pi_d _ P)) as [C HL].
  assert (Step : forall o q, harmless q \/ deals op r = Some (o, q) ->
    exists d' out, dstep o (rl_dealer r) q = Ret d' out /\ kinv ((q, out) :: dealings r) d').
  { intros o q Hq. apply kind_step; [done|apply run_ginv; apply P|done|apply run_sinv; apply P|apply run_uinv; [lia|apply P]|..].
    - unfold dealings. rewrite HL. lia.
    - destruct Hq as [Hq|Hq]; [intros []; by destruct q|].
      destruct op as [i e o' m|i o'|p c]; cbn [deals] in Hq; [| |done].
      + destruct (rl_closed r i); [done|]. destruct (rl_session r i) as [d|] eqn:Hi; [|done].
        assert (q = DReceive (se_id d) m) as -> by (by destruct m; try done; injection Hq as <- <-).
        destruct (Rule d) as [R1 R2]; [by rewrite (ri_on _ _ _ R)|]. intros []; [done|done|].
        cbn. destruct m; try done. intros _. apply present_as_present. exists d.
        apply (ri_present _ _ _ R). eauto.
      + destruct (rl_session r i) as [d|]; [|done]. injection Hq as <- <-. by intros []. }
  destruct (rstep_ok op r P Ho') as (r' & E' & P' & M).
  { intros o q Hq. destruct (Step o q (or_intror Hq)) as (d' & out & Hs & _). eauto. }
  exists r'. rewrite rrun_snoc, E. split; [done|]. split; [done|].
  destruct M as [M|(o & q & out & Hq & Hs & E1 & E2)].
  - unfold dealt in M. injection M as M1 M2 M3. unfold dealings in *. by rewrite M1, M2, M3.
  - destruct (Step o q Hq) as (d' & out' & Hs' & K'). rewrite Hs in Hs'. injection Hs' as <- <-.
    unfold dealings. rewrite E1, E2, dtrace_snoc; [done|]. eapply drun_length. apply P.
Qed.
End realm.
