(** Messages stay in order behind serializers. *)
From Verif Require Import Prelude Value Msg IdGen Types PathMatch Broker Dealer Session Network Connection.
From Verif Require Import BrokerSpec DealerSpec MsgSpec Portable NetworkSpec NetworkWire NetworkBytes Hostile HostileBytes HostileBytesProofs HostileBytesEx.
From Verif Require Import HostileOrderSpec HostileOrder HostileBytesOrderSpec.

Lemma like_from_broker m m' : msg_like m m' -> from_broker m = from_broker m'.
Proof. intros [Ht _]. destruct m, m'; try discriminate Ht; done. Qed.
Lemma like_filter (f : message -> bool) q q' : (forall m m', msg_like m m' -> f m = f m') ->
  Forall2 msg_like q q' -> Forall2 msg_like (List.filter f q) (List.filter f q').
Proof.
  intros Hf. induction 1 as [|m m' q q' H _ IH]; [constructor|]. cbn. rewrite (Hf _ _ H). destruct (f m'); [by constructor|done].
Qed.
Lemma like_events q q' : Forall2 msg_like q q' -> Forall2 event_like (events q) (events q').
Proof.
  unfold events. induction 1 as [|m m' q q' [Ht Hf] _ IH]; [constructor|]. cbn.
  destruct m, m'; try discriminate Ht; try done; cbn in Hf.
  repeat match goal with H : Forall2 _ (_ :: _) (_ :: _) |- _ => apply Forall2_cons in H as [? ?] end.
  constructor; [|done]. unfold event_like. repeat match goal with H : fld_like (FId _) (FId _) |- _ => cbn in H; injection H as ? end. done.
Qed.

Section order.
Context {PL : Platform} (sers : N -> Z) (Hsers : forall c, serializer (sers c)).

Lemma bytes_reads honest ys hs x c : Forall (fair sers) ys -> yrun sers empty_bnet ys x -> x_crashed x = [] ->
  N.of_nat (length ys) <= two53 -> reading sers ys hs -> decently honest empty_net hs ->
  let n := hrun empty_net hs in let log := read_by c (x_read x) in
  (exists b, b `prefix_of` in_turn (b_out c) (btr n) /\ Forall2 msg_like b (List.filter from_broker log))
  /\ exists d, d `prefix_of` in_turn (d_out c) (dtr n) /\ Forall2 msg_like d (List.filter (fun a => negb (from_broker a)) log).
Proof.
  intros Hf Hr Hc Hlen Hrd Hd n log. destruct (hostile_bytes_same sers Hsers ys x Hf Hr Hc) as (hs' & Hrd' & _ & Hread).
  assert (hs' = hs) as -> by (rewrite (reading_one _ _ _ Hrd); by apply reading_one).
  pose proof (reading_length sers Hsers ys hs Hrd) as HL. destruct (reads_in_order honest hs c ltac:(lia) Hd) as (R1 & R2 & _). split.
  - eexists. split; [exact R1|]. apply like_filter; [apply like_from_broker|apply Hread].
  - eexists. split; [exact R2|]. apply like_filter; [|apply Hread]. intros m m' H. by rewrite (like_from_broker _ _ H).
Qed.
Lemma bytes_arrived honest ys hs x c cl : Forall (fair sers) ys -> yrun sers empty_bnet ys x -> x_crashed x = [] ->
  N.of_nat (length ys) <= two53 -> reading sers ys hs -> decently honest empty_net hs ->
  x_clients x !! c = Some cl -> bc_down cl = [] ->
  let n := hrun empty_net hs in let log := read_by c (x_read x) in
  Forall2 msg_like (in_turn (b_out c) (btr n)) (List.filter from_broker log)
  /\ Forall2 msg_like (in_turn (d_out c) (dtr n)) (List.filter (fun a => negb (from_broker a)) log).
Proof.
  intros Hf Hr Hc Hlen Hrd Hd Hx Hw n log. destruct (hostile_bytes_same sers Hsers ys x Hf Hr Hc) as (hs' & Hrd' & Hl & Hread).
  assert (hs' = hs) as -> by (rewrite (reading_one _ _ _ Hrd); by apply reading_one).
  pose proof (reading_length sers Hsers ys hs Hrd) as HL. destruct (reads_in_order honest hs c ltac:(lia) Hd) as (_ & _ & R).
  pose proof (xl_clients _ _ _ Hl c) as K. rewrite Hx in K. inversion K as [cl0 ? Hcl E|]. symmetry in E.
  destruct Hcl as (_ & _ & Hdown). rewrite Hw in Hdown. apply Forall2_nil_inv_r in Hdown.
  destruct (R _ E) as [R1 R2]. rewrite Hdown, app_nil_r in R1, R2. subst n. rewrite <- R1, <- R2.
  split; (apply like_filter; [|apply Hread]); intros m m' Hm; by rewrite (like_from_broker _ _ Hm).
Qed.
Lemma bytes_events honest ys hs x c : Forall (fair sers) ys -> yrun sers empty_bnet ys x -> x_crashed x = [] ->
  N.of_nat (length ys) <= two53 -> reading sers ys hs -> decently honest empty_net hs ->
  exists l, l `prefix_of` in_turn (passed c) (btr (hrun empty_net hs))
    /\ Forall2 (fun y e => carries (snd (fst y)) e) l (events (read_by c (x_read x)))
    /\ forall s, honest s -> sublist (of_publisher s l) (publishes (sent s empty_net hs)).
Proof.
  intros Hf Hr Hc Hlen Hrd Hd. destruct (hostile_bytes_same sers Hsers ys x Hf Hr Hc) as (hs' & Hrd' & _ & Hread).
  assert (hs' = hs) as -> by (rewrite (reading_one _ _ _ Hrd); by apply reading_one).
  pose proof (reading_length sers Hsers ys hs Hrd) as HL. destruct (matched honest hs c ltac:(lia) Hd) as (l & P & E & Q & S).
  exists l. split; [done|]. split; [|done]. pose proof (like_events _ _ (Hread c)) as L. rewrite <- E in L. clear -L Q.
  remember (map snd l) as evs eqn:Hevs. revert l Q Hevs. induction L as [|e e' q q' H _ IH]; intros l Q Hevs.
  - destruct l; [constructor|done].
  - destruct l as [|[[s p] e0] l]; [done|]. injection Hevs as -> ->. constructor; [|apply IH; [|done]; intros ? ? ? ?; eapply Q; by right].
    destruct H as (_ & HA & HK). destruct (Q s p e0) as [Q1 Q2]; [by left|]. unfold carries. cbn [fst snd]. rewrite <- Q1, <- Q2. done.
Qed.
Lemma bytes_ids honest ys hs x c : Forall (fair sers) ys -> yrun sers empty_bnet ys x -> x_crashed x = [] ->
  N.of_nat (length ys) <= two53 -> reading sers ys hs -> decently honest empty_net hs ->
  StronglySorted N.lt (map ev_publication (events (read_by c (x_read x)))).
Proof.
  intros Hf Hr Hc Hlen Hrd Hd. destruct (hostile_bytes_same sers Hsers ys x Hf Hr Hc) as (hs' & Hrd' & _ & Hread).
  assert (hs' = hs) as -> by (rewrite (reading_one _ _ _ Hrd); by apply reading_one).
  pose proof (reading_length sers Hsers ys hs Hrd) as HL. pose proof (read_ids honest hs c ltac:(lia) Hd) as S.
  pose proof (like_events _ _ (Hread c)) as L.
  assert (E : map ev_publication (events (hread c empty_net hs)) = map ev_publication (events (read_by c (x_read x)))).
  { clear -L. induction L as [|e e' q q' (Hp & _) _ IH]; [done|]. cbn. by rewrite Hp, IH. }
  by rewrite <- E.
Qed.
End order.
