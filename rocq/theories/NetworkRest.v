(** Messages that move come to rest. *)
From Verif Require Import Prelude Value Msg IdGen Types PathMatch Broker Dealer Session Network.
From Verif Require Import BrokerSpec DealerSpec NetworkSpec NetworkReplies.

(** ** Counting the messages in the queues *)

Definition total (q : gmap N (list message)) : nat := sum_list_with (fun x => length x.2) (map_to_list q).
Lemma total_perm (l l' : list (N * list message)) : l ≡ₚ l' ->
  sum_list_with (fun x => length x.2) l = sum_list_with (fun x => length x.2) l'.
Proof. induction 1; cbn; lia. Qed.
Lemma total_insert q c l : q !! c = None -> total (<[c := l]> q) = (length l + total q)%nat.
Proof. intros H. unfold total. by rewrite (total_perm _ _ (map_to_list_insert q c l H)). Qed.
Lemma total_drop q c m l : q !! c = Some (m :: l) -> total q = S (total (<[c := l]> q)).
Proof.
  intros H. rewrite <- (insert_delete q c _ H) at 1. rewrite <- (insert_delete_insert q c l).
  rewrite !total_insert by apply lookup_delete. cbn. lia.
Qed.

Definition ups (n : net) : gmap N (list message) := cl_up <$> n_clients n.
Definition downs (n : net) : gmap N (list message) := cl_down <$> n_clients n.

Lemma post_ups_eq n m to : ups (post n m to) = ups n.
Proof.
  unfold ups, post. destruct (n_clients n !! to) as [cl|] eqn:E; [|done]. cbn. rewrite fmap_insert. cbn.
  apply insert_id. by rewrite lookup_fmap, E.
Qed.
Lemma post_all_ups_eq m tos : forall n, ups (post_all n m tos) = ups n.
Proof. induction tos as [|to tos IH]; intros n; [done|]. cbn [post_all]. by rewrite IH, post_ups_eq. Qed.
Lemma call_broker_clients o op n : n_clients (fst (call_broker o op n)) = n_clients n.
Proof. unfold call_broker. by destruct (bstep _ _ _). Qed.
Lemma call_dealer_clients o op n : n_clients (fst (call_dealer o op n)) = n_clients n.
Proof. unfold call_dealer. by destruct (dstep _ _ _). Qed.
Lemma handle_ups o c m n : ups (handle o c m n) = ups n.
Proof.
  assert (HD : ups (match call_dealer o (DReceive c m) n with (n, Some (DMsg a to)) => post n a to | (n, _) => n end) = ups n).
  { assert (ups (fst (call_dealer o (DReceive c m) n)) = ups n) as H by (unfold ups; by rewrite call_dealer_clients).
    destruct (call_dealer _ _ _) as [n1 [[]|]]; cbn [fst] in H; try exact H. by rewrite post_ups_eq. }
  assert (HB' : ups (match call_broker o (BReceive c m) n with (n, Some (BMsg a to)) => post n a to | (n, _) => n end) = ups n).
  { assert (ups (fst (call_broker o (BReceive c m) n)) = ups n) as H by (unfold ups; by rewrite call_broker_clients).
    destruct (call_broker _ _ _) as [n1 [[]|]]; cbn [fst] in H; try exact H. by rewrite post_ups_eq. }
  destruct m; cbn [handle]; try reflexivity; try exact HD; try exact HB'.
  clear HD HB'. match goal with |- context [BPublish c ?p] =>
    assert (ups (fst (call_broker o (BPublish c p) n)) = ups n) as H by (unfold ups; by rewrite call_broker_clients) end.
  destruct (call_broker _ _ _) as [n1 [[| | | |ev rs ack]|]]; cbn [fst] in H; try exact H.
  destruct ack as [[a to]|]; rewrite ?post_ups_eq; destruct ev; by rewrite ?post_all_ups_eq.
Qed.
Lemma route_ups n o c cl m rest : n_clients n !! c = Some cl -> cl_up cl = m :: rest ->
  ups (nstep n (NRoute o c)) = <[c := rest]> (ups n).
Proof.
  intros Hc Hu. cbn [nstep]. rewrite Hc. destruct cl as [s up down used]. cbn in Hu. subst up.
  pose proof (handle_ups o c m n) as H. set (n1 := handle o c m n) in *.
  assert (ups n1 !! c = Some (m :: rest)) as Hl by (rewrite H; unfold ups; by rewrite lookup_fmap, Hc).
  unfold ups in Hl. rewrite lookup_fmap in Hl. destruct (n_clients n1 !! c) as [cl1|]; [|done]. injection Hl as Hl.
  unfold ups at 1. cbn. rewrite fmap_insert. cbn. rewrite Hl. cbn. f_equal. exact H.
Qed.
Lemma deliver_queues n c cl m rest : n_clients n !! c = Some cl -> cl_down cl = m :: rest ->
  ups (nstep n (NDeliver c)) = ups n /\ downs (nstep n (NDeliver c)) = <[c := rest]> (downs n).
Proof.
  intros Hc Hu. cbn [nstep]. rewrite Hc. destruct cl as [s up down used]. cbn in Hu. subst down.
  destruct (sstep s (SReceiveMessage m)) as [s' r].
  assert (ups (nset_clients (<[c := Client s' up rest used]> (n_clients n)) n) = ups n) as H1.
  { unfold ups. cbn. rewrite fmap_insert. cbn. apply insert_id. by rewrite lookup_fmap, Hc. }
  assert (downs (nset_clients (<[c := Client s' up rest used]> (n_clients n)) n) = <[c := rest]> (downs n)) as H2.
  { unfold downs. cbn. by rewrite fmap_insert. }
  by destruct r.
Qed.

(** ** Every move makes the counts smaller *)

Definition smaller (x y : nat * nat) : Prop := (x.1 < y.1)%nat \/ (x.1 = y.1 /\ (x.2 < y.2)%nat).
Lemma smaller_wf : well_founded smaller.
Proof.
  intros [a b]. revert b. induction a as [a IHa] using lt_wf_ind. intros b. induction b as [b IHb] using lt_wf_ind.
  constructor. intros [a' b'] [H|[H1 H2]]; cbn in *; [by apply IHa|]. subst a'. by apply IHb.
Qed.
Definition amount (n : net) : nat * nat := (total (ups n), total (downs n)).
Lemma moves_smaller n e : moves n e -> smaller (amount (nstep n e)) (amount n).
Proof.
  destruct e as [d|o c|c m|o c|c|p c]; cbn [moves]; try done.
  - intros (cl & Hc & Hne). destruct (cl_up cl) as [|m rest] eqn:Hu; [done|]. left. cbn [fst amount].
    rewrite (route_ups _ _ _ _ _ _ Hc Hu). rewrite (total_drop (ups n) c m rest); [lia|].
    unfold ups. by rewrite lookup_fmap, Hc, <- Hu.
  - intros (cl & Hc & Hne). destruct (cl_down cl) as [|m rest] eqn:Hu; [done|]. right. cbn [fst snd amount].
    destruct (deliver_queues _ _ _ _ _ Hc Hu) as [-> ->]. split; [done|]. rewrite (total_drop (downs n) c m rest); [lia|].
    unfold downs. by rewrite lookup_fmap, Hc, <- Hu.
Qed.
Global Instance moves_dec n e : Decision (moves n e).
Proof.
  destruct e as [d|o c|c m|o c|c|p c]; cbn [moves]; try apply _.
  - destruct (n_clients n !! c) as [[s [|m up] down used]|] eqn:Hc.
    + right. intros (cl & [= <-] & H). done.
    + left. by eexists.
    + right. by intros (cl & ? & _).
  - destruct (n_clients n !! c) as [[s up [|m down] used]|] eqn:Hc.
    + right. intros (cl & [= <-] & H). done.
    + left. by eexists.
    + right. by intros (cl & ? & _).
Defined.

Lemma no_endless_moving n (f : nat -> nevent) : exists k, ~ moves (nrun n (map f (seq 0 k))) (f k).
Proof.
  remember (amount n) as a eqn:Ea. revert n f Ea. induction a as [a IH] using (well_founded_induction smaller_wf).
  intros n f ->. destruct (decide (moves n (f 0%nat))) as [Hm|Hm]; [|by exists 0%nat].
  destruct (IH _ (moves_smaller _ _ Hm) _ (fun k => f (S k)) eq_refl) as [k Hk].
  exists (S k). cbn [seq map nrun]. by rewrite <- seq_shift, map_map.
Qed.
Lemma rest_or_move n : at_rest n \/ exists e, moves n e.
Proof.
  destruct (decide (map_Forall (fun _ cl => cl_up cl = [] /\ cl_down cl = []) (n_clients n))) as [H|H].
  - left. exact H.
  - right. apply map_not_Forall in H as (c & cl & Hc & H); [|apply _].
    destruct (cl_up cl) eqn:E1; [|exists (NRoute any_oracle c), cl; split; [done|congruence]].
    destruct (cl_down cl) eqn:E2; [naive_solver|]. exists (NDeliver c), cl. split; [done|congruence].
Qed.
Lemma comes_to_rest n : exists es, all_moves n es /\ at_rest (nrun n es).
Proof.
  remember (amount n) as a eqn:Ea. revert n Ea. induction a as [a IH] using (well_founded_induction smaller_wf).
  intros n ->. destruct (rest_or_move n) as [H|[e Hm]]; [by exists []|].
  destruct (IH _ (moves_smaller _ _ Hm) _ eq_refl) as (es & H1 & H2). by exists (e :: es).
Qed.
