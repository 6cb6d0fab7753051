(** Histories after which the dealer keeps something although nobody is left. *)
From Verif Require Import Prelude Value Msg IdGen Types PathMatch Dealer DealerSpec.
From Verif Require Import BaseSpec BaseFacts TypesFacts DealerFacts DealerCases DealerCalls DealerRegs.
From Verif Require Import DealerKindProofs DealerSim DealerStep DealerPolite DealerEx DealerLeft.

Local Open Scope string_scope.
Local Open Scope list_scope.
Local Open Scope N_scope.

(** One session calls its own procedure [n] times and answers every call. *)
Fixpoint rounds (k : N) (n : nat) : list dop :=
  match n with
  | O => []
  | S n' => dcall 1 (k + 1) "p" [] :: dyield 1 (k + 2) [] :: rounds (k + 1) n'
  end.
Definition busy (n : nat) : dhist :=
  hist (DAdd (peer 1) :: dreg 1 1 "p" [] :: rounds 0 n ++ [DRemove 1]).

Definition busy_reg : registration := Registration 1 "p" {[1 := 1]} "" 0 [1] "exact".
Definition busy_0 : dealer := after (hist [DAdd (peer 1); dreg 1 1 "p" []]).
Definition busy_d (pend : gmap N pending) (inv : gmap (N * N) N) (k : N) : dealer :=
  Dealer (d_heap busy_0) (d_fresh busy_0) (d_sessions busy_0) (d_by_proc busy_0) (d_by_session busy_0)
    (d_prefix busy_0) (d_wild busy_0) pend inv false k.

Lemma busy_heap : d_heap busy_0 !! 0 = Some busy_reg.
Proof. reflexivity. Qed.
Lemma busy_proc : d_by_proc busy_0 !! "p" = Some 0.
Proof. reflexivity. Qed.
Lemma busy_sessions : d_sessions busy_0 !! 1 = Some (peer 1).
Proof. reflexivity. Qed.
Lemma busy_start : drun new_dealer (hist [DAdd (peer 1); dreg 1 1 "p" []])
  = Ret (busy_d ∅ ∅ (0 + 1)) [DOk; DMsg (MRegistered (Registered 1 1)) 1].
Proof. reflexivity. Qed.
Lemma busy_end inv k : exists d1, drun (busy_d ∅ inv k) (hist [DRemove 1]) = Ret d1 [DOk]
  /\ d_sessions d1 = delete 1 {[1 := peer 1]} /\ d_pending d1 = ∅ /\ d_inv d1 = inv.
Proof. eexists. split; [reflexivity|]. done. Qed.
Lemma busy_polite rest : (polites [(dreg 1 1 "p" [], DMsg (MRegistered (Registered 1 1)) 1); (DAdd (peer 1), DOk)] (busy_d ∅ ∅ (0 + 1)) rest) ->
  polites [] new_dealer (hist [DAdd (peer 1); dreg 1 1 "p" []] ++ rest).
Proof.
  intros H. cbn [hist map app polites]. split; [done|].
  change (dstep e0 new_dealer (DAdd (peer 1))) with
    (Ret (after (hist [DAdd (peer 1)])) DOk : outcome dealer dout). cbv iota.
  split. { cbn. intros [g Hg]. tauto. }
  change (dstep e0 (after (hist [DAdd (peer 1)])) (dreg 1 1 "p" [])) with
    (Ret (busy_d ∅ ∅ (0 + 1)) (DMsg (MRegistered (Registered 1 1)) 1) : outcome dealer dout). cbv iota. exact H.
Qed.
Local Opaque busy_0.

Lemma busy_call inv k : k + 1 < two53 -> inv !! (1, k + 1) = None ->
  exists v, dstep e0 (busy_d ∅ inv (k + 1)) (dcall 1 (k + 1) "p" [])
  = Ret (busy_d {[k + 2 := Pending (k + 1) 1 1 false false]} (<[(1, k + 1) := k + 2]> inv) (k + 2))
        (DMsg (MInvocation v) 1).
Proof.
  intros Hk Hi. eexists. cbn [dstep dcall d_receive_message]. unfold d_call.
  assert (F : d_find e0 (busy_d ∅ inv (k + 1)) (ca_procedure (acall (k + 1) "p" [])) = Some 0).
  { unfold d_find. cbn [acall ca_procedure busy_d d_by_proc]. by rewrite busy_proc. }
  rewrite F. cbn [busy_d d_heap]. rewrite busy_heap. rewrite decide_False by apply map_non_empty_singleton.
  change (d_pick e0 busy_reg) with (Some (1, 0%nat)). cbv beta iota zeta.
  change (set_next 0 busy_reg) with busy_reg. rewrite insert_id by apply busy_heap.
  unfold d_allocate. cbn [dset_heap d_inv busy_d acall ca_request]. rewrite Hi.
  cbn [dset_heap d_inv busy_d acall ca_request ca_options bool_opt dset_idgen dset_pending dset_inv d_idgen d_pending d_details].
  rewrite next_id_small by done. replace (k + 1 + 1) with (k + 2) by lia.
  unfold d_send. cbn [d_sessions dset_heap dset_idgen dset_pending dset_inv d_idgen d_pending d_details d_inv d_heap d_fresh d_by_proc d_by_session d_prefix d_wild].
  cbn [busy_d d_sessions]. rewrite busy_sessions. reflexivity.
Qed.
Lemma busy_yield inv k :
  exists v, dstep e0 (busy_d {[k + 2 := Pending (k + 1) 1 1 false false]} inv (k + 2)) (dyield 1 (k + 2) [])
  = Ret (busy_d ∅ inv (k + 1 + 1)) (DMsg (MResult v) 1).
Proof.
  replace (k + 1 + 1) with (k + 2) by lia.
  eexists. cbn [dstep dyield d_receive_message]. unfold d_yield. cbn [ayield yi_request busy_d d_pending].
  rewrite lookup_singleton. cbn [pe_receive andb pe_caller pe_request dset_pending d_sessions d_pending].
  rewrite delete_singleton. cbn [busy_d d_sessions]. rewrite busy_sessions. reflexivity.
Qed.

Lemma busy_rounds n : forall k inv tr rest, k + N.of_nat n < two53 -> (forall r, k < r -> inv !! (1, r) = None) ->
  disclosing_caller tr = false ->
  exists inv' outs tr', drun (busy_d ∅ inv (k + 1)) (hist (rounds k n)) = Ret (busy_d ∅ inv' (k + N.of_nat n + 1)) outs
    /\ size inv' = (size inv + n)%nat
    /\ (polites tr' (busy_d ∅ inv' (k + N.of_nat n + 1)) rest -> polites tr (busy_d ∅ inv (k + 1)) (hist (rounds k n) ++ rest)).
Proof.
  induction n as [|n IH]; intros k inv tr rest Hk Hi Hd.
  { exists inv, [], tr. replace (k + N.of_nat 0 + 1) with (k + 1) by (cbn; lia). split; [done|]. split; [lia|done]. }
  destruct (busy_call inv k ltac:(lia) (Hi (k + 1) ltac:(lia))) as [v E1].
  destruct (busy_yield (<[(1, k + 1) := k + 2]> inv) k) as [w E2].
  destruct (IH (k + 1) (<[(1, k + 1) := k + 2]> inv)
    ((dyield 1 (k + 2) [], DMsg (MResult w) 1) :: (dcall 1 (k + 1) "p" [], DMsg (MInvocation v) 1) :: tr) rest)
    as (inv' & outs & tr' & E3 & Hs & Hpo).
  { lia. }
  { intros r Hr. rewrite lookup_insert_ne by (intros E; injection E; lia). apply Hi. lia. }
  { done. }
  exists inv', (DMsg (MInvocation v) 1 :: DMsg (MResult w) 1 :: outs), tr'.
  replace (k + N.of_nat (S n) + 1) with (k + 1 + N.of_nat n + 1) by lia. split; [|split].
  - cbn [rounds hist map]. cbn [drun]. rewrite E1. cbn [drun]. rewrite E2.
    change (map (pair e0) (rounds (k + 1) n)) with (hist (rounds (k + 1) n)). by rewrite E3.
  - rewrite Hs, map_size_insert_None; [lia|]. apply Hi. lia.
  - intros Hr. cbn [rounds hist map app]. cbn [polites]. split.
    { cbn. rewrite Hd. discriminate. }
    rewrite E1. split; [done|]. rewrite E2. by apply Hpo.
Qed.

Lemma busy_run n : N.of_nat n + 1 < two53 ->
  exists d outs, drun new_dealer (busy n) = Ret d outs /\ polite_history (busy n)
    /\ d_sessions d = ∅ /\ d_pending d = ∅ /\ size (d_inv d) = n.
Proof.
  intros Hn.
  destruct (busy_rounds n 0 ∅
    [(dreg 1 1 "p" [], DMsg (MRegistered (Registered 1 1)) 1); (DAdd (peer 1), DOk)] (hist [DRemove 1]))
    as (inv & outs & tr' & E & Hs & Hpo); [lia|done|done|].
  pose proof busy_start as E0.
  destruct (busy_end inv (0 + N.of_nat n + 1)) as (d1 & F1 & F2 & F3 & F4). rewrite delete_singleton in F2.
  assert (EB : busy n = hist [DAdd (peer 1); dreg 1 1 "p" []] ++ hist (rounds 0 n) ++ hist [DRemove 1]).
  { unfold busy, hist. cbn [map]. rewrite map_app. done. }
  exists d1. eexists. split; [|split; [|split; [done|split; [done|]]]].
  - rewrite EB. rewrite drun_app, E0. rewrite drun_app, E, F1. reflexivity.
  - apply polites_history. rewrite EB. apply busy_polite.
    apply Hpo. cbn [polites hist map]. split; [done|]. by destruct (dstep _ _ _).
  - rewrite F4, Hs, map_size_empty. lia.
Qed.

(** Two sessions, one with a procedure of each kind, one with a call nobody
    answers; then both leave. *)
Definition lh : dhist := hist
  [DAdd (peer 1); DAdd (peer 2); dreg 1 1 "p" []; dreg 1 2 "a." [opt "match" "prefix"];
   dreg 1 3 "x..y" [opt "match" "wildcard"]; dcall 2 1 "p" []; dcall 2 2 "p" []; dyield 1 5 [];
   DRemove 1; DRemove 2].
Lemma lh_ran : drun new_dealer lh = Ret (after lh) (results lh).
Proof. by apply ran. Qed.
Lemma lh_polite : polite_history lh.
Proof. apply polites_history. vm_compute. repeat split; try tauto; try discriminate; crush; tauto. Qed.

(** Two sessions share [p] and give it up one after the other, the first to do
    so keeping its entry; a third registers [p] as a pattern, the first gives
    its id back once more, and all leave. *)
Definition lw : dhist := hist
  [DAdd (peer 1); DAdd (peer 2); DAdd (peer 3);
   dreg 1 1 "p" [opt "invoke" "first"]; dreg 2 2 "p" [opt "invoke" "first"];
   dunreg 1 3 1; dunreg 2 4 1; dreg 3 5 "p" [opt "match" "wildcard"]; dunreg 1 6 1;
   DRemove 1; DRemove 2; DRemove 3].
Lemma lw_ran : drun new_dealer lw = Ret (after lw) (results lw).
Proof. by apply ran. Qed.

Lemma nobody h d outs : N.of_nat (length h) <= two53 -> drun new_dealer h = Ret d outs -> d_sessions d = ∅ ->
  forall x, ~ present (dtrace_of h outs) x.
Proof.
  intros Hb H E x [s Hs]%present_as_present. destruct (run_cinv h d outs Hb H) as [C _].
  apply (ci_sess _ _ C) in Hs. by rewrite E, lookup_empty in Hs.
Qed.
Lemma nobody_look h d outs : N.of_nat (length h) <= two53 -> drun new_dealer h = Ret d outs ->
  map_to_list (d_sessions d) = [] -> forall x, ~ present (dtrace_of h outs) x.
Proof. intros Hb H E. apply (nobody h d outs Hb H). by apply map_to_list_empty_iff. Qed.
Lemma not_empty {K A} `{Countable K} (m : gmap K A) k : is_Some (m !! k) -> m <> ∅.
Proof. intros [x Hx] E. by rewrite E, lookup_empty in Hx. Qed.

Lemma left_something : exists h d outs, polite_history h /\ drun new_dealer h = Ret d outs
  /\ (forall x, ~ present (dtrace_of h outs) x)
  /\ d_prefix d <> ∅ /\ d_pending d <> ∅ /\ d_inv d <> ∅.
Proof.
  exists lh, (after lh), (results lh). split; [apply lh_polite|]. split; [apply lh_ran|].
  split; [apply (nobody_look lh (after lh)); [vm_compute; discriminate|apply lh_ran|vm_compute; reflexivity]|].
  split; [|split].
  - apply (not_empty _ "a."). vm_compute. by eexists.
  - apply (not_empty _ 4). vm_compute. by eexists.
  - apply (not_empty _ (2, 2)). vm_compute. by eexists.
Qed.
Lemma left_wild : exists h d outs, drun new_dealer h = Ret d outs
  /\ (forall x, ~ present (dtrace_of h outs) x) /\ d_wild d <> ∅.
Proof.
  exists lw, (after lw), (results lw). split; [apply lw_ran|].
  split; [apply (nobody_look lw (after lw)); [vm_compute; discriminate|apply lw_ran|vm_compute; reflexivity]|].
  apply (not_empty _ "p"). vm_compute. by eexists.
Qed.
Lemma rounds_length n : forall k, length (rounds k n) = (2 * n)%nat.
Proof. induction n as [|n IH]; intros k; [done|]. cbn [rounds length]. rewrite IH. lia. Qed.
Lemma left_growing n : N.of_nat n + 1 < two53 / 2 -> exists h d outs,
  polite_history h /\ drun new_dealer h = Ret d outs
  /\ (forall x, ~ present (dtrace_of h outs) x)
  /\ (forall i c r rp, ~ open_inv (dtrace_of h outs) i c r rp)
  /\ size (d_inv d) = n.
Proof.
  intros Hn. destruct (busy_run n) as (d & outs & H & Hp & S & P & Z).
  { assert (two53 / 2 <= two53) by (vm_compute; discriminate). lia. }
  assert (Hb : N.of_nat (length (busy n)) <= two53).
  { unfold busy, hist. rewrite map_length. cbn [length]. rewrite app_length, rounds_length. cbn [length].
    change (two53 / 2) with 4503599627370496 in Hn. change two53 with 9007199254740992. lia. }
  exists (busy n), d, outs. split; [done|]. split; [done|]. split; [by eapply nobody|]. split; [|done].
  by apply (left_pending (busy n) d outs Hb H).
Qed.
