From Verif Require Import Prelude IdGen Mutex BaseFacts.

(** Running operations one after another. *)
Fixpoint seq_run {S O R} (step : S -> O -> S * R) (s : S) (l : list O) : S * list R :=
  match l with
  | [] => (s, [])
  | o :: l' => let (s1, r) := step s o in
               let (s2, rs) := seq_run step s1 l' in (s2, r :: rs)
  end.

Lemma seq_run_app {S O R} (step : S -> O -> S * R) s l1 l2 :
  seq_run step s (l1 ++ l2) =
  ((seq_run step (seq_run step s l1).1 l2).1,
   (seq_run step s l1).2 ++ (seq_run step (seq_run step s l1).1 l2).2).
Proof.
  revert s. induction l1 as [|o l1 IH]; intros s; cbn [app seq_run].
  - cbn. apply surjective_pairing.
  - destruct (step s o) as [s1 r]. rewrite IH.
    destruct (seq_run step s1 l1) as [s2 rs] eqn:E. by cbn [fst snd].
Qed.

Section facts.
Context {S O R : Type} (body : O -> prog S R) (step : S -> O -> S * R).
Hypothesis body_ok : forall o s, run_prog (body o) s = step s o.
Context (s0 : S) (work : nat -> list O).

(** Calls of goroutine [t] among [l]. *)
Definition of_thread (t : nat) (l : list (nat * O)) : list O :=
  map snd (List.filter (fun x => (fst x =? t)%nat) l).

Lemma of_thread_snoc t l t' o :
  of_thread t (l ++ [(t', o)]) = of_thread t l ++ (if (t' =? t)%nat then [o] else []).
Proof.
  unfold of_thread. rewrite List.filter_app, map_app. cbn. by destruct (t' =? t)%nat.
Qed.

Record inv (c : config S O R) : Prop := Inv {
  (* every call is finished except that of the lock holder *)
  i_state :
    let done := map fst (c_results c) in
    match c_lock c with
    | None => c_order c = done /\ (forall t, th_state (c_threads c t) = TIdle)
              /\ seq_run step s0 (map snd done) = (c_shared c, map snd (c_results c))
    | Some t => exists o p,
        th_state (c_threads c t) = TRun o p /\ c_order c = done ++ [(t, o)]
        /\ (forall t', t' ≠ t → th_state (c_threads c t') = TIdle)
        /\ (seq_run step s0 (map snd done)).2 = map snd (c_results c)
        /\ run_prog p (c_shared c) = step (seq_run step s0 (map snd done)).1 o
    end;
  i_work : forall t, of_thread t (c_order c) ++ th_todo (c_threads c t) = work t
}.

Lemma upd_eq (f : nat -> thread S O R) t x : upd f t x t = x.
Proof. unfold upd. by rewrite Nat.eqb_refl. Qed.
Lemma upd_ne (f : nat -> thread S O R) t t' x : t' ≠ t → upd f t x t' = f t'.
Proof. unfold upd. by destruct (Nat.eqb_spec t' t). Qed.

Lemma inv_step c c' : inv c → cstep body c c' → inv c'.
Proof.
  intros [Hs Hw] Hst. destruct Hst as
    [t o todo s th ord rs Ht | t o f todo l s s' p' th ord rs Ht Hf | t o r todo l s th ord rs Ht];
    cbn [c_lock c_shared c_threads c_order c_results] in *.
  - destruct Hs as (Ho & Hidle & Hseq). split; cbn [c_lock c_shared c_threads c_order c_results].
    + exists o, (body o). rewrite upd_eq. split; [done|]. split; [by rewrite Ho|].
      split; [intros t' Hne; rewrite upd_ne by done; apply Hidle|].
      rewrite Hseq. cbn. split; [done|]. apply body_ok.
    + intros t'. rewrite of_thread_snoc. specialize (Hw t').
      destruct (Nat.eqb_spec t t') as [->|Hne].
      * rewrite upd_eq. rewrite Ht in Hw. cbn in *. by rewrite <- app_assoc.
      * rewrite upd_ne by done. by rewrite app_nil_r.
  - split; cbn [c_lock c_shared c_threads c_order c_results].
    + destruct l as [t1|].
      * destruct Hs as (o1 & p1 & H1 & H2 & H3 & H4 & H5).
        destruct (decide (t = t1)) as [->|Hne];
          [|specialize (H3 t Hne); by rewrite Ht in H3].
        rewrite Ht in H1. cbn in H1. injection H1 as <- <-.
        exists o, p'. rewrite upd_eq. split; [done|]. split; [done|].
        split; [intros t' Hne; rewrite upd_ne by done; by apply H3|].
        split; [done|]. rewrite <- H5. cbn. by rewrite Hf.
      * destruct Hs as (_ & Hidle & _). specialize (Hidle t). by rewrite Ht in Hidle.
    + intros t'. specialize (Hw t'). destruct (decide (t' = t)) as [->|Hne].
      * rewrite upd_eq. by rewrite Ht in Hw.
      * by rewrite upd_ne.
  - split; cbn [c_lock c_shared c_threads c_order c_results].
    + destruct l as [t1|].
      * destruct Hs as (o1 & p1 & H1 & H2 & H3 & H4 & H5).
        destruct (decide (t = t1)) as [->|Hne];
          [|specialize (H3 t Hne); by rewrite Ht in H3].
        rewrite Ht in H1. cbn in H1. injection H1 as <- <-.
        rewrite !map_app. cbn. split; [done|]. split.
        { intros t'. destruct (decide (t' = t1)) as [->|Hne]; [by rewrite upd_eq|].
          rewrite upd_ne by done. by apply H3. }
        rewrite seq_run_app. cbn in *. rewrite <- H5. cbn. by rewrite H4.
      * destruct Hs as (_ & Hidle & _). specialize (Hidle t). by rewrite Ht in Hidle.
    + intros t'. specialize (Hw t'). destruct (decide (t' = t)) as [->|Hne].
      * rewrite upd_eq. by rewrite Ht in Hw.
      * by rewrite upd_ne.
Qed.

Lemma inv_init : inv (cinit s0 work).
Proof. split; cbn; done. Qed.

Lemma inv_reach c : creach body (cinit s0 work) c → inv c.
Proof.
  induction 1 as [|c c' _ IH Hst]; [apply inv_init|]. by eapply inv_step.
Qed.

(** The finished calls are a prefix of the lock order, and their results are
    those of the sequential execution in that order. *)
Lemma mutex_sequential c : creach body (cinit s0 work) c →
  (exists rest, c_order c = map fst (c_results c) ++ rest /\ (length rest <= 1)%nat
     /\ (rest = [] ↔ c_lock c = None))
  /\ (seq_run step s0 (map (fun x => snd (fst x)) (c_results c))).2 = map snd (c_results c)
  /\ (c_lock c = None →
      (seq_run step s0 (map (fun x => snd (fst x)) (c_results c))).1 = c_shared c)
  /\ (forall t, of_thread t (c_order c) ++ th_todo (c_threads c t) = work t).
Proof.
  intros H%inv_reach. destruct H as [Hs Hw]. cbv zeta in Hs.
  rewrite map_map in Hs.
  destruct (c_lock c) as [t|].
  - destruct Hs as (o & p & H1 & H2 & H3 & H4 & H5).
    split; [exists [(t, o)]; by repeat split|]. repeat split; done.
  - destruct Hs as (H1 & H2 & H3). rewrite H3.
    split; [exists []; rewrite app_nil_r; repeat split; cbn; auto with lia|]. repeat split; done.
Qed.
End facts.

(** * NextID *)
Lemma next_id_body_run s : run_prog next_id_body s = (next_id s, next_id s).
Proof. unfold next_id_body, next_id. cbn. destruct (s =? max_id); by cbn. Qed.

Definition next_id_step (s : N) (_ : unit) : N * N := (next_id s, next_id s).

Lemma seq_next_ids l : forall s, N.of_nat (length l) + s <= two53 →
  (seq_run next_id_step s l).2 = map (fun i => s + 1 + N.of_nat i) (seq 0 (length l)).
Proof.
  induction l as [|[] l IH]; intros s H; [done|].
  cbn [seq_run next_id_step length seq map] in *.
  assert (next_id s = s + 1) as E by (apply next_id_small; lia).
  rewrite E. specialize (IH (s + 1)). destruct (seq_run next_id_step (s + 1) l) as [s2 rs].
  cbn [snd] in *. rewrite IH by lia. f_equal; [lia|].
  rewrite <- seq_shift, map_map. apply map_ext. intros i. lia.
Qed.
