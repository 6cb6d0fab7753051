(** Consequences of linearizability, and histories that have no linearization. *)
From Verif Require Import Prelude Value Msg Mutex Session SessionSpec SessionProofs SessionConc SessionEx SessionHistory SessionLin.

(** * Counting labels *)
Definition cnt (f : label -> bool) (ms : list label) : nat := length (List.filter f ms).
Lemma cnt_cons f l ms : cnt f (l :: ms) = ((if f l then 1 else 0) + cnt f ms)%nat.
Proof. apply filter_length_cons. Qed.
Fixpoint sumto (n : nat) (F : nat -> nat) : nat :=
  match n with 0%nat => 0%nat | S k => (sumto k F + F k)%nat end.
Lemma sumto_le n F G : (forall t, (F t <= G t)%nat) -> (sumto n F <= sumto n G)%nat.
Proof. intros H. induction n as [|n IH]; cbn; [lia|]. specialize (H n). lia. Qed.
Lemma sumto_bump n t F G b : (t < n)%nat -> (forall x, x <> t -> G x = F x) -> (G t = b + F t)%nat ->
  (sumto n G = b + sumto n F)%nat.
Proof.
  intros L E B. induction n as [|n IH]; [lia|]. cbn. destruct (decide (t = n)) as [->|N].
  - rewrite B. assert (forall k, (k <= n)%nat -> sumto k G = sumto k F) as X.
    { induction k as [|k IHk]; intros Lk; [done|]. cbn. rewrite IHk, E by lia. done. }
    rewrite (X n) by lia. lia.
  - rewrite IH by lia. rewrite (E n) by lia. lia.
Qed.
Definition mine (f : label -> bool) (t : nat) (l : label) : bool := f l && (who l =? t)%nat.
Lemma cnt_split f n ms : Forall (fun l => (who l < n)%nat) ms ->
  cnt f ms = sumto n (fun t => cnt (mine f t) ms).
Proof.
  intros H. induction H as [|l ms Hl _ IH].
  - cbn. induction n as [|n IH]; [done|]. cbn. rewrite <- IH. done.
  - rewrite cnt_cons, IH. symmetry. apply (sumto_bump n (who l)); [done| |].
    + intros x N. rewrite cnt_cons. unfold mine at 1. rewrite (proj2 (Nat.eqb_neq _ _)) by congruence.
      by rewrite andb_false_r.
    + rewrite cnt_cons. unfold mine at 1. rewrite Nat.eqb_refl, andb_true_r. done.
Qed.
Lemma bounded_who ms : exists n, Forall (fun l => (who l < n)%nat) ms.
Proof.
  induction ms as [|l ms (n & IH)]; [by exists 0%nat|]. exists (n + S (who l))%nat.
  constructor; [lia|]. eapply Forall_impl; [exact IH|]. cbn. lia.
Qed.
Lemma cnt_le f g ms : (forall t, exists st, at_stage t ms st) ->
  (forall t st, at_stage t ms st -> (cnt (mine f t) ms <= cnt (mine g t) ms)%nat) -> (cnt f ms <= cnt g ms)%nat.
Proof.
  intros A H. destruct (bounded_who ms) as (n & B). rewrite (cnt_split f n ms B), (cnt_split g n ms B).
  apply sumto_le. intros t. destruct (A t) as (st & Hst). by apply (H t st).
Qed.

Definition begins_ (P : sop -> bool) (l : label) : bool := match l with LBegin _ op => P op | _ => false end.
Definition points_ (P : sop -> bool) (l : label) : bool := match l with LPoint _ op _ => P op | _ => false end.
Definition oks_ (P : sop -> bool) (l : label) : bool := match l with LPoint _ op (Ok _) => P op | _ => false end.
Definition ends_ (P : sop -> bool) (l : label) : bool := match l with LEnd _ op (Ok _) => P op | _ => false end.

Ltac me := rewrite !cnt_cons; unfold mine at 1 3; cbn [who begins_ points_ oks_ ends_];
  rewrite ?Nat.eqb_refl, ?andb_true_r, ?andb_false_l.
Lemma ends_points P t ms st : at_stage t ms st ->
  (cnt (mine (ends_ P) t) ms + match st with Marked op (Ok _) => if P op then 1 else 0 | _ => 0 end
   = cnt (mine (oks_ P) t) ms)%nat.
Proof.
  intros H. induction H as [|ms l st st' _ IH W F|ms l st _ IH W]; [done| |].
  - destruct F as [t' op|t' op r|t' op r]; cbn in W; subst t'; me; try lia; destruct r; try lia; destruct (P op); lia.
  - rewrite !cnt_cons. unfold mine at 1 3. rewrite (proj2 (Nat.eqb_neq _ _) W), !andb_false_r. exact IH.
Qed.
Lemma points_begins P t ms st : at_stage t ms st ->
  (cnt (mine (points_ P) t) ms + match st with Begun op => if P op then 1 else 0 | _ => 0 end
   = cnt (mine (begins_ P) t) ms)%nat.
Proof.
  intros H. induction H as [|ms l st st' _ IH W F|ms l st _ IH W]; [done| |].
  - destruct F as [t' op|t' op r|t' op r]; cbn in W; subst t'; me; destruct (P op); lia.
  - rewrite !cnt_cons. unfold mine at 1 3. rewrite (proj2 (Nat.eqb_neq _ _) W), !andb_false_r. exact IH.
Qed.

(** A bound that holds of sequential histories holds of linearizable ones. *)
Definition untag (l : label) : list gevent :=
  match l with LBegin _ op => [GBegin op] | LEnd _ op r => [GEnd op r] | LPoint _ _ _ => [] end.
Lemma lrun_log work ls c : lrun work ls c -> g_log c = concat (map untag ls).
Proof. intros H. induction H; cbn in *; congruence. Qed.
Lemma cnt_filter f ms : (forall t op r, f (LPoint t op r) = false) ->
  cnt f (List.filter (fun l => negb (is_point l)) ms) = cnt f ms.
Proof.
  intros H. induction ms as [|l ms IH]; [done|]. cbn [List.filter]. rewrite (cnt_cons f l ms).
  destruct l; cbn [is_point negb]; rewrite ?cnt_cons, IH, ?H; done.
Qed.
Lemma accepted_cnt P ls : accepted P (concat (map untag ls)) = cnt (ends_ P) ls.
Proof.
  unfold accepted. induction ls as [|l ls IH]; [done|]. cbn [map concat]. rewrite cnt_cons, <- IH.
  destruct l as [t op|t op r|t op r]; cbn [untag app]; rewrite ?filter_length_cons; [done..|by destruct r].
Qed.
Lemma begun_cnt P ls : begun P (concat (map untag ls)) = cnt (begins_ P) ls.
Proof.
  unfold begun. induction ls as [|l ls IH]; [done|]. cbn [map concat]. rewrite cnt_cons, <- IH.
  destruct l as [t op|t op r|t op r]; cbn [untag app]; rewrite ?filter_length_cons; done.
Qed.

Section bound.
Context (pool : session -> nat) (pays costs : sop -> bool).
Hypothesis start : pool new_session = 0%nat.
Hypothesis pay : forall s op s' out, sstep s op = (s', out) ->
  (match out with Ok _ => if costs op then 1 else 0 | _ => 0 end + pool s' <= pool s + if pays op then 1 else 0)%nat.
Fixpoint costs_of (l : list (sop * res sout)) : nat :=
  match l with
  | [] => 0
  | (op, out) :: l' => match out with Ok _ => if costs op then 1 else 0 | _ => 0 end + costs_of l'
  end%nat.
Fixpoint pays_of (l : list (sop * res sout)) : nat :=
  match l with [] => 0 | (op, _) :: l' => (if pays op then 1 else 0) + pays_of l' end%nat.
Lemma sequential_bound l : forall s s', srun s (map fst l) = (s', map snd l) ->
  (costs_of l + pool s' <= pool s + pays_of l)%nat.
Proof.
  induction l as [|[op out] l IH]; intros s s' H; cbn [map fst snd srun] in H.
  - injection H as <-. cbn. lia.
  - destruct (sstep s op) as [s1 r] eqn:E. destruct (srun s1 (map fst l)) as [s2 rs] eqn:E2.
    injection H as <- -> Hrs. specialize (IH s1 s2). rewrite E2, Hrs in IH. specialize (IH eq_refl).
    apply pay in E. cbn [costs_of pays_of]. lia.
Qed.
Lemma costs_rev l1 l2 : costs_of (l1 ++ l2) = (costs_of l1 + costs_of l2)%nat.
Proof. induction l1 as [|[? ?] l1 IH]; cbn; [done|]. rewrite IH. lia. Qed.
Lemma pays_rev l1 l2 : pays_of (l1 ++ l2) = (pays_of l1 + pays_of l2)%nat.
Proof. induction l1 as [|[? ?] l1 IH]; cbn; [done|]. rewrite IH. lia. Qed.
Lemma costs_points ms : costs_of (rev (points ms)) = cnt (oks_ costs) ms.
Proof.
  induction ms as [|l ms IH]; [done|]. rewrite cnt_cons, <- IH.
  destruct l as [t op|t op r|t op r]; cbn [points rev]; [done| |done].
  rewrite costs_rev. cbn. destruct r; [destruct (costs op)|..]; lia.
Qed.
Lemma pays_points ms : pays_of (rev (points ms)) = cnt (points_ pays) ms.
Proof.
  induction ms as [|l ms IH]; [done|]. rewrite cnt_cons, <- IH.
  destruct l as [t op|t op r|t op r]; cbn [points rev]; [done| |done].
  rewrite pays_rev. cbn. lia.
Qed.
Lemma linear_bound ls ms s : linearizes ls ms s -> (cnt (ends_ costs) ls <= cnt (begins_ pays) ls)%nat.
Proof.
  intros (<- & A & R). rewrite !cnt_filter by done.
  apply sequential_bound in R. rewrite costs_points, pays_points, start in R.
  assert (cnt (ends_ costs) ms <= cnt (oks_ costs) ms)%nat.
  { apply cnt_le; [done|]. intros t st Hs. pose proof (ends_points costs _ _ _ Hs). lia. }
  assert (cnt (points_ pays) ms <= cnt (begins_ pays) ms)%nat.
  { apply cnt_le; [done|]. intros t st Hs. pose proof (points_begins pays _ _ _ Hs). lia. }
  lia.
Qed.
End bound.

(** * One answer per CALL *)
Definition call_answered (r : N) (op : sop) : bool := is_final_result r op || is_error 48 r op.
Definition open_calls (r : N) (s : session) : nat := if bool_decide (r ∈ cs_calls s) then 1 else 0.

Lemma flag_final d : match mget d "progress" with VBool true => false | _ => true end = negb (flag d "progress").
Proof. unfold flag. by destruct (mget d "progress"). Qed.

Lemma call_pays r s op s' out : sstep s op = (s', out) ->
  (match out with Ok _ => if call_answered r op then 1 else 0 | _ => 0 end + open_calls r s'
   <= open_calls r s + if is_call r op then 1 else 0)%nat.
Proof.
  assert (forall m op0, receives op0 m -> run_prog (receive_prog m) s = (s', out) ->
    (match out with Ok _ => if call_answered r op0 then 1 else 0 | _ => 0 end + open_calls r s' <= open_calls r s)%nat) as Recv.
  { intros m op0 R H.
    assert (call_answered r op0 = call_answered r (SReceiveMessage m)) as -> by (by destruct R as [-> | ->]).
    unfold call_answered, is_final_result, is_error; cbn [received_message]. unfold open_calls.
    destruct m; cbn [receive_prog] in H; unfold write, load, load_and_delete in H;
      repeat (cbn [run_prog] in H;
              match type of H with
              | context [if ?b then _ else _] => destruct b eqn:?
              | context [match ?b with Some _ => _ | None => _ end] => destruct b eqn:?
              end);
      injection H as <- <-; cbn; try lia; rewrite ?flag_final.
    all: try (unfold tCall in *; repeat match goal with
      | H : (?a =? ?b) = false |- context [?a =? ?b] => rewrite H
      end; cbn; lia).
    - apply bool_decide_eq_true_1 in Heqb0.
      destruct (decide (er_request m = r)) as [<-|N].
      + rewrite bool_decide_false by set_solver. rewrite bool_decide_true by done. destruct (_ && _); lia.
      + rewrite (proj2 (N.eqb_neq _ _) N), andb_false_r. repeat case_bool_decide; try lia; set_solver.
    - repeat case_bool_decide; try lia; set_solver.
    - rewrite Heqb0. cbn. rewrite andb_false_r. cbn. lia.
    - apply bool_decide_eq_true_1 in Heqb. destruct (decide (re_request m = r)) as [<-|N].
      + rewrite bool_decide_false by set_solver. rewrite bool_decide_true by done. destruct (_ || _); lia.
      + rewrite (proj2 (N.eqb_neq _ _) N). cbn. repeat case_bool_decide; try lia; set_solver. }
  unfold sstep. intros H.
  destruct op as [[data|?|?] m|[m|?|?]|m]; cbn [sop_prog] in H; try (injection H as <- <-; cbn; lia).
  - unfold call_answered, is_final_result, is_error, is_call, open_calls; cbn [received_message sent_message].
    destruct m; cbn [send_prog] in H; unfold write, load in H;
      repeat (cbn [run_prog] in H; match type of H with context [if ?b then _ else _] => destruct b eqn:? end);
      injection H as <- <-; cbn; try lia.
    destruct (N.eqb_spec (ca_request m) r) as [<-|N]; [repeat case_bool_decide; lia|].
    repeat case_bool_decide; try lia; set_solver.
  - specialize (Recv m (SReceive (Ok m)) (or_introl eq_refl) H). cbn [is_call sent_message]. lia.
  - specialize (Recv m (SReceiveMessage m) (or_intror eq_refl) H). cbn [is_call sent_message]. lia.
Qed.

Theorem one_answer work ls c r : lrun work ls c -> orderly ls ->
  (accepted (fun op => is_final_result r op || is_error 48 r op) (g_log c) <= begun (is_call r) (g_log c))%nat.
Proof.
  intros H O. rewrite (lrun_log _ _ _ H), accepted_cnt, begun_cnt.
  destruct (linearizable _ _ _ H O) as (ms & s & L & _).
  exact (linear_bound (open_calls r) (is_call r) (call_answered r) eq_refl (call_pays r) _ _ _ L).
Qed.

(** * Schedules with labels: 0 begin, 1 access, 2 end *)
Fixpoint lfollow (l : list (nat * nat)) (ls : list label) (c : gconfig) : option (list label * gconfig) :=
  match l with
  | [] => Some (ls, c)
  | (t, k) :: l' =>
      match g_threads c !! t with
      | Some (GoThread (op :: todo) None) =>
          if (k =? 0)%nat then
            lfollow l' (LBegin t op :: ls) (GConfig (g_state c) (<[t := GoThread todo (Some (op, sop_prog op))]> (g_threads c)) (GBegin op :: g_log c))
          else None
      | Some (GoThread todo (Some (op, PAct f))) =>
          if (k =? 1)%nat then
            match f (g_state c) with (s', p') =>
              lfollow l' ls (GConfig s' (<[t := GoThread todo (Some (op, p'))]> (g_threads c)) (g_log c)) end
          else None
      | Some (GoThread todo (Some (op, PRet r))) =>
          if (k =? 2)%nat then
            lfollow l' (LEnd t op r :: ls) (GConfig (g_state c) (<[t := GoThread todo None]> (g_threads c)) (GEnd op r :: g_log c))
          else None
      | _ => None
      end
  end.
Lemma lfollow_run work l : forall ls c ls' c', lrun work ls c -> lfollow l ls c = Some (ls', c') -> lrun work ls' c'.
Proof.
  induction l as [|[t k] l IH]; intros ls [s th log] ls' c' R E; cbn [lfollow g_threads g_state g_log] in E.
  - by injection E as <- <-.
  - destruct (th !! t) as [[todo [[op [r|f]]|]]|] eqn:Ht; [| | |discriminate].
    + destruct (k =? 2)%nat; [|destruct todo; discriminate].
      assert (lrun work (LEnd t op r :: ls) (GConfig s (<[t:=GoThread todo None]> th) (GEnd op r :: log))) as R'
        by (eapply lrun_end; [exact R|exact Ht]).
      destruct todo; exact (IH _ _ _ _ R' E).
    + destruct (k =? 1)%nat; [|destruct todo; discriminate].
      destruct (f s) as [s' p'] eqn:F.
      assert (lrun work ls (GConfig s' (<[t:=GoThread todo (Some (op, p'))]> th) log)) as R'
        by (by eapply lrun_access).
      destruct todo; exact (IH _ _ _ _ R' E).
    + destruct todo as [|op todo]; [discriminate|]. destruct (k =? 0)%nat; [|discriminate].
      refine (IH _ _ _ _ _ E). eapply lrun_begin; [exact R|exact Ht].
Qed.

(** Deciding the conditions on a history. *)
Definition receivingb (op : sop) : bool := match op with SSend _ _ => false | _ => true end.
Definition aboutb (op : sop) : option N :=
  match op with
  | SSend _ (MUnsubscribe u) => Some (us_request u)
  | SReceive (Ok (MUnsubscribed u)) | SReceiveMessage (MUnsubscribed u) => Some (ud_request u)
  | SReceive (Ok (MError e)) | SReceiveMessage (MError e) => if er_type e =? 34 then Some (er_request e) else None
  | _ => None
  end.
Lemma receivingb_spec op : receiving op -> receivingb op = true.
Proof. by destruct op. Qed.
Lemma aboutb_spec op r : about op r -> aboutb op = Some r.
Proof.
  destruct op as [d []|[[]|?|?]|[]]; cbn; try done; try (by intros ->);
    try (intros [-> ->]; done).
Qed.
Definition quietb (P : sop -> sop -> bool) (n : nat) (ls : list label) : bool :=
  forallb (fun t => forallb (fun t' =>
    (t =? t')%nat || match underway t ls, underway t' ls with
                     | Some op, Some op' => negb (P op op')
                     | _, _ => true
                     end) (seq 0 n)) (seq 0 n).
Fixpoint throughoutb (P : list label -> bool) (ls : list label) : bool :=
  match ls with [] => P [] | _ :: ls' => P ls && throughoutb P ls' end.
Definition whob (n : nat) (ls : list label) : bool := forallb (fun l => (who l <? n)%nat) ls.
Lemma underway_who n ls t op : whob n ls = true -> underway t ls = Some op -> (t < n)%nat.
Proof.
  induction ls as [|l ls IH]; [done|]. cbn [whob forallb]. intros [W Ws]%andb_true_iff.
  apply Nat.ltb_lt in W. destruct l as [t' o|t' o r|t' o r]; cbn [underway who] in *.
  - destruct (Nat.eqb_spec t t'); [by subst|by apply IH].
  - by apply IH.
  - destruct (Nat.eqb_spec t t'); [done|by apply IH].
Qed.
Lemma quietb_spec P n ls : whob n ls = true -> quietb P n ls = true ->
  forall t t' op op', underway t ls = Some op -> underway t' ls = Some op' -> P op op' = true -> t = t'.
Proof.
  intros W Q t t' op op' U U' HP. pose proof (underway_who _ _ _ _ W U). pose proof (underway_who _ _ _ _ W U').
  unfold quietb in Q. rewrite forallb_forall in Q. specialize (Q t). rewrite in_seq in Q. specialize (Q ltac:(lia)).
  rewrite forallb_forall in Q. specialize (Q t'). rewrite in_seq in Q. specialize (Q ltac:(lia)).
  cbv beta in Q. rewrite U, U', HP in Q. cbn in Q. rewrite orb_false_r in Q. by apply Nat.eqb_eq.
Qed.
Lemma throughoutb_spec (P : list label -> bool) (Q : list label -> Prop) n ls :
  (forall ls, whob n ls = true -> P ls = true -> Q ls) ->
  whob n ls = true -> throughoutb P ls = true -> throughout Q ls.
Proof.
  intros H. induction ls as [|l ls IH]; intros W T; cbn [throughoutb throughout] in *; [by apply H|].
  apply andb_true_iff in T as [T1 T2]. split; [by apply H|]. apply IH; [|done].
  cbn in W. by apply andb_true_iff in W as [_ W].
Qed.
Definition both_receive (op op' : sop) : bool := receivingb op && receivingb op'.
Definition both_about (op op' : sop) : bool :=
  match aboutb op, aboutb op' with Some r, Some r' => r =? r' | _, _ => false end.
Lemma one_receiver_dec n ls : whob n ls = true -> throughoutb (quietb both_receive n) ls = true ->
  throughout one_receiver ls.
Proof.
  apply throughoutb_spec. intros l W Q t t' op op' U U' R R'. apply (quietb_spec _ _ _ W Q _ _ _ _ U U').
  unfold both_receive. by rewrite !receivingb_spec.
Qed.
Lemma one_about_dec n ls : whob n ls = true -> throughoutb (quietb both_about n) ls = true ->
  throughout one_about ls.
Proof.
  apply throughoutb_spec. intros l W Q t t' op op' r U U' R R'. apply (quietb_spec _ _ _ W Q _ _ _ _ U U').
  unfold both_about. rewrite !(aboutb_spec _ r) by done. apply N.eqb_refl.
Qed.

(** * Both conditions are needed *)
Lemma race_history : exists ls c, lrun race ls c /\ throughout one_about ls /\ forall ms s, ~ linearizes ls ms s.
Proof.
  destruct (lfollow [(0,0);(0,1);(0,2);(1,0);(2,0);(1,1);(2,1);(1,1);(2,1);(1,2);(2,2)]%nat [] (ginit race)) as [[ls c]|] eqn:E.
  - exists ls, c. split; [exact (lfollow_run _ _ _ _ _ _ (lrun_start _) E)|].
    cbv in E. injection E as <- <-. split; [by apply (one_about_dec 3)|].
    intros ms s L. apply (linear_bound (open_calls 1) (is_call 1) (call_answered 1) eq_refl (call_pays 1)) in L.
    vm_compute in L. lia.
  - exfalso. vm_compute in E. discriminate.
Qed.

(** The points of one goroutine are its returned calls. *)
Fixpoint tagged (ms : list label) : list (nat * (sop * res sout)) :=
  match ms with
  | [] => []
  | LPoint t op r :: ms' => (t, (op, r)) :: tagged ms'
  | _ :: ms' => tagged ms'
  end.
Lemma tagged_points ms : map snd (tagged ms) = points ms.
Proof. induction ms as [|[] ms IH]; cbn; congruence. Qed.
Fixpoint points_at (t : nat) (l : list (nat * (sop * res sout))) : list (sop * res sout) :=
  match l with [] => [] | (t', x) :: l' => if (t' =? t)%nat then x :: points_at t l' else points_at t l' end.
Fixpoint ends_at (t : nat) (ls : list label) : list (sop * res sout) :=
  match ls with
  | [] => []
  | LEnd t' op r :: ls' => if (t' =? t)%nat then (op, r) :: ends_at t ls' else ends_at t ls'
  | _ :: ls' => ends_at t ls'
  end.
Lemma points_ends t ms st : at_stage t ms st ->
  points_at t (tagged ms) = (match st with Marked op r => [(op, r)] | _ => [] end ++ ends_at t ms)%list.
Proof.
  intros H. induction H as [|ms l st st' _ IH W F|ms l st _ IH W]; [done| |].
  - destruct F as [t' op|t' op r|t' op r]; cbn in W; subst t'; cbn; rewrite ?Nat.eqb_refl, IH; done.
  - destruct l as [t' op|t' op r|t' op r]; cbn in W |- *; rewrite ?(proj2 (Nat.eqb_neq _ _) W); exact IH.
Qed.
Lemma ends_unmarked t ms : ends_at t (List.filter (fun l => negb (is_point l)) ms) = ends_at t ms.
Proof. induction ms as [|[] ms IH]; cbn; rewrite ?IH; done. Qed.
Lemma underway_unmarked t ms : underway t (List.filter (fun l => negb (is_point l)) ms) = underway t ms.
Proof. induction ms as [|[] ms IH]; cbn; rewrite ?IH; done. Qed.
Lemma stage_underway t ms st : at_stage t ms st ->
  underway t ms = match st with Idle => None | Begun op | Marked op _ => Some op end.
Proof.
  intros H. induction H as [|ms l st st' _ IH W F|ms l st _ IH W]; [done| |].
  - destruct F; cbn in W; subst; cbn; rewrite ?Nat.eqb_refl; done.
  - destruct l as [t' op|t' op r|t' op r]; cbn in W |- *; try (rewrite (proj2 (Nat.eqb_neq _ _)) by congruence); exact IH.
Qed.
Lemma quiet_points ls ms s t : linearizes ls ms s -> underway t ls = None -> points_at t (tagged ms) = ends_at t ls.
Proof.
  intros (<- & A & _). rewrite underway_unmarked, ends_unmarked. destruct (A t) as (st & H).
  rewrite (stage_underway _ _ _ H), (points_ends _ _ _ H). by destruct st.
Qed.
(** Two goroutines, the second having made one call. *)
Lemma no_others x l : (forall t, (2 <= t)%nat -> points_at t (x :: l) = []) -> forall t, (2 <= t)%nat -> points_at t l = [].
Proof. intros H t Ht. specialize (H t Ht). destruct x as [t' y]. cbn in H. by destruct (t' =? t)%nat. Qed.
Lemma weave l L0 x : (forall t, (2 <= t)%nat -> points_at t l = []) -> points_at 0 l = L0 -> points_at 1 l = [x] ->
  exists A B, L0 = (A ++ B)%list /\ map snd l = (A ++ x :: B)%list.
Proof.
  revert L0. induction l as [|[t y] l IH]; intros L0 H2 H0 H1; [done|].
  destruct t as [|[|t]].
  - cbn in H0, H1. destruct L0 as [|z L0]; [done|]. injection H0 as -> H0.
    destruct (IH L0 (no_others _ _ H2) H0 H1) as (A & B & -> & E). exists (z :: A), B. split; [done|]. cbn. by rewrite E.
  - cbn in H0, H1. injection H1 as -> H1. exists [], L0. split; [done|]. cbn. f_equal. rewrite <- H0.
    pose proof (no_others _ _ H2) as H3. clear - H1 H3. rename H3 into H2. induction l as [|[t y] l IH]; [done|]. cbn. destruct t as [|[|t]].
    + cbn. f_equal. apply IH; [exact H1|exact (no_others _ _ H2)].
    + done.
    + specialize (H2 (S (S t)) ltac:(lia)). cbn in H2. rewrite Nat.eqb_refl in H2. done.
  - specialize (H2 (S (S t)) ltac:(lia)). cbn in H2. rewrite Nat.eqb_refl in H2. done.
Qed.

(** The answer to an UNSUBSCRIBE read while the UNSUBSCRIBE is being sent. *)
Definition hasty : list (list sop) :=
  [[send (c_subscribe 1); recv (c_subscribed 1 9); send (c_unsubscribe 2 9); recv (c_unsubscribed 2); recv (c_error 34 3)];
   [send (c_unsubscribe 3 9)]].
Definition hasty_schedule : list (nat * nat) :=
  [(0,0);(0,1);(0,2); (0,0);(0,1);(0,1);(0,2); (0,0);(0,1);(0,1);(0,2); (1,0);(1,1);
   (0,0);(0,1);(0,1);(0,2); (0,0);(0,1);(0,2); (1,1);(1,2)]%nat.
Lemma hasty_history : exists ls c, lrun hasty ls c /\ throughout one_receiver ls /\ forall ms s, ~ linearizes ls ms s.
Proof.
  destruct (lfollow hasty_schedule [] (ginit hasty)) as [[ls c]|] eqn:E.
  - exists ls, c. split; [exact (lfollow_run _ _ _ _ _ _ (lrun_start _) E)|].
    vm_compute in E. injection E as <- <-. split; [by apply (one_receiver_dec 2)|].
    intros ms s L.
    pose proof (quiet_points _ _ _ 0%nat L eq_refl) as P0. pose proof (quiet_points _ _ _ 1%nat L eq_refl) as P1.
    assert (forall t, (2 <= t)%nat -> points_at t (tagged ms) = []) as P2.
    { intros [|[|t]] Ht; [lia|lia|]. by rewrite (quiet_points _ _ _ (S (S t)) L eq_refl). }
    destruct (weave _ _ _ P2 P0 P1)
      as (A & B & EA & EP).
    rewrite tagged_points in EP. destruct L as (_ & _ & R). rewrite EP in R. clear EP P0 P1.
    apply (f_equal snd) in R. cbn [snd] in R. cbn in EA.
    destruct A as [|a1 A]; [cbn in EA; subst B; vm_compute in R; discriminate|]; injection EA as <- EA.
    destruct A as [|a2 A]; [cbn in EA; subst B; vm_compute in R; discriminate|]; injection EA as <- EA.
    destruct A as [|a3 A]; [cbn in EA; subst B; vm_compute in R; discriminate|]; injection EA as <- EA.
    destruct A as [|a4 A]; [cbn in EA; subst B; vm_compute in R; discriminate|]; injection EA as <- EA.
    destruct A as [|a5 A]; [cbn in EA; subst B; vm_compute in R; discriminate|]; injection EA as <- EA.
    destruct A as [|a6 A]; [cbn in EA; subst B; vm_compute in R; discriminate|]; discriminate.
  - exfalso. vm_compute in E. discriminate.
Qed.

(** * An orderly history: goroutine 0 sends, goroutine 1 receives *)
Definition busy : list (list sop) :=
  [[send (c_subscribe 1); send (c_call 2); send (c_call 3); send (c_unsubscribe 4 9)];
   [recv (c_subscribed 1 9); recv (c_result 2 []); recv (c_result 2 []); recv (c_unsubscribed 4)]].
Definition busy_schedule : list (nat * nat) :=
  [(0,0);(0,1);(1,0);(1,1);(0,2);(0,0);(1,1);(0,1);(1,2);(1,0);(0,2);(1,1);(0,0);(0,1);(1,1);(0,2);(1,2);
   (0,0);(1,0);(0,1);(1,1);(1,2);(0,1);(0,2);(1,0);(1,1);(1,1);(1,2)]%nat.
Definition result_of (l : label) : list (sop * bool) :=
  match l with LEnd _ op r => [(op, is_ok r)] | _ => [] end.
Lemma busy_history : exists ls c, lrun busy ls c /\ orderly ls
  /\ (exists ls1 ls2, ls = (ls1 ++ ls2)%list /\ underway 0 ls2 = Some (send (c_call 3)) /\ underway 1 ls2 = Some (recv (c_result 2 [])))
  /\ accepted (fun op => is_final_result 2 op || is_error 48 2 op) (g_log c) = 1%nat
  /\ rev (concat (map result_of ls)) =
     [(send (c_subscribe 1), true); (recv (c_subscribed 1 9), true); (send (c_call 2), true);
      (send (c_call 3), true); (recv (c_result 2 []), true); (recv (c_result 2 []), false);
      (send (c_unsubscribe 4 9), true); (recv (c_unsubscribed 4), true)].
Proof.
  destruct (lfollow busy_schedule [] (ginit busy)) as [[ls c]|] eqn:E.
  - exists ls, c. split; [exact (lfollow_run _ _ _ _ _ _ (lrun_start _) E)|].
    vm_compute in E. injection E as <- <-.
    split; [split; [by apply (one_receiver_dec 2)|by apply (one_about_dec 2)]|].
    split; [|split; vm_compute; reflexivity].
    match goal with |- context [?l = (_ ++ _)%list] => exists (take 8 l), (drop 8 l) end.
    split; [reflexivity|]. split; vm_compute; reflexivity.
  - exfalso. vm_compute in E. discriminate.
Qed.
