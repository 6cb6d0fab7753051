(** Case analyses of REGISTER, UNREGISTER, the removal loop and the search. *)
From Verif Require Import Prelude Value Msg IdGen Types PathMatch Dealer DealerSpec.
From Verif Require Import BaseSpec BaseFacts TypesFacts DealerFacts.

Definition pol_name (p : policy) : string :=
  match p with PExact => "exact" | PPrefix => "prefix" | PWildcard => "wildcard" end.
Lemma pol_name_inj p q : pol_name p = pol_name q -> p = q.
Proof. by destruct p, q. Qed.

Lemma requested_name options :
  pol_name (requested_policy options) =
  let mt := to_string (mget options o_match) in
  if String.eqb mt m_prefix then mt else if String.eqb mt m_wildcard then mt else m_exact.
Proof.
  unfold requested_policy, o_match, to_string, as_string, m_prefix, m_wildcard.
  destruct (mget options "match"); try done. cbn zeta. cbn [fst].
  destruct (String.eqb_spec s "prefix"); [by subst|]. destruct (String.eqb_spec s "wildcard"); by subst.
Qed.
Lemma invoke_policy_str m : to_string (mget (rg_options m) o_invoke) = invoke_policy m.
Proof. unfold invoke_policy, to_string, as_string, o_invoke. by destruct (mget (rg_options m) "invoke"). Qed.

(** ** REGISTER *)

Definition join_d (d : dealer) (sid : N) (mine : gmap N N) (l : N) (g : registration) (p : string) : dealer :=
  Dealer (<[l := Registration (g_id g) (g_proc g) (<[sid := sid]> (g_regs g)) (g_invoke g) (g_next g)
                   (g_callees g ++ [sid]) (g_match g)]> (d_heap d))
    (d_fresh d) (d_sessions d) (<[p := l]> (d_by_proc d))
    (<[sid := <[g_id g := l]> mine]> (d_by_session d)) (d_prefix d) (d_wild d)
    (d_pending d) (d_inv d) (d_details d) (d_idgen d).

Definition create_d (d : dealer) (sid : N) (mine : gmap N N) (p inv : string) (pol : policy) : dealer :=
  let id := next_id (d_idgen d) in
  let l := d_fresh d in
  Dealer (<[l := Registration id p {[sid := sid]} inv 0 [sid] (pol_name pol)]> (d_heap d))
    (l + 1) (d_sessions d) (<[p := l]> (d_by_proc d))
    (<[sid := <[id := l]> mine]> (d_by_session d))
    (if decide (pol = PPrefix) then <[p := l]> (d_prefix d) else d_prefix d)
    (if decide (pol = PWildcard) then <[p := l]> (d_wild d) else d_wild d)
    (d_pending d) (d_inv d) (d_details d) id.

Lemma register_cases d sid m d' out : d_register d sid m = Ret d' out ->
  (d_by_session d !! sid = None /\ d' = d /\ exists e, out = DErr e)
  \/ exists mine, d_by_session d !! sid = Some mine /\
     ((exists l g, d_by_proc d !! rg_procedure m = Some l /\ d_heap d !! l = Some g
         /\ (g_invoke g = "" \/ g_invoke g = "single" \/ invoke_policy m <> g_invoke g)%string /\ d' = d
         /\ out = DMsg (refusal 64 (rg_request m) "wamp.error.procedure_already_exists") sid)
      \/ (exists l g, d_by_proc d !! rg_procedure m = Some l /\ d_heap d !! l = Some g
         /\ g_invoke g <> ""%string /\ g_invoke g <> "single"%string /\ invoke_policy m = g_invoke g
         /\ d' = join_d d sid mine l g (rg_procedure m)
         /\ out = DMsg (MRegistered (Registered (rg_request m) (g_id g))) sid)
      \/ (d_by_proc d !! rg_procedure m = None
         /\ d' = create_d d sid mine (rg_procedure m) (invoke_policy m) (requested_policy (rg_options m))
         /\ out = DMsg (MRegistered (Registered (rg_request m) (next_id (d_idgen d)))) sid)).
Proof.
  unfold d_register. destruct (d_by_session d !! sid) as [mine|] eqn:M.
  2:{ intros H; injection H as <- <-. left. eauto. }
  rewrite invoke_policy_str. intros H. right. exists mine. split; [done|].
  destruct (d_by_proc d !! rg_procedure m) as [l|] eqn:B.
  - destruct (d_heap d !! l) as [g|] eqn:G; [|discriminate].
    destruct (String.eqb_spec (g_invoke g) "") as [E1|E1];
      [|destruct (String.eqb_spec (g_invoke g) i_single) as [E2|E2];
        [|destruct (String.eqb_spec (g_invoke g) (invoke_policy m)) as [E3|E3]]];
      cbn [orb negb] in H; injection H as <- <-.
    + left. exists l, g. repeat split; try done. by left.
    + left. exists l, g. repeat split; try done. right; by left.
    + right; left. exists l, g. done.
    + left. exists l, g. repeat split; try done. right; right. congruence.
  - right; right. split; [done|]. injection H as <- <-. split; [|done].
    unfold create_d. rewrite requested_name. cbn zeta.
    set (mt := to_string (mget (rg_options m) o_match)).
    assert (HP : (requested_policy (rg_options m) = PPrefix) <-> String.eqb mt m_prefix = true).
    { pose proof (requested_name (rg_options m)) as HN. cbn zeta in HN. fold mt in HN.
      split.
      - intros HH. rewrite HH in HN. destruct (String.eqb mt m_prefix) eqn:X; [done|].
        destruct (String.eqb mt m_wildcard) eqn:Y; cbn in HN; [|done].
        apply String.eqb_eq in Y. rewrite Y in HN. done.
      - intros HH. rewrite HH in HN. apply String.eqb_eq in HH. rewrite HH in HN.
        apply pol_name_inj. by rewrite HN. }
    assert (HW : (requested_policy (rg_options m) = PWildcard) <->
                 String.eqb mt m_prefix = false /\ String.eqb mt m_wildcard = true).
    { pose proof (requested_name (rg_options m)) as HN. cbn zeta in HN. fold mt in HN.
      split.
      - intros HH. rewrite HH in HN. destruct (String.eqb mt m_prefix) eqn:X.
        + apply String.eqb_eq in X. rewrite X in HN. done.
        + destruct (String.eqb mt m_wildcard) eqn:Y; [done|]. done.
      - intros [X Y]. rewrite X, Y in HN. apply String.eqb_eq in Y. rewrite Y in HN.
        apply pol_name_inj. by rewrite HN. }
    destruct (String.eqb mt m_prefix) eqn:X.
    + rewrite decide_True by (by apply HP).
      rewrite decide_False by (intros HH; apply HW in HH as [? ?]; done). done.
    + rewrite decide_False by (intros HH; apply HP in HH; done).
      destruct (String.eqb mt m_wildcard) eqn:Y.
      * rewrite decide_True by (by apply HW). done.
      * rewrite decide_False by (intros HH; apply HW in HH as [? ?]; done). done.
Qed.

(** ** UNREGISTER *)

Definition leave_g (sid : N) (g : registration) : registration := set_regs (delete sid (g_regs g)) g.

Definition unreg_d (d : dealer) (sid : N) (mine : gmap N N) (id l : N) (g : registration) : dealer :=
  if decide (delete sid (g_regs g) = ∅) then
    Dealer (<[l := leave_g sid g]> (d_heap d)) (d_fresh d) (d_sessions d)
      (delete (g_proc g) (d_by_proc d)) (<[sid := delete id mine]> (d_by_session d)) (d_prefix d)
      (if decide (g_match g = m_wildcard) then delete (g_proc g) (d_wild d) else d_wild d)
      (d_pending d) (d_inv d) (d_details d) (d_idgen d)
  else dset_heap (<[l := leave_g sid g]> (d_heap d)) d.

Lemma eqb_decide {A} (x y : string) (a b : A) :
  (if String.eqb x y then a else b) = (if decide (x = y) then a else b).
Proof. destruct (String.eqb_spec x y); [by rewrite decide_True|by rewrite decide_False]. Qed.

Lemma unregister_cases d sid m d' out : d_unregister d sid m = Ret d' out ->
  ((d_by_session d !! sid = None \/ d_by_session d !! sid = Some ∅) /\ d' = d /\ exists e, out = DErr e)
  \/ exists mine l g, d_by_session d !! sid = Some mine /\ mine !! ur_registration m = Some l
       /\ d_heap d !! l = Some g /\ d' = unreg_d d sid mine (ur_registration m) l g
       /\ out = DMsg (MUnregistered (Unregistered (ur_request m))) sid.
Proof.
  unfold d_unregister. destruct (d_by_session d !! sid) as [mine|] eqn:M.
  2:{ intros H; injection H as <- <-. left. split; [by left|]. eauto. }
  destruct (decide (mine = ∅)) as [->|n].
  { intros H; injection H as <- <-. left. split; [by right|]. eauto. }
  destruct (mine !! ur_registration m) as [l|] eqn:L; [|discriminate].
  destruct (d_heap d !! l) as [g|] eqn:G; [|discriminate].
  intros H; injection H as <- <-. right. exists mine, l, g. repeat split; try done.
  unfold unreg_d. destruct (decide (delete sid (g_regs g) = ∅)); [|done].
  rewrite eqb_decide. by destruct (decide (g_match g = m_wildcard)).
Qed.

(** ** The removal loop *)

Definition removed_d (d : dealer) (id l : N) (g : registration) (cs : list N) : dealer :=
  Dealer (<[l := Registration (g_id g) (g_proc g) (delete id (g_regs g)) (g_invoke g) (g_next g) cs
                   (g_match g)]> (d_heap d)) (d_fresh d) (d_sessions d)
    (if decide (delete id (g_regs g) = ∅) then delete (g_proc g) (d_by_proc d) else d_by_proc d)
    (d_by_session d) (d_prefix d)
    (if decide (g_match g = m_wildcard) then delete (g_proc g) (d_wild d) else d_wild d)
    (d_pending d) (d_inv d) (d_details d) (d_idgen d).

Lemma remove_body_eq id d l reg : d_heap d !! l = Some reg ->
  d_remove_body id d l =
  match d_by_proc d !! g_proc reg with
  | None => Ret d ()
  | Some l' =>
      match d_heap d !! l' with
      | None => Crash "nil dereference"
      | Some g =>
          match drop_callee id (g_callees g) with
          | None => Crash "slice bounds out of range"
          | Some cs => Ret (removed_d d id l' g cs) ()
          end
      end
  end.
Proof.
  intros H. unfold d_remove_body. rewrite H. destruct (d_by_proc d !! g_proc reg) as [l'|]; [|done].
  destruct (d_heap d !! l') as [g|]; [|done]. cbn [g_callees set_regs].
  destruct (drop_callee id (g_callees g)) as [cs|]; [|done]. f_equal.
  unfold removed_d. rewrite eqb_decide. cbn [g_regs g_match g_proc set_regs].
  destruct (decide (delete id (g_regs g) = ∅)), (decide (g_match g = m_wildcard)); done.
Qed.

(** The elements of registration.callees after the loop were there before. *)
Lemma shift_left_sub arr i len x : x ∈ shift_left arr i len -> x ∈ arr.
Proof.
  unfold shift_left. rewrite !elem_of_app. intros [H|[H|H]].
  - apply elem_of_list_lookup in H as [j H]. apply lookup_take_Some in H as [H _].
    by eapply elem_of_list_lookup_2.
  - apply elem_of_list_lookup in H as [j H]. apply lookup_take_Some in H as [H _].
    rewrite lookup_drop in H. by eapply elem_of_list_lookup_2.
  - apply elem_of_list_lookup in H as [j H]. rewrite lookup_drop in H. by eapply elem_of_list_lookup_2.
Qed.
Lemma callee_loop_sub id n : forall arr len i arr' len',
  callee_loop id arr len i n = Some (arr', len') -> forall x, x ∈ arr' -> x ∈ arr.
Proof.
  induction n as [|n IH]; intros arr len i arr' len'; cbn [callee_loop].
  { intros H; injection H as <- <-. done. }
  destruct (arr !! i) as [c|]; [|discriminate].
  destruct (c =? id); [|by apply IH].
  destruct (len =? 1)%nat; [by apply IH|]. destruct (len <? i + 1)%nat; [discriminate|].
  intros H x Hx. eapply shift_left_sub, IH; eauto.
Qed.
Lemma drop_callee_sub id l l' x : drop_callee id l = Some l' -> x ∈ l' -> x ∈ l.
Proof.
  unfold drop_callee. destruct (callee_loop _ _ _ _ _) as [[arr len]|] eqn:E; [|discriminate].
  intros H; injection H as <-. intros Hx. eapply callee_loop_sub; [done|].
  apply elem_of_list_lookup in Hx as [j H]. apply lookup_take_Some in H as [H _].
  by eapply elem_of_list_lookup_2.
Qed.

(** A list without duplicates simply loses the callee. *)
Lemma callee_loop_absent id n : forall arr len i, (forall j, (i <= j)%nat -> arr !! j <> Some id) ->
  (i + n <= length arr)%nat -> callee_loop id arr len i n = Some (arr, len).
Proof.
  induction n as [|n IH]; intros arr len i Habs Hl; cbn [callee_loop]; [done|].
  destruct (lookup_lt_is_Some_2 arr i) as [c Hc]; [lia|]. rewrite Hc.
  destruct (N.eqb_spec c id) as [->|nc].
  - exfalso. by eapply Habs.
  - apply IH; [|lia]. intros j Hj. apply Habs. lia.
Qed.
Lemma callee_loop_at id : forall pre post n i, id ∉ pre -> id ∉ post -> i = length pre ->
  n = S (length post) -> pre ++ post <> [] ->
  callee_loop id (pre ++ id :: post) (length pre + S (length post)) i n
  = Some (pre ++ post ++ drop (length post) (id :: post), length pre + length post)%nat.
Proof.
  intros pre post n i H1 H2 -> -> Hne. cbn [callee_loop].
  rewrite lookup_app_r by lia. rewrite Nat.sub_diag. cbn [lookup list_lookup].
  rewrite N.eqb_refl.
  destruct (length pre + S (length post) =? 1)%nat eqn:E.
  { apply Nat.eqb_eq in E. destruct pre, post; cbn in E; try lia. done. }
  clear E. destruct (length pre + S (length post) <? length pre + 1)%nat eqn:E.
  { apply Nat.ltb_lt in E. lia. }
  clear E.
  assert (Hsh : shift_left (pre ++ id :: post) (length pre) (length pre + S (length post))
          = pre ++ post ++ drop (length post) (id :: post)).
  { unfold shift_left. rewrite take_app. f_equal.
    replace (drop (length pre + 1) (pre ++ id :: post)) with post.
    2:{ rewrite drop_app_ge by lia. replace (length pre + 1 - length pre)%nat with 1%nat by lia. done. }
    replace (length pre + S (length post) - (length pre + 1))%nat with (length post) by lia.
    rewrite firstn_all. f_equal.
    rewrite drop_app_ge by lia. f_equal. lia. }
  rewrite Hsh. replace (length pre + S (length post) - 1)%nat with (length pre + length post)%nat by lia.
  apply callee_loop_absent.
  - intros j Hj Hc.
    destruct (decide (j < length pre + length post)%nat) as [Hlt|Hge].
    + rewrite lookup_app_r in Hc by lia. rewrite lookup_app_l in Hc by lia.
      by apply H2, (elem_of_list_lookup_2 _ _ _ Hc).
    + rewrite lookup_app_r in Hc by lia. rewrite lookup_app_r in Hc by lia.
      rewrite lookup_drop in Hc.
      destruct (decide (length post = 0)%nat) as [Hp|Hp].
      * assert (post = []) as -> by (by apply nil_length_inv). cbn in Hc, Hj.
        destruct (j - length pre - 0)%nat eqn:Ej; cbn in Hc; [lia|done].
      * destruct (length post + (j - length pre - length post))%nat as [|k] eqn:Ek; [lia|].
        cbn in Hc. by apply H2, (elem_of_list_lookup_2 _ _ _ Hc).
  - rewrite !app_length, drop_length. cbn [length]. lia.
Qed.

Lemma callee_loop_skip id : forall pre rest len i, id ∉ pre -> 
  forall arr done, arr = done ++ pre ++ rest -> i = length done ->
  callee_loop id arr len i (length pre + length rest)
  = callee_loop id arr len (i + length pre) (length rest).
Proof.
  induction pre as [|c pre IH]; intros rest len i Hp arr dn -> ->; cbn [length].
  { by rewrite Nat.add_0_r. }
  apply not_elem_of_cons in Hp as [Hc Hp]. cbn [Nat.add callee_loop].
  rewrite lookup_app_r by lia. rewrite Nat.sub_diag. cbn [app lookup list_lookup].
  destruct (N.eqb_spec c id) as [->|_]; [done|].
  rewrite (IH rest len (length dn + 1)%nat Hp (dn ++ c :: pre ++ rest) (dn ++ [c])).
  - f_equal. lia.
  - by rewrite <- app_assoc.
  - rewrite app_length. cbn. lia.
Qed.

Lemma filter_absent (id : N) (l : list N) : id ∉ l -> filter (fun x => x <> id) l = l.
Proof.
  induction l as [|x l IH]; [done|]. intros [H1 H2]%not_elem_of_cons.
  rewrite filter_cons_True by congruence. by rewrite IH.
Qed.
Lemma drop_callee_nodup id l : NoDup l -> drop_callee id l = Some (filter (fun x => x <> id) l).
Proof.
  intros Hnd. unfold drop_callee. destruct (decide (id ∈ l)) as [Hin|Hout].
  - apply elem_of_list_split in Hin as (pre & post & ->).
    apply NoDup_app in Hnd as (_ & Hd & Hnd). apply NoDup_cons in Hnd as [Hpost Hnd].
    assert (Hpre : id ∉ pre) by (intros Hi; apply (Hd _ Hi); by left).
    assert (Hf : filter (fun x => x <> id) (pre ++ id :: post) = pre ++ post).
    { rewrite filter_app, filter_cons_False by naive_solver.
      by rewrite !filter_absent. }
    rewrite Hf. rewrite app_length. cbn [length].
    pose proof (callee_loop_skip id pre (id :: post) (length pre + S (length post)) 0 Hpre
                  (pre ++ id :: post) [] eq_refl eq_refl) as Hsk.
    cbn [length] in Hsk. rewrite Hsk. clear Hsk. cbn [Nat.add].
    destruct (decide (pre ++ post = [])) as [E|E].
    + apply app_eq_nil in E as [-> ->]. cbn. by rewrite N.eqb_refl.
    + rewrite callee_loop_at by done. f_equal.
      rewrite app_assoc. rewrite take_app_le by (rewrite app_length; lia).
      rewrite firstn_all2 by (rewrite app_length; lia). done.
  - rewrite callee_loop_absent.
    + f_equal. rewrite firstn_all. by rewrite filter_absent.
    + intros j _ Hj. by apply Hout, (elem_of_list_lookup_2 _ _ _ Hj).
    + lia.
Qed.

(** ** Choice of the callee *)

Lemma pick_in o g c nx : d_pick o g = Some (c, nx) -> c ∈ g_callees g.
Proof.
  unfold d_pick.
  assert (K : forall k nx' , (fun c => (c, nx' : nat)) <$> g_callees g !! k = Some (c, nx) -> c ∈ g_callees g).
  { intros k nx' H. destruct (g_callees g !! k) eqn:E; [|discriminate]. cbn in H. injection H as -> _.
    by eapply elem_of_list_lookup_2. }
  destruct (1 <? length (g_callees g))%nat; [|apply K].
  destruct (String.eqb _ _); [apply K|]. destruct (String.eqb _ _); [apply K|].
  destruct (String.eqb _ _); [apply K|]. destruct (String.eqb _ _); apply K.
Qed.

(** The size test of dealer.go:172 changes nothing. *)
Lemma size_test (t : gmap string N) q :
  (if (0 <? size t)%nat then longest_prefix t q else None) = longest_prefix t q.
Proof.
  destruct (Nat.ltb_spec 0 (size t)); [done|].
  assert (t = ∅) as -> by (apply map_size_empty_iff; lia). by rewrite longest_prefix_empty.
Qed.
