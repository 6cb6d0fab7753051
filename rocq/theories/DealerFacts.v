(** Case analyses of the dealer's methods. *)
From Verif Require Import Prelude Value Msg IdGen Types PathMatch Dealer DealerSpec.
From Verif Require Import BaseSpec BaseFacts TypesFacts.

Lemma bool_opt_says m k : bool_opt m k = says m k.
Proof. unfold bool_opt, says, to_bool, as_bool. by destruct (mget m k). Qed.

Lemma details_map_spec sid c who : d_details_map sid c who = invocation_details c sid who.
Proof. unfold d_details_map, invocation_details. rewrite !bool_opt_says. done. Qed.

(** No key of an invocation's details is x_payload_serializer. *)
Lemma assoc_set_new {A} k (v : A) l : k ∉ map fst l -> assoc_set k v l = l ++ [(k, v)].
Proof.
  induction l as [|[k' v'] l IH]; cbn [assoc_set map fst app]; [done|]. intros H.
  apply not_elem_of_cons in H as [H1 H2].
  destruct (String.eqb k k') eqn:E; [apply String.eqb_eq in E; done|]. by rewrite IH.
Qed.
Lemma details_no_x c sid who :
  "x_payload_serializer"%string ∉ map fst (invocation_details c sid who).
Proof.
  unfold invocation_details. rewrite !map_app, !not_elem_of_app.
  repeat split.
  - destruct (says _ _); cbn; set_solver.
  - destruct (says _ _); cbn; set_solver.
  - destruct who; cbn; set_solver.
Qed.

Lemma invocation_spec c i g sid who s :
  (if bp_binary (ca_bin c) && se_static s
   then new_invocation_binary i g (Some (invocation_details c sid who))
          (bp_payload (ca_bin c)) (bp_serializer (ca_bin c))
   else new_invocation i g (Some (invocation_details c sid who)) (ca_args c) (ca_kwargs c))
  = invocation_for c i g (invocation_details c sid who) s.
Proof.
  unfold invocation_for. destruct (bp_binary (ca_bin c) && se_static s); [|done].
  unfold new_invocation_binary, set_x_payload. cbn [or_empty].
  rewrite assoc_set_new; [done|]. apply details_no_x.
Qed.

Lemma result_spec y r (more : bool) s :
  (if bp_binary (yi_bin y) && se_static s
   then new_result_binary r (if more then Some [(o_progress, VBool true)] else None)
          (bp_payload (yi_bin y)) (bp_serializer (yi_bin y))
   else new_result r (if more then Some [(o_progress, VBool true)] else None)
          (yi_args y) (yi_kwargs y))
  = result_for y r more s.
Proof.
  unfold result_for. destruct (bp_binary (yi_bin y) && se_static s); [|by destruct more].
  unfold new_result_binary, set_x_payload. by destruct more.
Qed.

(** ** Allocation *)

Definition alloc_new (d : dealer) (sid : N) (c : call) (callee : N) : dealer :=
  let i := next_id (d_idgen d) in
  dset_inv (<[(sid, ca_request c) := i]> (d_inv d))
    (dset_pending (<[i := Pending (ca_request c) sid callee (says (ca_options c) "progress")
                              (says (ca_options c) "receive_progress")]> (d_pending d))
       (dset_idgen i d)).

Lemma allocate_cases d sid c callee d' i : d_allocate d sid c callee = (d', i) ->
  (d' = d /\ d_inv d !! (sid, ca_request c) = Some i /\ says (ca_options c) "progress" = true)
  \/ (d' = alloc_new d sid c callee /\ i = next_id (d_idgen d)
      /\ (d_inv d !! (sid, ca_request c) = None \/ says (ca_options c) "progress" = false)).
Proof.
  unfold d_allocate, alloc_new. rewrite !bool_opt_says.
  destruct (d_inv d !! (sid, ca_request c)) as [j|] eqn:E.
  - unfold o_progress. destruct (says (ca_options c) "progress") eqn:Ep; intros H; injection H as <- <-.
    + by left.
    + right. split; [done|]. split; [done|]. by right.
  - intros H; injection H as <- <-. right. split; [done|]. split; [done|]. by left.
Qed.

(** ** CALL *)

Definition no_such (c : call) (sid : N) : dout :=
  DMsg (refusal 48 (ca_request c) "wamp.error.no_such_procedure") sid.

Definition with_next (d : dealer) (l : N) (nx : nat) (g : registration) : dealer :=
  dset_heap (<[l := set_next nx g]> (d_heap d)) d.

Lemma call_cases o d sid c d' out : d_call o d sid c = Ret d' out ->
  (d' = d /\ out = no_such c sid /\
     (d_find o d (ca_procedure c) = None
      \/ exists l g, d_find o d (ca_procedure c) = Some l /\ d_heap d !! l = Some g /\ g_regs g = ∅))
  \/ exists l g callee nx i who,
       d_find o d (ca_procedure c) = Some l /\ d_heap d !! l = Some g /\ g_regs g <> ∅
       /\ d_pick o g = Some (callee, nx)
       /\ d_allocate (with_next d l nx g) sid c callee = (d', i)
       /\ (if d_details d then who = d_sessions d !! sid /\ is_Some who else who = None)
       /\ ((d_sessions d !! callee = None /\ out = DErr "callee gone")
           \/ exists s, d_sessions d !! callee = Some s
                /\ out = DMsg (MInvocation (invocation_for c i (g_id g)
                                              (invocation_details c sid who) s)) callee).
Proof.
  unfold d_call. intros H.
  destruct (d_find o d (ca_procedure c)) as [l|] eqn:F.
  2:{ injection H as <- <-. left. split; [done|]. split; [done|]. by left. }
  destruct (d_heap d !! l) as [g|] eqn:G; [|discriminate].
  destruct (decide (g_regs g = ∅)) as [E|E].
  { injection H as <- <-. left. split; [done|]. split; [done|]. right. eauto. }
  destruct (d_pick o g) as [[callee nx]|] eqn:P; [|discriminate].
  fold (with_next d l nx g) in H.
  destruct (d_allocate (with_next d l nx g) sid c callee) as [dA i] eqn:A.
  assert (Hs : d_sessions dA = d_sessions d /\ d_details dA = d_details d).
  { destruct (allocate_cases _ _ _ _ _ _ A) as [(-> & _ & _)|(-> & _ & _)]; done. }
  destruct Hs as [Hs Hd]. rewrite Hd, Hs in H.
  assert (Hsend : forall who, d_send dA c i (g_id g) (d_details_map sid c who) callee = Ret d' out ->
     d' = dA /\ ((d_sessions d !! callee = None /\ out = DErr "callee gone")
           \/ exists s, d_sessions d !! callee = Some s
                /\ out = DMsg (MInvocation (invocation_for c i (g_id g)
                                              (invocation_details c sid who) s)) callee)).
  { intros who. unfold d_send. rewrite Hs, details_map_spec.
    destruct (d_sessions d !! callee) as [s|].
    - rewrite invocation_spec. intros HH; injection HH as <- <-. split; [done|]. right. eauto.
    - intros HH; injection HH as <- <-. split; [done|]. by left. }
  right. destruct (d_details d) eqn:D.
  - destruct (d_sessions d !! sid) as [w|] eqn:W; [|discriminate].
    destruct (Hsend _ H) as [-> Hc].
    exists l, g, callee, nx, i, (Some w). rewrite A. eauto 12.
  - destruct (Hsend _ H) as [-> Hc].
    exists l, g, callee, nx, i, None. rewrite A. eauto 12.
Qed.

(** ** YIELD and ERROR *)

Lemma yield_cases d y d' out : d_yield d y = Ret d' out ->
  (d_pending d !! yi_request y = None /\ d' = d /\ out = DErr "not pending")
  \/ exists p, d_pending d !! yi_request y = Some p
      /\ d' = (if pe_receive p && says (yi_options y) "progress" then d
               else dset_pending (delete (yi_request y) (d_pending d)) d)
      /\ ((d_sessions d !! pe_caller p = None /\ out = DErr "caller gone")
          \/ exists s, d_sessions d !! pe_caller p = Some s
               /\ out = DMsg (MResult (result_for y (pe_request p)
                                 (pe_receive p && says (yi_options y) "progress") s)) (pe_caller p)).
Proof.
  unfold d_yield. destruct (d_pending d !! yi_request y) as [p|] eqn:P.
  2:{ intros H; injection H as <- <-. by left. }
  rewrite bool_opt_says. change o_progress with "progress"%string at 1.
  set (more := pe_receive p && says (yi_options y) "progress"%string).
  intros H. right. exists p. split; [done|].
  assert (Hs : d_sessions (if more then d else dset_pending (delete (yi_request y) (d_pending d)) d)
               = d_sessions d) by (by destruct more).
  rewrite Hs in H.
  destruct (d_sessions d !! pe_caller p) as [s|] eqn:S.
  - rewrite result_spec in H. injection H as <- <-. split; [done|]. right. eauto.
  - injection H as <- <-. split; [done|]. by left.
Qed.

Lemma error_cases d e d' out : d_error d e = Ret d' out ->
  (er_type e <> tInvocation /\ d' = d /\ exists x, out = DErr x)
  \/ (er_type e = tInvocation /\ d_pending d !! er_request e = None /\ d' = d /\ exists x, out = DErr x)
  \/ exists p, er_type e = tInvocation /\ d_pending d !! er_request e = Some p
      /\ d' = dset_pending (delete (er_request e) (d_pending d)) d
      /\ out = DMsg (MError (Error 48 (pe_request p) (or_empty (er_details e)) (er_uri e)
                               (er_args e) (er_kwargs e))) (pe_caller p).
Proof.
  unfold d_error. destruct (er_type e =? tInvocation) eqn:T; cbn [negb].
  - apply N.eqb_eq in T. destruct (d_pending d !! er_request e) as [p|] eqn:P.
    + intros H; injection H as <- <-. right; right. exists p. done.
    + intros H; injection H as <- <-. right; left. eauto.
  - apply N.eqb_neq in T. intros H; injection H as <- <-. left. eauto.
Qed.

(** ** Runs *)

Lemma drun_app d h1 h2 : drun d (h1 ++ h2) =
  match drun d h1 with
  | Crash w => Crash w
  | Ret d1 o1 => match drun d1 h2 with Crash w => Crash w | Ret d2 o2 => Ret d2 (o1 ++ o2) end
  end.
Proof.
  revert d. induction h1 as [|[o op] h1 IH]; intros d; cbn [drun app].
  { by destruct (drun d h2). }
  destruct (dstep o d op) as [d' r|w]; [|done]. rewrite IH.
  destruct (drun d' h1) as [d1 o1|w]; [|done]. by destruct (drun d1 h2).
Qed.
Lemma drun_length d h d' outs : drun d h = Ret d' outs -> length outs = length h.
Proof.
  revert d outs. induction h as [|[o op] h IH]; intros d outs; cbn [drun].
  { intros H; injection H as _ <-. done. }
  destruct (dstep o d op) as [d1 r|w]; [|discriminate].
  destruct (drun d1 h) as [d2 o2|w] eqn:E; [|discriminate].
  intros H; injection H as <- <-. cbn. f_equal. by eapply IH.
Qed.
Lemma drun_snoc d h o op d' outs out d'' :
  drun d h = Ret d' outs -> dstep o d' op = Ret d'' out ->
  drun d (h ++ [(o, op)]) = Ret d'' (outs ++ [out]).
Proof. intros H1 H2. rewrite drun_app, H1. cbn [drun]. by rewrite H2. Qed.
Lemma drun_snoc_inv d h o op d'' outs'' : drun d (h ++ [(o, op)]) = Ret d'' outs'' ->
  exists d' outs out, drun d h = Ret d' outs /\ dstep o d' op = Ret d'' out /\ outs'' = outs ++ [out].
Proof.
  rewrite drun_app. destruct (drun d h) as [d1 o1|w]; [|discriminate]. cbn [drun].
  destruct (dstep o d1 op) as [d2 r|w] eqn:E; [|discriminate].
  intros H; injection H as <- <-. eauto 6.
Qed.
Lemma dtrace_snoc h outs o op out : length outs = length h ->
  dtrace_of (h ++ [(o, op)]) (outs ++ [out]) = (op, out) :: dtrace_of h outs.
Proof.
  intros Hl. unfold dtrace_of. rewrite map_app. cbn [map snd].
  rewrite zip_with_app by (by rewrite map_length). cbn [zip_with].
  by rewrite rev_app_distr.
Qed.

(** An invariant of single steps holds along every run. *)
Lemma run_invariant (I : dtrace -> dealer -> Prop) :
  I [] new_dealer ->
  (forall tr d o op d' out, I tr d -> N.of_nat (length tr) < two53 -> dstep o d op = Ret d' out -> I ((op, out) :: tr) d') ->
  forall h d outs, N.of_nat (length h) <= two53 -> drun new_dealer h = Ret d outs ->
    I (dtrace_of h outs) d /\ length (dtrace_of h outs) = length h.
Proof.
  intros I0 IS h. induction h as [|[o op] h IH] using rev_ind; intros d outs Hb H.
  { injection H as <- <-. done. }
  destruct (drun_snoc_inv _ _ _ _ _ _ H) as (d1 & o1 & out & H1 & H2 & ->).
  pose proof (drun_length _ _ _ _ H1) as Hl.
  rewrite app_length in Hb. cbn [length] in Hb.
  destruct (IH _ _ ltac:(lia) H1) as [HI Hlen].
  rewrite dtrace_snoc by done. split.
  - eapply IS; [done| |done]. rewrite Hlen. lia.
  - cbn [length]. rewrite Hlen, app_length. cbn [length]. lia.
Qed.
