(** Concrete sessions for the examples. *)
From Verif Require Import Prelude Value Msg Mutex Session SessionSpec SessionProofs.

Definition bytes : res string := Ok "bytes".
Definition send (m : message) : sop := SSend bytes m.
Definition recv (m : message) : sop := SReceiveMessage m.
Definition ctrue : value := VBool true.

Definition c_call r := MCall (new_call r None "p" None None).
Definition c_result r d := MResult (new_result r (Some d) None None).
Definition c_register r := MRegister (Register r (Some []) "p").
Definition c_registered r g := MRegistered (Registered r g).
Definition c_unregister r g := MUnregister (Unregister r g).
Definition c_unregistered r := MUnregistered (Unregistered r).
Definition c_invocation i g := MInvocation (new_invocation i g (Some []) None None).
Definition c_yield i := MYield (Yield i (Some []) None None no_bin).
Definition c_publish r o := MPublish (new_publish r (Some o) "t" None None).
Definition c_published r := MPublished (Published r 77).
Definition c_subscribe r := MSubscribe (new_subscribe r None "t").
Definition c_subscribed r g := MSubscribed (Subscribed r g).
Definition c_unsubscribe r g := MUnsubscribe (Unsubscribe r g).
Definition c_unsubscribed r := MUnsubscribed (Unsubscribed r).
Definition c_event g := MEvent (Event g 5 (Some []) None None).
Definition c_error t r := MError (new_error t r (Some []) "e" None None).

Definition is_ok (r : res sout) : bool := match r with Ok _ => true | _ => false end.
(** Which operations of a history are accepted. *)
Definition verdicts (h : list sop) : list bool := map is_ok (snd (srun new_session h)).
Definition after (h : list sop) : session := fst (srun new_session h).
Definition outputs (h : list sop) : list (res sout) := snd (srun new_session h).
Definition trace (h : list sop) : list sevent := strace_of h (outputs h).
Lemma ran h : srun new_session h = (after h, outputs h).
Proof. apply surjective_pairing. Qed.

(** One CALL, two goroutines holding its final RESULT. *)
Definition race : list (list sop) := [[send (c_call 1)]; [recv (c_result 1 [])]; [recv (c_result 1 [])]].

Ltac begin_ n := eapply greach_step; [|apply (gstep_begin n); reflexivity].
Ltac access n := eapply greach_step; [|eapply (gstep_access n); [reflexivity|reflexivity]].
Ltac finish n := eapply greach_step; [|eapply (gstep_end n); reflexivity].

(** Schedules: 0 begin, 1 access, 2 end. *)
Fixpoint follow (l : list (nat * nat)) (c : gconfig) : option gconfig :=
  match l with
  | [] => Some c
  | (t, k) :: l' =>
      match g_threads c !! t with
      | Some (GoThread (op :: todo) None) =>
          if (k =? 0)%nat then
            follow l' (GConfig (g_state c) (<[t := GoThread todo (Some (op, sop_prog op))]> (g_threads c)) (GBegin op :: g_log c))
          else None
      | Some (GoThread todo (Some (op, PAct f))) =>
          if (k =? 1)%nat then
            match f (g_state c) with (s', p') =>
              follow l' (GConfig s' (<[t := GoThread todo (Some (op, p'))]> (g_threads c)) (g_log c)) end
          else None
      | Some (GoThread todo (Some (op, PRet r))) =>
          if (k =? 2)%nat then
            follow l' (GConfig (g_state c) (<[t := GoThread todo None]> (g_threads c)) (GEnd op r :: g_log c))
          else None
      | _ => None
      end
  end.
Lemma follow_reach l c0 : forall c c', greach c0 c -> follow l c = Some c' -> greach c0 c'.
Proof.
  induction l as [|[t k] l IH]; intros [s th log] c' R E; cbn [follow g_threads g_state g_log] in E.
  - by injection E as <-.
  - destruct (th !! t) as [[todo [[op [r|f]]|]]|] eqn:Ht; [| | |discriminate].
    + destruct (k =? 2)%nat; [|destruct todo; discriminate].
      assert (greach c0 (GConfig s (<[t:=GoThread todo None]> th) (GEnd op r :: log))) as R'
        by (eapply greach_step; [exact R|by apply gstep_end]).
      destruct todo; exact (IH _ _ R' E).
    + destruct (k =? 1)%nat; [|destruct todo; discriminate].
      destruct (f s) as [s' p'] eqn:F.
      assert (greach c0 (GConfig s' (<[t:=GoThread todo (Some (op, p'))]> th) log)) as R'
        by (eapply greach_step; [exact R|by eapply gstep_access]).
      destruct todo; exact (IH _ _ R' E).
    + destruct todo as [|op todo]; [discriminate|]. destruct (k =? 0)%nat; [|discriminate].
      refine (IH _ _ _ E). eapply greach_step; [exact R|by apply gstep_begin].
Qed.
Lemma race_reached : exists c, greach (ginit race) c
  /\ begun (is_call 1) (g_log c) = 1%nat
  /\ accepted (fun op => is_result 1 op || is_error 48 1 op) (g_log c) = 2%nat.
Proof.
  destruct (follow [(0,0);(0,1);(0,2);(1,0);(2,0);(1,1);(2,1);(1,1);(2,1);(1,2);(2,2)]%nat (ginit race)) as [c|] eqn:E.
  - exists c. split; [exact (follow_reach _ _ _ _ (greach_refl _) E)|].
    cbv in E. injection E as <-. vm_compute. done.
  - exfalso. vm_compute in E. discriminate.
Qed.
Lemma fair_reached : exists c, greach (ginit [[send (c_register 1)]; [recv (c_registered 1 9)]; [recv (c_error 64 1)]]) c
  /\ begun (is_register 1) (g_log c) = 1%nat
  /\ accepted (fun op => is_registered 1 op || is_error 64 1 op) (g_log c) = 1%nat
  /\ (exists e, GEnd (recv (c_error 64 1)) (Err e) ∈ g_log c).
Proof.
  destruct (follow [(0,0);(0,1);(0,2);(1,0);(2,0);(1,1);(2,1);(1,1);(1,2);(2,2)]%nat
    (ginit [[send (c_register 1)]; [recv (c_registered 1 9)]; [recv (c_error 64 1)]])) as [c|] eqn:E.
  - exists c. split; [exact (follow_reach _ _ _ _ (greach_refl _) E)|].
    cbv in E. injection E as <-. split; [vm_compute; done|]. split; [vm_compute; done|].
    eexists. left.
  - exfalso. vm_compute in E. discriminate.
Qed.
Lemma unasked_yield : exists h op i,
  (sends op (c_yield i) /\ ~ invocation_open (trace h) i)
  /\ exists s', sstep (after h) op = (s', Ok (SData "bytes")).
Proof.
  exists [], (send (c_yield 5)), 5. split; [split; [by eexists|]|].
  - vm_compute. done.
  - eexists. vm_compute. reflexivity.
Qed.
