(** C133: what is left in the dealer when everybody has gone. *)
From Verif Require Import Prelude Value Msg IdGen Types PathMatch Dealer DealerSpec.
From Verif Require Import BaseSpec DealerEx DealerLeft DealerLeftEx.

Local Open Scope string_scope.
Local Open Scope list_scope.
Local Open Scope N_scope.

(** ** C133: when the last session leaves the dealer keeps nothing *)

(** No session, no registration of a session, no procedure name... *)
Theorem C133_registrations_partial : forall h d outs, N.of_nat (length h) <= two53 ->
  drun new_dealer h = Ret d outs -> (forall x, ~ present (dtrace_of h outs) x) ->
  d_sessions d = ∅ /\ d_by_session d = ∅ /\ d_by_proc d = ∅
  /\ forall o p, dstep o d (DHasProc p) = Ret d (DHas false).
Proof. exact left_procedures. Qed.
(** ...and no wildcard pattern if the sessions kept to the rules. *)
Theorem C133_wildcards_partial : forall h d outs, polite_history h -> N.of_nat (length h) <= two53 ->
  drun new_dealer h = Ret d outs -> (forall x, ~ present (dtrace_of h outs) x) -> d_wild d = ∅.
Proof. exact left_wildcards. Qed.
(** Pending calls are those nobody has answered, whoever has left. *)
Theorem C133_pending_partial : forall h d outs, N.of_nat (length h) <= two53 -> drun new_dealer h = Ret d outs ->
  d_pending d = ∅ <-> forall i c r rp, ~ open_inv (dtrace_of h outs) i c r rp.
Proof. exact left_pending. Qed.

(** The whole claim is false: the prefix, the unanswered call and the record of
    every call stay. *)
Theorem C133_nothing_left_refuted : exists h d outs, polite_history h /\ drun new_dealer h = Ret d outs
  /\ (forall x, ~ present (dtrace_of h outs) x)
  /\ d_prefix d <> ∅ /\ d_pending d <> ∅ /\ d_inv d <> ∅.
Proof. exact left_something. Qed.
Theorem C133_wildcards_refuted : exists h d outs, drun new_dealer h = Ret d outs
  /\ (forall x, ~ present (dtrace_of h outs) x) /\ d_wild d <> ∅.
Proof. exact left_wild. Qed.
(** The record of calls has an entry for every call ever taken on... *)
Theorem C133_calls_recorded : forall h d outs, N.of_nat (length h) <= two53 -> drun new_dealer h = Ret d outs ->
  forall c r, called (dtrace_of h outs) c r = true <-> is_Some (d_inv d !! (c, r)).
Proof. exact left_calls. Qed.
(** ...so it grows without limit, answered calls or not, sessions or not. *)
Theorem C133_grows_refuted : forall n, N.of_nat n + 1 < two53 / 2 -> exists h d outs,
  polite_history h /\ drun new_dealer h = Ret d outs
  /\ (forall x, ~ present (dtrace_of h outs) x)
  /\ (forall i c r rp, ~ open_inv (dtrace_of h outs) i c r rp)
  /\ size (d_inv d) = n.
Proof. exact left_growing. Qed.

Example C133_ex :
  panics lh = false /\ results lh !! 5%nat = Some (DMsg (MInvocation (new_invocation 4 1 (Some []) (Some [VStr "hi"]) None)) 1)
  /\ results lh !! 8%nat = Some DOk /\ results lh !! 9%nat = Some DOk
  /\ is_Some (d_pending (after lh) !! 4) /\ d_pending (after lh) !! 5 = None
  /\ d_inv (after lh) !! (2, 1) = Some 4 /\ d_inv (after lh) !! (2, 2) = Some 5
  /\ is_Some (d_prefix (after lh) !! "a.") /\ d_wild (after lh) !! "x..y" = None
  /\ d_by_proc (after lh) !! "p" = None
  /\ (exists d, dstep e0 (after lh) (dyield 1 4 []) = Ret d (DErr "caller gone"))
  /\ is_Some (d_wild (after lw) !! "p") /\ d_by_proc (after lw) !! "p" = None.
Proof. repeat split; try (vm_compute; reflexivity); try (vm_compute; eexists; reflexivity). Qed.

(** * Assumptions *)
Print Assumptions C133_registrations_partial.
Print Assumptions C133_wildcards_partial.
Print Assumptions C133_pending_partial.
Print Assumptions C133_nothing_left_refuted.
Print Assumptions C133_wildcards_refuted.
Print Assumptions C133_calls_recorded.
Print Assumptions C133_grows_refuted.
