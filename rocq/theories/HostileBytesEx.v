(** Runs with hostile bytes, for the examples. *)
From Verif Require Import Prelude Value Msg IdGen Types PathMatch Broker Dealer Session Network Connection.
From Verif Require Import Binary AuthSpec MsgSpec BrokerSpec DealerSpec Portable NetworkSpec NetworkWire NetworkBytes NetworkBytesRun.
From Verif Require Import DealerEx NetworkEx NetworkWireEx Hostile HostileEx HostileBytes HostileBytesProofs.

Local Open Scope string_scope.
Local Open Scope list_scope.
Local Open Scope N_scope.

Section run.
Context {PL : Platform} (sers : N -> Z).
Definition ydo (x : bnet) (y : yevent) : bnet :=
  match y with
  | YNet e => bytes_do sers x e
  | YBytes o c t =>
      match x_clients x !! c with
      | None => x
      | Some _ =>
          match deserialize_as (sers c) sh_id sh_id t with
          | Ok m =>
              match answers o c m (x_broker x) (x_dealer x) with
              | Ret (b, d) outs =>
                  let (cs, un) := send_out sers outs (x_clients x) (x_unsent x) in
                  BNet cs b d (x_read x) (x_rejected x) (x_unread x) un (x_crashed x)
              | Crash w => xset_crashed (w :: x_crashed x) x
              end
          | Err _ => x
          | Panic w => xset_crashed (w :: x_crashed x) x
          end
      end
  end.
Fixpoint yrunf (x : bnet) (ys : list yevent) : bnet :=
  match ys with [] => x | y :: ys' => yrunf (ydo x y) ys' end.
Lemma ydo_sound x y : ystep sers x y (ydo x y).
Proof.
  destruct y as [e|o c t]; cbn [ydo]; [constructor; apply bytes_do_sound|].
  destruct (x_clients x !! c) as [cl|] eqn:E; [|by constructor].
  destruct (deserialize_as (sers c) sh_id sh_id t) as [m|e|w] eqn:Ed.
  - destruct (answers o c m (x_broker x) (x_dealer x)) as [[b d] outs|w] eqn:Ea.
    + destruct (send_out sers outs _ _) as [cs un] eqn:Eo. eapply ys_bytes; [by eexists|done|done|by apply send_out_sound].
    + by eapply ys_crash; [eexists|..].
  - by eapply ys_unread.
  - by eapply ys_panic; [eexists|].
Qed.
Lemma yrunf_sound x ys : yrun sers x ys (yrunf x ys).
Proof. revert x. induction ys as [|y ys IH]; intros x; cbn; econstructor; [apply ydo_sound|apply IH]. Qed.

Definition readf (y : yevent) : list hevent :=
  match y with
  | YNet e => [HNet e]
  | YBytes o c t => match deserialize_as (sers c) sh_id sh_id t with Ok m => [HForge o c m] | _ => [] end
  end.
Lemma reading_one ys hs : reading sers ys hs -> hs = flat_map readf ys.
Proof.
  induction 1 as [|e ys hs H IH|o c t sh sh' m ys hs Hm H IH|o c t ys hs Hn H IH]; cbn; [done|by rewrite IH|..].
  - rewrite (read_any _ _ _ _ _ sh_id sh_id Hm), IH. done.
  - destruct (deserialize_as (sers c) sh_id sh_id t) as [m| |] eqn:E; [by destruct (Hn sh_id sh_id m)|..]; by rewrite IH.
Qed.
Definition portableb_message (m : message) : bool := portable_eventb (NSend 0 m).
Definition fair_bytesb (y : yevent) : bool :=
  match y with
  | YNet _ => true
  | YBytes _ c t => match deserialize_as (sers c) sh_id sh_id t with Ok m => portableb_message m | _ => true end
  end.
Definition nets (ys : list yevent) : list nevent := flat_map (fun y => match y with YNet e => [e] | _ => [] end) ys.
Lemma fair_net_sound ys : Forall ordinary_event (nets ys) -> Forall portable_event (nets ys) -> Forall fair_net ys.
Proof.
  induction ys as [|[e|o c t] ys IH]; cbn; intros H1 H2; [constructor|..].
  - apply Forall_cons in H1 as [? ?]. apply Forall_cons in H2 as [? ?]. constructor; [done|by apply IH].
  - constructor; [exact Logic.I|by apply IH].
Qed.
Lemma fair_sound ys : Forall fair_net ys -> forallb fair_bytesb ys = true -> Forall (fair sers) ys.
Proof.
  intros H1 H2. rewrite forallb_forall in H2. apply Forall_forall. intros y Hy. rewrite Forall_forall in H1.
  split; [by apply H1|]. apply elem_of_list_In, H2 in Hy. destruct y as [e|o c t]; [done|]. intros sh sh' m Hm _.
  cbn in Hy. rewrite (read_any _ _ _ _ _ sh_id sh_id Hm) in Hy.
  assert (Forall portable_event [NSend 0 m]) as H by (apply portable_events_sound; cbn; by rewrite andb_true_r).
  by apply Forall_cons in H as [? _].
Qed.
End run.

Definition says_bytes (ser : Z) (m : message) : string := match serialize_as ser sh_id m with Ok t => t | _ => "" end.
Definition forged (c : N) (m : message) : yevent := YBytes e0 c (says_bytes (three c) m).

(** 1 has JSON, 2 MessagePack, 3 CBOR; 3 is hostile.  It writes what is no message,
    answers the call that 1 makes to 2, calls twice with one id, and publishes
    what 1 has subscribed. *)
Definition run_bytes : list yevent :=
  map YNet (njoins [1; 2; 3] ++ say 1 (MSubscribe (Subscribe 1 (Some []) "t")) [1] ++ nreg 2 1 "p" [] ++
            say 1 (MCall (acall 2 "p" [])) [2]) ++
  [YBytes e0 3 (be 3 0x830102); YBytes e0 3 "hello"; forged 3 (MYield (Yield 2 (Some []) (Some [VStr "mine"]) None no_bin));
   forged 3 (MCall (acall 5 "p" [])); forged 3 (MCall (acall 5 "p" []));
   forged 3 (MPublish (Publish 1 (Some []) "t" (Some [VStr "news"]) None))] ++
  map YNet ([NDeliver 1; NDeliver 1] ++ say 2 (MYield (Yield 2 (Some []) None None no_bin)) []).

(** 2 is hostile and publishes a string that is not UTF-8; 3 has subscribed. *)
Definition run_not_read : list yevent :=
  map YNet (njoins [2; 3] ++ say 3 (MSubscribe (Subscribe 1 (Some []) "t")) [3]) ++
  [forged 2 (MPublish (Publish 1 (Some []) "t" (Some [VStr (be 1 255)]) None))] ++ map YNet [NDeliver 3].
(** 3 is hostile and answers 1's call with infinity. *)
Definition run_not_sent : list yevent :=
  map YNet (njoins [1; 3]) ++ [forged 3 (MRegister (Register 1 (Some []) "p"))] ++
  map YNet (say 1 (MCall (acall 1 "p" [])) []) ++
  [forged 3 (MYield (Yield 2 (Some []) (Some [VF64 (FInf false)]) None no_bin))].

Definition the_runs (x : N) : list yevent := if x =? 0 then run_bytes else if x =? 1 then run_not_read else run_not_sent.
Definition the_honest (x : N) : list N := if x =? 0 then [1; 2] else if x =? 1 then [3] else [1].
Lemma runs_fair x : Forall fair_net (the_runs x).
Proof. unfold the_runs. apply fair_net_sound; [apply ordinary_events_sound|apply portable_events_sound]; repeat case_match; by vm_compute. Qed.
Lemma runs_decent (PL : Platform) x : forall hs, reading three (the_runs x) hs -> decently (fun c => c ∈ the_honest x) empty_net hs.
Proof.
  intros hs ->%reading_one. apply decentlyb_sound. unfold the_runs, the_honest. repeat case_match; by vm_compute.
Qed.
Lemma not_sent_open (PL : Platform) : exists cl, x_clients (yrunf three empty_bnet (the_runs 2)) !! 1 = Some cl
  /\ 1 ∈ cs_calls (bc_session cl) /\ bc_down cl = [].
Proof.
  assert (match x_clients (yrunf three empty_bnet (the_runs 2)) !! 1 with
          | Some cl => bool_decide (1 ∈ cs_calls (bc_session cl)) && match bc_down cl with [] => true | _ => false end
          | None => false end = true) as H by (by vm_compute).
  destruct (_ !! 1) as [cl|]; [|done]. exists cl. split; [done|]. apply andb_true_iff in H as [H1%bool_decide_eq_true H2].
  split; [done|]. by destruct (bc_down cl).
Qed.
