(** Deciding the notions of HostileRestSpec.v, and a schedule, for the examples. *)
From Verif Require Import Prelude Value Msg IdGen Types PathMatch Broker Dealer Session Network.
From Verif Require Import BrokerSpec DealerSpec NetworkSpec Hostile DealerEx NetworkEx HostileEx HostileOrderEx HostileRestSpec.

Local Open Scope N_scope.

Definition movesb (n : net) (e : nevent) : bool :=
  match e with
  | NRoute _ x => match n_clients n !! x with Some (Client _ (_ :: _) _ _) => true | _ => false end
  | NDeliver x => match n_clients n !! x with Some (Client _ _ (_ :: _) _) => true | _ => false end
  | _ => false
  end.
Fixpoint movingb (n : net) (es : list nevent) : bool :=
  match es with [] => true | e :: es' => movesb n e && movingb (nstep n e) es' end.
Lemma movingb_sound es : forall n, movingb n es = true -> moving n es.
Proof.
  induction es as [|e es IH]; intros n; [done|]. cbn. rewrite andb_true_iff. intros [H1 H2]. split; [|by apply IH].
  destruct e as [d|o x|x m|o x|x|p q]; try done; cbn in *; destruct (n_clients n !! x) as [[s up down u]|]; try done.
  - destruct up; [done|]. by eexists.
  - destruct down; [done|]. by eexists.
Qed.
Definition restb (n : net) : bool :=
  forallb (fun p => match snd p with Client _ [] [] _ => true | _ => false end) (map_to_list (n_clients n)).
Lemma restb_sound n : restb n = true -> at_rest n.
Proof.
  unfold restb. rewrite forallb_forall. intros H x cl Hx.
  specialize (H (x, cl) ltac:(by apply elem_of_list_In, elem_of_map_to_list)). destruct cl as [s [|] [|] u]; done.
Qed.
(** After [run_order]: 2 reads one message, the router the last one of 1, then
    2 reads the rest. *)
Definition drain : list nevent := [NDeliver 2; NRoute e0 1; NDeliver 2; NDeliver 2; NDeliver 2; NDeliver 2].
