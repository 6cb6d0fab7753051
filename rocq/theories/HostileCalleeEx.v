(** A lost call and a served one, for the examples. *)
From Verif Require Import Prelude Value Msg IdGen Types PathMatch Broker Dealer Session Network.
From Verif Require Import BrokerSpec DealerSpec DealerKind NetworkSpec Hostile DealerEx NetworkEx HostileEx.

Local Open Scope string_scope.
Local Open Scope N_scope.

Definition shared (r : N) : message := MRegister (Register r (Some [opt "invoke" "first"]) "p").
(** 3 registers "p" twice and 4 once, to be shared; 3 leaves; 2 calls "p". *)
Definition run_lost : list hevent :=
  (map HNet (njoins [2; 3; 4]) ++ [hostile 3 (shared 1); hostile 3 (shared 2); hostile 4 (shared 1)] ++
   map HNet [NLeave e0 3; NDeliver 4; NSend 2 (MCall (acall 1 "p" [])); NRoute e0 2])%list.
(** 1 serves "p" and has read the call of 2; 3 answers an invocation there is not. *)
Definition run_asked : list hevent :=
  (map HNet (njoins [1; 2; 3] ++ nreg 1 1 "p" [] ++ ncall 2 1 "p" [] 1) ++ [hostile 3 (MYield (ayield 99 []))])%list.
Definition its_answer : message := MYield (ayield 2 []).
Definition run_served : list hevent := (run_asked ++ HNet (NSend 1 its_answer) :: map HNet [NRoute e0 1; NDeliver 2])%list.

Definition isb (n : net) (x : N) : bool := match n_clients n !! x with Some _ => true | None => false end.
Lemma isb_sound n x : isb n x = true -> is_Some (n_clients n !! x).
Proof. unfold isb. destruct (n_clients n !! x); [by eexists|done]. Qed.
Definition invocationb (x : dop * dout) : bool := match snd x with DMsg (MInvocation _) _ => true | _ => false end.
Lemma no_invocation tr : forallb (fun x => negb (invocationb x)) tr = true -> forall op v k, (op, DMsg (MInvocation v) k) ∉ tr.
Proof. rewrite forallb_forall. intros H op v k K%elem_of_list_In%H. done. Qed.
Definition nobody_shares (tr : dtrace) : bool :=
  forallb (fun x => match x with
                    | (DReceive _ (MRegister m), _) => (String.eqb (invoke_policy m) "" || String.eqb (invoke_policy m) "single")%bool
                    | _ => true
                    end) tr.
Lemma nobody_shares_sound tr : nobody_shares tr = true -> forall p, never_shared tr p.
Proof.
  unfold nobody_shares. rewrite forallb_forall. intros H p s m a to K%elem_of_list_In%H _.
  apply orb_true_iff in K as [K|K]; apply String.eqb_eq in K; auto.
Qed.
