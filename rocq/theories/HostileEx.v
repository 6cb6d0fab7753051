(** Runs of networks with hostile clients, for the examples. *)
From Verif Require Import Prelude Value Msg IdGen Types PathMatch Broker Dealer Session Network.
From Verif Require Import BrokerSpec DealerSpec NetworkSpec DealerEx NetworkEx Hostile.

Local Open Scope string_scope.
Local Open Scope N_scope.

Definition decentb (hs : list N) (n : net) (e : hevent) : bool :=
  match e with
  | HNet (NSend c m) => negb (bool_decide (c ∈ hs)) || carefulb None n (NSend c m)
  | HNet e => carefulb None n e
  | HForge _ c _ => negb (bool_decide (c ∈ hs))
  end.
Fixpoint decentlyb (hs : list N) (n : net) (es : list hevent) : bool :=
  match es with [] => true | e :: es' => decentb hs n e && decentlyb hs (hstep n e) es' end.
Lemma decentb_sound hs n e : decentb hs n e = true -> decent (fun c => c ∈ hs) n e.
Proof.
  destruct e as [e|o c m]; cbn [decentb decent].
  - destruct e; try apply carefulb_sound. intros H Hc. apply carefulb_sound.
    by rewrite bool_decide_eq_true_2 in H.
  - intros H Hc. by rewrite bool_decide_eq_true_2 in H.
Qed.
Lemma decentlyb_sound hs es : forall n, decentlyb hs n es = true -> decently (fun c => c ∈ hs) n es.
Proof.
  induction es as [|e es IH]; intros n; [done|]. cbn [decentlyb decently]. intros [H1 H2]%andb_true_iff.
  split; [by apply decentb_sound|by apply IH].
Qed.

(** 1 and 2 are honest, 3 and 4 are not.  3 has the router read its messages
    without its session knowing: it tries to share and to give up 1's
    procedure, answers the call 2 makes to 1, uses a request id twice, and
    yields to an invocation nobody made. *)
Definition hostile (c : N) (m : message) : hevent := HForge e0 c m.
Definition run_hostile : list hevent :=
  (map HNet (njoins [1; 2; 3; 4] ++ nreg 1 1 "p" [] ++ nsub 2 1 "t") ++
   [hostile 3 (MSubscribe (Subscribe 1 None "t")); HNet (NDeliver 3);
    hostile 3 (MRegister (Register 1 (Some [opt "invoke" "roundrobin"]) "p"));
    hostile 3 (MUnregister (Unregister 1 1))] ++
   map HNet (ncall 2 2 "p" [] 1) ++
   [hostile 3 (MYield (ayield 2 [])); HNet (NDeliver 2)] ++
   map HNet [NSend 1 (MYield (ayield 2 [])); NRoute e0 1] ++
   [hostile 3 (MCall (acall 5 "p" [])); hostile 3 (MCall (acall 5 "p" [])); hostile 3 (MYield (ayield 77 []))] ++
   map HNet [NDeliver 1; NDeliver 1] ++
   map HNet (npub 1 2 "t" [] [2]) ++
   map HNet [NSend 2 (MCall (acall 3 "p" [])); NRoute e0 2; NDeliver 1; NSend 2 (MCall (acall 4 "p" []))])%list.

(** 3 and 4 share "p" and give it up; 1 registers it; 3 gives it up once more
    and 4 registers it again; 2 calls it. *)
Definition run_takeover : list hevent :=
  (map HNet (njoins [1; 2; 3; 4]) ++
   [hostile 3 (MRegister (Register 1 (Some [opt "invoke" "roundrobin"]) "p"));
    hostile 4 (MRegister (Register 1 (Some [opt "invoke" "roundrobin"]) "p"));
    hostile 3 (MUnregister (Unregister 2 1)); hostile 4 (MUnregister (Unregister 2 1))] ++
   map HNet (nreg 1 1 "p" []) ++
   [hostile 3 (MUnregister (Unregister 3 1)); hostile 4 (MRegister (Register 3 None "p"));
    HNet (NSend 2 (MCall (acall 1 "p" [])))])%list.

(** 2 subscribes "t"; 3 does, unsubscribes twice, and so for 2; 1 publishes. *)
Definition run_spoil : list hevent :=
  (map HNet (njoins [1; 2; 3] ++ nsub 2 1 "t") ++
   [hostile 3 (MSubscribe (Subscribe 1 None "t")); hostile 3 (MUnsubscribe (Unsubscribe 2 1));
    hostile 3 (MUnsubscribe (Unsubscribe 3 1)); hostile 3 (MUnsubscribe (Unsubscribe 4 2));
    HNet (NSend 1 (MPublish (Publish 1 (Some []) "t" (Some [VStr "news"]) None)))])%list.
