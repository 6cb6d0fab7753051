(** Runs of small networks, for the examples. *)
From Verif Require Import Prelude Value Msg IdGen Types PathMatch Broker Dealer Session Network.
From Verif Require Import BrokerSpec DealerSpec NetworkSpec DealerEx.

Local Open Scope string_scope.
Local Open Scope N_scope.

(** [c] sends [m] and the router reads it; the clients [l] read one message
    each. *)
Definition say (c : N) (m : message) (l : list N) : list nevent := (NSend c m :: NRoute e0 c :: map NDeliver l)%list.
Definition nreg (c r : N) (p : string) (o : list (string * value)) : list nevent :=
  say c (MRegister (Register r (Some o) p)) [c].
Definition ncall (c r : N) (p : string) (o : list (string * value)) (callee : N) : list nevent :=
  say c (MCall (acall r p o)) [callee].
Definition nyield (c i : N) (o : list (string * value)) (caller : N) : list nevent :=
  say c (MYield (ayield i o)) [caller].
Definition nunreg (c r g : N) : list nevent := say c (MUnregister (Unregister r g)) [c].
Definition nsub (c r : N) (t : string) : list nevent := say c (MSubscribe (Subscribe r None t)) [c].
Definition npub (c r : N) (t : string) (o : list (string * value)) (l : list N) : list nevent :=
  say c (MPublish (Publish r (Some o) t (Some [VStr "news"]) None)) l.
Definition njoins (l : list N) : list nevent := map (fun c => NJoin (peer c)) l.

(** 1 serves a procedure and 2 calls it with progressive results, twice, the
    second call also with the progress flag; 1 publishes to 2; 1 gives the
    procedure up; 2 calls in vain. *)
Definition run_ok : list nevent :=
  (njoins [1; 2] ++ nreg 1 1 "p" [] ++ nsub 2 1 "t" ++
   ncall 2 2 "p" [flag "receive_progress"] 1 ++ nyield 1 2 [flag "progress"] 2 ++ nyield 1 2 [] 2 ++
   ncall 2 3 "p" [flag "progress"] 1 ++ nyield 1 3 [] 2 ++
   npub 1 2 "t" [flag "acknowledge"] [1; 2] ++ nunreg 1 3 1 ++ ncall 2 4 "p" [] 2)%list.
(** Stopped while 2 waits for three calls: one answered and not read, one with
    the callee, one not read by the router. *)
Definition run_mid : list nevent :=
  (njoins [1; 2] ++ nreg 1 1 "p" [] ++ ncall 2 2 "p" [] 1 ++ nyield 1 2 [] 2 ++
   ncall 2 3 "p" [] 1 ++ ncall 2 4 "p" [] 1 ++
   [NSend 1 (MYield (ayield 3 [])); NRoute e0 1; NSend 2 (MCall (acall 5 "p" []))])%list.

(** One run for every rule broken. *)
Definition run_bad (x : rule) : list nevent :=
  match x with
  | FreshSession =>
      (njoins [1; 2] ++ nreg 1 1 "p" [] ++ ncall 2 1 "p" [] 1 ++ NLeave e0 2 :: njoins [2] ++ nyield 1 2 [] 2)%list
  | FreshRequest =>
      (njoins [1; 2] ++ nreg 1 1 "p" [] ++ ncall 2 1 "p" [] 1 ++ ncall 2 1 "p" [] 1 ++ nyield 1 2 [] 2 ++ nyield 1 3 [] 2)%list
  | NotShared =>
      (njoins [1; 2] ++ nreg 1 1 "p" [opt "invoke" "roundrobin"] ++ nreg 2 1 "p" [opt "invoke" "roundrobin"] ++
       nunreg 1 2 1 ++ ncall 2 2 "p" [] 1)%list
  | GiveUpOwn => (njoins [1; 2] ++ nreg 1 1 "p" [] ++ nreg 2 1 "q" [] ++ nunreg 1 2 2)%list
  | GiveUpOnce =>
      (njoins [1] ++ nreg 1 1 "p" [] ++ nreg 1 2 "q" [] ++
       [NSend 1 (MUnregister (Unregister 3 1)); NSend 1 (MUnregister (Unregister 4 1)); NRoute e0 1; NRoute e0 1])%list
  end.

(** Deciding the rules of NetworkSpec.v. *)
Definition drops (x : option rule) (y : rule) : bool :=
  match x, y with
  | Some FreshSession, FreshSession | Some FreshRequest, FreshRequest | Some NotShared, NotShared
  | Some GiveUpOwn, GiveUpOwn | Some GiveUpOnce, GiveUpOnce => true
  | _, _ => false
  end.
Definition carefulb (x : option rule) (n : net) (e : nevent) : bool :=
  match e with
  | NJoin d => drops x FreshSession || bool_decide (se_id d ∉ n_ever n)
  | NSend c m =>
      match n_clients n !! c with
      | None => true
      | Some cl =>
          (drops x FreshRequest || match request_of m with Some r => bool_decide (r ∉ cl_used cl) | None => true end)
          && match m with
             | MRegister m => drops x NotShared || String.eqb (invoke_policy m) "" || String.eqb (invoke_policy m) "single"
             | MUnregister m =>
                 (drops x GiveUpOwn || bool_decide (ur_registration m ∈ cs_registrations (cl_session cl)))
                 && (drops x GiveUpOnce
                     || bool_decide (ur_registration m ∉ map snd (map_to_list (cs_unregisters (cl_session cl)))))
             | _ => true
             end
      end
  | _ => true
  end.
Fixpoint carefullyb (x : option rule) (n : net) (es : list nevent) : bool :=
  match es with [] => true | e :: es' => carefulb x n e && carefullyb x (nstep n e) es' end.

Lemma not_asked (m : gmap N N) g : g ∉ map snd (map_to_list m) -> forall r, m !! r <> Some g.
Proof.
  intros H r E. apply H. apply elem_of_list_fmap. exists (r, g). split; [done|]. by apply elem_of_map_to_list.
Qed.
Lemma carefulb_sound n e : carefulb None n e = true -> careful n e.
Proof.
  destruct e as [d|o c|c m|o c|c|p c]; cbn [carefulb careful drops orb]; try done.
  - apply bool_decide_eq_true.
  - intros H cl Hc. rewrite Hc in H. apply andb_true_iff in H as [H1 H2]. split.
    + intros r E. rewrite E in H1. by apply bool_decide_eq_true in H1.
    + destruct m; try done.
      * by apply orb_true_iff in H2 as [H2%String.eqb_eq|H2%String.eqb_eq]; [left|right].
      * apply andb_true_iff in H2 as [H2%bool_decide_eq_true H3%bool_decide_eq_true]. split; [done|]. by apply not_asked.
Qed.
Lemma drops_eq x y : drops (Some x) y = true -> x = y.
Proof. by destruct x, y. Qed.
Lemma carefulb_but x n e : carefulb (Some x) n e = true -> careful_but x n e.
Proof.
  destruct e as [d|o c|c m|o c|c|p c]; cbn [carefulb careful_but]; try done.
  - intros [H|H]%orb_true_iff; [left; by apply drops_eq|right]. by apply bool_decide_eq_true in H.
  - intros H cl Hc. rewrite Hc in H. apply andb_true_iff in H as [H1 H2]. split.
    + apply orb_true_iff in H1 as [H1|H1]; [left; by apply drops_eq|right].
      intros r E. rewrite E in H1. by apply bool_decide_eq_true in H1.
    + destruct m; try done.
      * apply orb_true_iff in H2 as [[H2|H2%String.eqb_eq]%orb_true_iff|H2%String.eqb_eq]; [left; by apply drops_eq|auto..].
      * apply andb_true_iff in H2 as [H2 H3]. split.
        -- apply orb_true_iff in H2 as [H2|H2%bool_decide_eq_true]; [left; by apply drops_eq|by right].
        -- apply orb_true_iff in H3 as [H3|H3%bool_decide_eq_true]; [left; by apply drops_eq|right]. by apply not_asked.
Qed.
Lemma carefullyb_sound es : forall n, carefullyb None n es = true -> carefully n es.
Proof.
  induction es as [|e es IH]; intros n; [done|]. cbn [carefullyb carefully]. intros [H1 H2]%andb_true_iff.
  split; [by apply carefulb_sound|by apply IH].
Qed.
Lemma carefullyb_but x es : forall n, carefullyb (Some x) n es = true -> carefully_but x n es.
Proof.
  induction es as [|e es IH]; intros n; [done|]. cbn [carefullyb carefully_but]. intros [H1 H2]%andb_true_iff.
  split; [by apply carefulb_but|by apply IH].
Qed.
Definition trouble (n : net) : bool :=
  match n_rejected n, n_crashed n with [], [] => false | _, _ => true end.
Lemma trouble_sound n : trouble n = true -> n_rejected n <> [] \/ n_crashed n <> [].
Proof. unfold trouble. destruct (n_rejected n); [|by left]. destruct (n_crashed n); [done|by right]. Qed.
Lemma every_rule_needed x : exists es, carefully_but x empty_net es
  /\ (n_rejected (nrun empty_net es) <> [] \/ n_crashed (nrun empty_net es) <> []).
Proof.
  exists (run_bad x). split.
  - apply carefullyb_but. by destruct x; vm_compute.
  - apply trouble_sound. by destruct x; vm_compute.
Qed.

(** Looking at a client of a concrete network. *)
Lemma client_is n c (P : client -> bool) :
  match n_clients n !! c with Some cl => P cl | None => false end = true ->
  exists cl, n_clients n !! c = Some cl /\ P cl = true.
Proof. destruct (n_clients n !! c) as [cl|]; [eauto|done]. Qed.
