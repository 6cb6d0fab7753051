(** Considerate use of a dealer: less than politeness (DealerSpec.v) asks for.
    A session may give up a registration which others still share. *)
From Verif Require Import Prelude Value Msg IdGen Types PathMatch Dealer DealerSpec.

(** The call takes [g] off the books of [sid]: an UNREGISTER answered while
    nobody else held [g], or removal. *)
Definition strikes (e : dop * dout) (tr : dtrace) (sid g : N) : Prop :=
  match e with
  | (DReceive s (MUnregister m), DMsg (MUnregistered _) _) =>
      s = sid /\ ur_registration m = g /\ forall x q, owns tr x q g -> x = sid
  | (DRemove s, DOk) => s = sid
  | _ => False
  end.
(** [sid] registered [p] under [g], and [g] is still on its books: it holds [g],
    or gave it up while others held it. *)
Fixpoint listed (tr : dtrace) (sid : N) (p : string) (g : N) : Prop :=
  match tr with
  | [] => False
  | e :: tr' => (exists pol, is_registered e sid p pol g)
                \/ (listed tr' sid p g /\ ~ strikes e tr' sid g)
  end.

(** Three rules: nobody joins a shared procedure that is on its books and still
    held by somebody; nobody unregisters what it does not hold, unless its books
    are empty; and only attached sessions call while callers are disclosed. *)
Inductive crule : Type := NoRejoin | OnlyHeld | KnownCaller.
Definition keeps_rule (x : crule) (tr : dtrace) (op : dop) : Prop :=
  match x, op with
  | NoRejoin, DReceive sid (MRegister m) =>
      (exists g y, listed tr sid (rg_procedure m) g /\ owns tr y (rg_procedure m) g) ->
      invoke_policy m = "" \/ invoke_policy m = "single"
  | OnlyHeld, DReceive sid (MUnregister u) =>
      (exists p, owns tr sid p (ur_registration u)) \/ (forall p g, ~ listed tr sid p g)
  | KnownCaller, DReceive sid (MCall _) => disclosing_caller tr = true -> present tr sid
  | _, _ => True
  end.
Definition follows (rule : dtrace -> dop -> Prop) (h : dhist) : Prop :=
  forall h1 o op h2 d outs,
    h = h1 ++ (o, op) :: h2 -> drun new_dealer h1 = Ret d outs -> rule (dtrace_of h1 outs) op.
Definition considerate (tr : dtrace) (op : dop) : Prop := forall x, keeps_rule x tr op.
Definition considerate_history : dhist -> Prop := follows considerate.
(** All rules but one. *)
Definition considerate_but (x : crule) : dhist -> Prop :=
  follows (fun tr op => forall y, y <> x -> keeps_rule y tr op).

(** Procedure [p] was registered only by sessions that did not ask to share it. *)
Definition never_shared (tr : dtrace) (p : string) : Prop :=
  forall s m a to, (DReceive s (MRegister m), DMsg (MRegistered a) to) ∈ tr -> rg_procedure m = p ->
    invoke_policy m = "" \/ invoke_policy m = "single".
