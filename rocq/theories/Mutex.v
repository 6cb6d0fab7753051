(** Goroutines calling the methods of an object that holds one sync.Mutex for
    the whole of each method: `x.Lock(); defer x.Unlock()` is the first
    statement of every exported method of Broker (broker.go:41-42, 55-56,
    89-90, 97-98, 103-104, 179-180), Dealer (dealer.go:90-91, 104-105, 148-149,
    156-157, 162-163) and of NextID (idgen.go:31-32).

    Between Lock and Unlock a method is a sequence of atomic accesses to the
    shared memory; the scheduler may run any goroutine between any two of them.
    Not modelled: the Go memory model's weaker behaviours (the mutex provides
    the needed happens-before edges), panics inside a method, fairness. *)
From Verif Require Import Prelude IdGen.

Section mutex.
Context {S O R : Type}.

(** A method body after Lock: it returns, or it performs one atomic access
    (read and/or write of the shared state) and continues. *)
Inductive prog : Type :=
| PRet (r : R)
| PAct (f : S -> S * prog).

(** Running a body alone, without interference. *)
Fixpoint run_prog (p : prog) (s : S) : S * R :=
  match p with
  | PRet r => (s, r)
  | PAct f => match f s with (s', p') => run_prog p' s' end
  end.

(** The body of each operation. *)
Context (body : O -> prog).

(** What a goroutine is doing: between calls, or inside a call. *)
Inductive tstate : Type := TIdle | TRun (o : O) (p : prog).

Record thread : Type := Thread { th_todo : list O; th_state : tstate }.

(** The whole system.  [c_order] and [c_results] are history variables: the
    calls in the order in which they acquired the lock, and the values
    returned, in the order in which the calls finished. *)
Record config : Type := Config {
  c_lock : option nat;
  c_shared : S;
  c_threads : nat -> thread;
  c_order : list (nat * O);
  c_results : list (nat * O * R) }.

Definition upd (f : nat -> thread) (t : nat) (x : thread) : nat -> thread :=
  fun t' => if (t' =? t)%nat then x else f t'.

(** One step of goroutine [t]. Lock blocks while the mutex is held; accesses
    and Unlock are not guarded by anything. *)
Inductive cstep : config -> config -> Prop :=
| step_lock t o todo s th ord rs :
    th t = Thread (o :: todo) TIdle ->
    cstep (Config None s th ord rs)
          (Config (Some t) s (upd th t (Thread todo (TRun o (body o)))) (ord ++ [(t, o)]) rs)
| step_access t o f todo l s s' p' th ord rs :
    th t = Thread todo (TRun o (PAct f)) ->
    f s = (s', p') ->
    cstep (Config l s th ord rs)
          (Config l s' (upd th t (Thread todo (TRun o p'))) ord rs)
| step_unlock t o r todo l s th ord rs :
    th t = Thread todo (TRun o (PRet r)) ->
    cstep (Config l s th ord rs)
          (Config None s (upd th t (Thread todo TIdle)) ord (rs ++ [(t, o, r)])).

Inductive creach (c0 : config) : config -> Prop :=
| creach_refl : creach c0 c0
| creach_step c c' : creach c0 c -> cstep c c' -> creach c0 c'.

(** The start: nobody holds the lock, goroutine [t] is going to call [work t]. *)
Definition cinit (s : S) (work : nat -> list O) : config :=
  Config None s (fun t => Thread (work t) TIdle) [] [].

End mutex.
Arguments prog : clear implicits.
Arguments thread : clear implicits.
Arguments config : clear implicits.
Arguments tstate : clear implicits.

(** The body of NextID, idgen.go:34-39, with every access to s.id separate:
    the comparison, the reset, the read and the write of s.id++, and the read
    of the return statement. *)
Definition next_id_body : prog N N :=
  let incr : prog N N :=
    PAct (fun s => (s, PAct (fun _ => (s + 1, PAct (fun s' => (s', PRet s')))))) in
  PAct (fun s => (s, if s =? max_id then PAct (fun _ => (0, incr)) else incr)).
