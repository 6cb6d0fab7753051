(** What it means for goroutines sharing a session that every method takes
    effect at one instant: histories of calls, and linearizations of them. *)
From Verif Require Import Prelude Value Msg Mutex Session SessionSpec.

(** Goroutine [t] calls a method; the call returns; and, in a linearization
    only, the instant at which the call takes effect. *)
Inductive label : Type :=
| LBegin (t : nat) (op : sop)
| LPoint (t : nat) (op : sop) (r : res sout)
| LEnd (t : nat) (op : sop) (r : res sout).

(** The executions of [gstep] together with their history, latest label
    first (the log of Session.v with the goroutines' numbers). *)
Inductive lrun (work : list (list sop)) : list label -> gconfig -> Prop :=
| lrun_start : lrun work [] (ginit work)
| lrun_begin ls t op todo s th log :
    lrun work ls (GConfig s th log) -> th !! t = Some (GoThread (op :: todo) None) ->
    lrun work (LBegin t op :: ls)
         (GConfig s (<[t := GoThread todo (Some (op, sop_prog op))]> th) (GBegin op :: log))
| lrun_access ls t op f todo s s' p' th log :
    lrun work ls (GConfig s th log) -> th !! t = Some (GoThread todo (Some (op, PAct f))) ->
    f s = (s', p') ->
    lrun work ls (GConfig s' (<[t := GoThread todo (Some (op, p'))]> th) log)
| lrun_end ls t op r todo s th log :
    lrun work ls (GConfig s th log) -> th !! t = Some (GoThread todo (Some (op, PRet r))) ->
    lrun work (LEnd t op r :: ls)
         (GConfig s (<[t := GoThread todo None]> th) (GEnd op r :: log)).

(** The call of goroutine [t] that has begun and not returned. *)
Fixpoint underway (t : nat) (ls : list label) : option sop :=
  match ls with
  | [] => None
  | LBegin t' op :: ls' => if Nat.eqb t t' then Some op else underway t ls'
  | LEnd t' _ _ :: ls' => if Nat.eqb t t' then None else underway t ls'
  | LPoint _ _ _ :: ls' => underway t ls'
  end.

(** Receive and ReceiveMessage. *)
Definition receiving (op : sop) : Prop := match op with SSend _ _ => False | _ => True end.
(** [op] sends UNSUBSCRIBE number [r], or receives the answer to it. *)
Definition about (op : sop) (r : N) : Prop :=
  match op with
  | SSend _ (MUnsubscribe u) => us_request u = r
  | SReceive (Ok (MUnsubscribed u)) | SReceiveMessage (MUnsubscribed u) => ud_request u = r
  | SReceive (Ok (MError e)) | SReceiveMessage (MError e) => er_type e = 34 /\ er_request e = r
  | _ => False
  end.
(** Two calls that must not be underway together: two receptions; and two calls
    that concern the same UNSUBSCRIBE request. *)
Definition one_receiver (ls : list label) : Prop :=
  forall t t' op op', underway t ls = Some op -> underway t' ls = Some op' ->
    receiving op -> receiving op' -> t = t'.
Definition one_about (ls : list label) : Prop :=
  forall t t' op op' r, underway t ls = Some op -> underway t' ls = Some op' ->
    about op r -> about op' r -> t = t'.

(** [P] held of the history at every time. *)
Fixpoint throughout (P : list label -> Prop) (ls : list label) : Prop :=
  match ls with [] => P [] | _ :: ls' => P ls /\ throughout P ls' end.
Definition orderly (ls : list label) : Prop :=
  throughout one_receiver ls /\ throughout one_about ls.

(** Where goroutine [t] is; [None] if its labels are not in the order
    begin, instant, end, for one call and one result, over and over. *)
Inductive stage : Type := Idle | Begun (op : sop) | Marked (op : sop) (r : res sout).
Inductive follows_on : stage -> label -> stage -> Prop :=
| fo_begin t op : follows_on Idle (LBegin t op) (Begun op)
| fo_point t op r : follows_on (Begun op) (LPoint t op r) (Marked op r)
| fo_end t op r : follows_on (Marked op r) (LEnd t op r) Idle.
Definition who (l : label) : nat :=
  match l with LBegin t _ | LPoint t _ _ | LEnd t _ _ => t end.
Inductive at_stage (t : nat) : list label -> stage -> Prop :=
| at_start : at_stage t [] Idle
| at_mine ms l st st' : at_stage t ms st -> who l = t -> follows_on st l st' -> at_stage t (l :: ms) st'
| at_other ms l st : at_stage t ms st -> who l <> t -> at_stage t (l :: ms) st.

Definition is_point (l : label) : bool := match l with LPoint _ _ _ => true | _ => false end.
(** The calls in the order they take effect, with their results, latest first. *)
Fixpoint points (ms : list label) : list (sop * res sout) :=
  match ms with
  | [] => []
  | LPoint _ op r :: ms' => (op, r) :: points ms'
  | _ :: ms' => points ms'
  end.

(** [ms] is the history [ls] with an instant put between the begin and the end
    of every call that returned (and possibly of calls underway), such that
    making the calls one after the other in that order, on a new session,
    gives exactly their results; it leaves the session [s]. *)
Definition linearizes (ls ms : list label) (s : session) : Prop :=
  List.filter (fun l => negb (is_point l)) ms = ls
  /\ (forall t, exists st, at_stage t ms st)
  /\ srun new_session (map fst (rev (points ms))) = (s, map snd (rev (points ms))).

(** [op] receives a RESULT for CALL [r] that is not progressive. *)
Definition is_final_result (r : N) (op : sop) : bool :=
  match received_message op with
  | Some (MResult m) =>
      (re_request m =? r) && match mget (re_details m) "progress" with VBool true => false | _ => true end
  | _ => false
  end.
