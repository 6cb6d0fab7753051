(** In which order messages go: what a client reads, what it sends, and what
    broker and dealer did, in order. *)
From Verif Require Import Prelude Value Msg IdGen Types PathMatch Broker Dealer Session Network.
From Verif Require Import BrokerSpec DealerSpec NetworkSpec Hostile.

Local Open Scope string_scope.
Local Open Scope N_scope.

(** Which of the two a message comes from, or is for. *)
Definition from_broker (a : message) : bool :=
  match a with MSubscribed _ | MUnsubscribed _ | MPublished _ | MEvent _ => true | _ => false end.
Definition for_broker (m : message) : bool :=
  match m with MPublish _ | MSubscribe _ | MUnsubscribe _ => true | _ => false end.
Definition for_dealer (m : message) : bool :=
  match m with MCall _ | MYield _ | MRegister _ | MUnregister _ | MError _ => true | _ => false end.

(** What one call on the broker gave [c], in this order; what it read from [c]. *)
Definition b_out (c : N) (x : bop * bout) : list message :=
  match snd x with
  | BMsg a to => if to =? c then [a] else []
  | BPubl ev rs ack =>
      match ev with Some e => if bool_decide (c ∈ rs) then [MEvent e] else [] | None => [] end ++
      match ack with Some (a, to) => if to =? c then [a] else [] | None => [] end
  | _ => []
  end%list.
Definition b_in (c : N) (x : bop * bout) : list message :=
  match fst x with
  | BReceive s m => if s =? c then [m] else []
  | BPublish s p => if s =? c then [MPublish p] else []
  | _ => []
  end.
(** The same for the dealer. *)
Definition d_out (c : N) (x : dop * dout) : list message :=
  match snd x with DMsg a to => if to =? c then [a] else [] | _ => [] end.
Definition d_in (c : N) (x : dop * dout) : list message :=
  match fst x with DReceive s m => if s =? c then [m] else [] | _ => [] end.

(** Over a whole history (which has the newest call first). *)
Fixpoint in_turn {A B : Type} (f : A -> list B) (tr : list A) : list B :=
  match tr with [] => [] | x :: tr' => in_turn f tr' ++ f x end%list.

(** What the Session of [c] agrees to send. *)
Definition sends (c : N) (n : net) (e : hevent) : list message :=
  match e with
  | HNet (NSend x m) =>
      if x =? c then
        match n_clients n !! x with
        | Some cl => match sstep (cl_session cl) (SSend (Ok "") m) with (_, Ok _) => [m] | _ => [] end
        | None => []
        end
      else []
  | _ => []
  end.
Fixpoint sent (c : N) (n : net) (es : list hevent) : list message :=
  match es with [] => [] | e :: es' => sends c n e ++ sent c (hstep n e) es' end%list.

(** The publications of [s] that went to [c], each with its event. *)
Definition passes (s c : N) (x : bop * bout) : list (publish * event) :=
  match x with
  | (BPublish s' p, BPubl (Some e) rs _) => if (s' =? s) && bool_decide (c ∈ rs) then [(p, e)] else []
  | _ => []
  end.
Definition events (l : list message) : list event := omap (fun a => match a with MEvent e => Some e | _ => None end) l.
Definition publishes (l : list message) : list publish := omap (fun a => match a with MPublish p => Some p | _ => None end) l.
(** The calls of [s] that were handed to [c], each with its invocation. *)
Definition invokes (s c : N) (x : dop * dout) : list (call * invocation) :=
  match x with
  | (DReceive s' (MCall m), DMsg (MInvocation v) to) => if (s' =? s) && (to =? c) then [(m, v)] else []
  | _ => []
  end.
Definition invocations (l : list message) : list invocation :=
  omap (fun a => match a with MInvocation v => Some v | _ => None end) l.
Definition calls (l : list message) : list call := omap (fun a => match a with MCall m => Some m | _ => None end) l.
(** The YIELDs of [s] that were passed on to [c], each with its RESULT. *)
Definition answers (s c : N) (x : dop * dout) : list (yield * result) :=
  match x with
  | (DReceive s' (MYield m), DMsg (MResult v) to) => if (s' =? s) && (to =? c) then [(m, v)] else []
  | _ => []
  end.
Definition results_in (l : list message) : list result :=
  omap (fun a => match a with MResult v => Some v | _ => None end) l.
Definition yields (l : list message) : list yield := omap (fun a => match a with MYield m => Some m | _ => None end) l.
(** The events for [c], each with its publisher and publication. *)
Definition passed (c : N) (x : bop * bout) : list (N * publish * event) :=
  match x with
  | (BPublish s p, BPubl (Some e) rs _) => if bool_decide (c ∈ rs) then [(s, p, e)] else []
  | _ => []
  end.
Definition of_publisher (s : N) (l : list (N * publish * event)) : list publish :=
  map (fun y => snd (fst y)) (List.filter (fun y => fst (fst y) =? s) l).
