(** What a client session is supposed to accept, written without the session's
    data structures: predicates on traces of the messages it accepted. *)
From Verif Require Import Prelude Value Msg Session.

(** A message SendMessage accepted, or Receive/ReceiveMessage accepted. *)
Inductive sevent : Type := Sent (m : message) | Got (m : message).

(** [op] hands the message [m] to the session for sending (and it serializes);
    or hands it in as received. *)
Definition sends (op : sop) (m : message) : Prop := exists data, op = SSend (Ok data) m.
Definition receives (op : sop) (m : message) : Prop :=
  op = SReceive (Ok m) \/ op = SReceiveMessage m.

Definition event_of (op : sop) (out : res sout) : option sevent :=
  match out with
  | Ok _ => match op with
            | SSend _ m => Some (Sent m)
            | SReceive (Ok m) => Some (Got m)
            | SReceive _ => None
            | SReceiveMessage m => Some (Got m)
            end
  | _ => None
  end.
(** The trace of a history: the messages accepted, latest first. *)
Fixpoint strace_of (h : list sop) (outs : list (res sout)) : list sevent :=
  match h, outs with
  | op :: h', out :: outs' =>
      strace_of h' outs' ++ match event_of op out with Some e => [e] | None => [] end
  | _, _ => []
  end.

(** [starts] happened and [ends] did not since.  [ends] may look at the trace
    before the event. *)
Fixpoint since (starts : sevent -> Prop) (ends : list sevent -> sevent -> Prop)
  (tr : list sevent) : Prop :=
  match tr with
  | [] => False
  | e :: tr' => starts e \/ (~ ends tr' e /\ since starts ends tr')
  end.

Definition yes (m : gomap) (key : string) : Prop := mget m key = VBool true.

(** An ERROR of the given message type for request [r] was received. *)
Definition got_error (type r : N) (e : sevent) : Prop :=
  exists m, e = Got (MError m) /\ er_type m = type /\ er_request m = r.

(** A CALL [r] was sent and neither a final RESULT nor an ERROR came since. *)
Definition call_open (tr : list sevent) (r : N) : Prop :=
  since (fun e => exists c, e = Sent (MCall c) /\ ca_request c = r)
        (fun _ e => (exists m, e = Got (MResult m) /\ re_request m = r /\ ~ yes (re_details m) "progress")
                    \/ got_error 48 r e) tr.
(** A REGISTER [r] was sent and neither REGISTERED nor ERROR came since. *)
Definition register_open (tr : list sevent) (r : N) : Prop :=
  since (fun e => exists m, e = Sent (MRegister m) /\ rg_request m = r)
        (fun _ e => (exists m, e = Got (MRegistered m) /\ rd_request m = r) \/ got_error 64 r e) tr.
(** A PUBLISH [r] asking for acknowledgement was sent and neither PUBLISHED nor
    ERROR came since. *)
Definition publish_open (tr : list sevent) (r : N) : Prop :=
  since (fun e => exists m, e = Sent (MPublish m) /\ pu_request m = r /\ yes (pu_options m) "acknowledge")
        (fun _ e => (exists m, e = Got (MPublished m) /\ pd_request m = r) \/ got_error 16 r e) tr.
(** A SUBSCRIBE [r] was sent and no ERROR came since.  (SUBSCRIBED does not
    close it: see C59.) *)
Definition subscribe_asked (tr : list sevent) (r : N) : Prop :=
  since (fun e => exists m, e = Sent (MSubscribe m) /\ su_request m = r)
        (fun _ e => got_error 32 r e) tr.
(** The last UNREGISTER [r] sent names registration [g], and no ERROR came since. *)
Definition unregister_asked (tr : list sevent) (r g : N) : Prop :=
  since (fun e => exists m, e = Sent (MUnregister m) /\ ur_request m = r /\ ur_registration m = g)
        (fun _ e => (exists m, e = Sent (MUnregister m) /\ ur_request m = r /\ ur_registration m <> g)
                    \/ got_error 66 r e) tr.
(** Likewise for UNSUBSCRIBE. *)
Definition unsubscribe_asked (tr : list sevent) (r g : N) : Prop :=
  since (fun e => exists m, e = Sent (MUnsubscribe m) /\ us_request m = r /\ us_subscription m = g)
        (fun _ e => (exists m, e = Sent (MUnsubscribe m) /\ us_request m = r /\ us_subscription m <> g)
                    \/ got_error 34 r e) tr.
(** A REGISTERED carrying [g] was received, and no UNREGISTERED answering an
    UNREGISTER of [g] since. *)
Definition registered_at (tr : list sevent) (g : N) : Prop :=
  since (fun e => exists m, e = Got (MRegistered m) /\ rd_registration m = g)
        (fun older e => exists m, e = Got (MUnregistered m) /\ unregister_asked older (un_request m) g) tr.
(** A SUBSCRIBED carrying [g] was received, and no UNSUBSCRIBED answering an
    UNSUBSCRIBE of [g] since. *)
Definition subscribed_at (tr : list sevent) (g : N) : Prop :=
  since (fun e => exists m, e = Got (MSubscribed m) /\ sd_subscription m = g)
        (fun older e => exists m, e = Got (MUnsubscribed m) /\ unsubscribe_asked older (ud_request m) g) tr.

(** What the session accepts from the router after the trace [tr]. *)
Definition acceptable (tr : list sevent) (m : message) : Prop :=
  match m with
  | MResult x => call_open tr (re_request x)
  | MRegistered x => register_open tr (rd_request x)
  | MUnregistered x => exists g, unregister_asked tr (un_request x) g /\ registered_at tr g
  | MInvocation x => registered_at tr (in_registration x)
  | MPublished x => publish_open tr (pd_request x)
  | MSubscribed x => subscribe_asked tr (sd_request x)
  | MUnsubscribed x => exists g, unsubscribe_asked tr (ud_request x) g /\ subscribed_at tr g
  | MEvent x => subscribed_at tr (ev_subscription x)
  | MError x =>
      (er_type x = 48 /\ call_open tr (er_request x))
      \/ (er_type x = 64 /\ register_open tr (er_request x))
      \/ (er_type x = 66 /\ exists g, unregister_asked tr (er_request x) g)
      \/ (er_type x = 32 /\ subscribe_asked tr (er_request x))
      \/ (er_type x = 34 /\ exists g, unsubscribe_asked tr (er_request x) g)
      \/ (er_type x = 16 /\ publish_open tr (er_request x))
  | MGoodbye _ | MAbort _ => True
  | _ => False
  end.
(** What it agrees to send. *)
Definition sendable (tr : list sevent) (m : message) : Prop :=
  match m with
  | MCall _ | MYield _ | MRegister _ | MUnregister _ | MPublish _ | MSubscribe _ | MGoodbye _ => True
  | MUnsubscribe x => subscribed_at tr (us_subscription x)
  | MError x => er_type x = 68
  | _ => False
  end.

(** An INVOCATION [i] was received and no final answer to it was sent since. *)
Definition invocation_open (tr : list sevent) (i : N) : Prop :=
  since (fun e => exists m, e = Got (MInvocation m) /\ in_request m = i)
        (fun _ e => (exists m, e = Sent (MYield m) /\ yi_request m = i /\ ~ yes (yi_options m) "progress")
                    \/ (exists m, e = Sent (MError m) /\ er_request m = i)) tr.

(** * Concurrent use *)

(** How many calls satisfying [P] were begun, and how many were accepted. *)
Definition begun (P : sop -> bool) (log : list gevent) : nat :=
  length (List.filter (fun e => match e with GBegin op => P op | _ => false end) log).
Definition accepted (P : sop -> bool) (log : list gevent) : nat :=
  length (List.filter (fun e => match e with GEnd op (Ok _) => P op | _ => false end) log).

Definition sent_message (op : sop) : option message :=
  match op with SSend _ m => Some m | _ => None end.
Definition received_message (op : sop) : option message :=
  match op with SReceive (Ok m) | SReceiveMessage m => Some m | _ => None end.

Definition is_call (r : N) (op : sop) : bool :=
  match sent_message op with Some (MCall m) => ca_request m =? r | _ => false end.
Definition is_register (r : N) (op : sop) : bool :=
  match sent_message op with Some (MRegister m) => rg_request m =? r | _ => false end.
Definition is_publish (r : N) (op : sop) : bool :=
  match sent_message op with Some (MPublish m) => pu_request m =? r | _ => false end.
Definition is_subscribe (r : N) (op : sop) : bool :=
  match sent_message op with Some (MSubscribe m) => su_request m =? r | _ => false end.
Definition is_unregister (r : N) (op : sop) : bool :=
  match sent_message op with Some (MUnregister m) => ur_request m =? r | _ => false end.
Definition is_unsubscribe (r : N) (op : sop) : bool :=
  match sent_message op with Some (MUnsubscribe m) => us_request m =? r | _ => false end.
Definition is_error (type r : N) (op : sop) : bool :=
  match received_message op with
  | Some (MError m) => (er_type m =? type) && (er_request m =? r) | _ => false end.
Definition is_registered (r : N) (op : sop) : bool :=
  match received_message op with Some (MRegistered m) => rd_request m =? r | _ => false end.
Definition is_published (r : N) (op : sop) : bool :=
  match received_message op with Some (MPublished m) => pd_request m =? r | _ => false end.
Definition is_result (r : N) (op : sop) : bool :=
  match received_message op with
  | Some (MResult m) => (re_request m =? r)
  | _ => false end.
Definition any_registered (op : sop) : bool :=
  match received_message op with Some (MRegistered _) => true | _ => false end.
Definition any_unregistered (op : sop) : bool :=
  match received_message op with Some (MUnregistered _) => true | _ => false end.
Definition any_subscribed (op : sop) : bool :=
  match received_message op with Some (MSubscribed _) => true | _ => false end.
Definition any_unsubscribed (op : sop) : bool :=
  match received_message op with Some (MUnsubscribed _) => true | _ => false end.
