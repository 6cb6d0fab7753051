(** When nothing a client session has to do with is open. *)
From Verif Require Import Prelude Value Msg Session SessionSpec.

(** A SUBSCRIBE, UNREGISTER, UNSUBSCRIBE was sent and not answered since. *)
Definition subscribe_open (tr : list sevent) (r : N) : Prop :=
  since (fun e => exists m, e = Sent (MSubscribe m) /\ su_request m = r)
        (fun _ e => (exists m, e = Got (MSubscribed m) /\ sd_request m = r) \/ got_error 32 r e) tr.
Definition unregister_open (tr : list sevent) (r : N) : Prop :=
  since (fun e => exists m, e = Sent (MUnregister m) /\ ur_request m = r)
        (fun _ e => (exists m, e = Got (MUnregistered m) /\ un_request m = r) \/ got_error 66 r e) tr.
Definition unsubscribe_open (tr : list sevent) (r : N) : Prop :=
  since (fun e => exists m, e = Sent (MUnsubscribe m) /\ us_request m = r)
        (fun _ e => (exists m, e = Got (MUnsubscribed m) /\ ud_request m = r) \/ got_error 34 r e) tr.

(** Every request and every invocation is answered, every registration and
    subscription given up. *)
Record nothing_open (tr : list sevent) : Prop := NothingOpen {
  no_call : forall r, ~ call_open tr r;
  no_register : forall r, ~ register_open tr r;
  no_publish : forall r, ~ publish_open tr r;
  no_invocation : forall i, ~ invocation_open tr i;
  no_registration : forall g, ~ registered_at tr g;
  no_subscription : forall g, ~ subscribed_at tr g;
  no_subscribe : forall r, ~ subscribe_open tr r;
  no_unregister : forall r, ~ unregister_open tr r;
  no_unsubscribe : forall r, ~ unsubscribe_open tr r }.

(** The requests SUBSCRIBE, UNREGISTER, UNSUBSCRIBE. *)
Definition kept_request (m : message) : Prop :=
  match m with MSubscribe _ | MUnregister _ | MUnsubscribe _ => True | _ => False end.
