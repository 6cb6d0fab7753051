(** The network of NetworkBytes.v with clients that do not use a Session: the
    bytes a transport hands to the router may be any bytes.  The router
    deserializes them with the serializer of that client (serializers/json.go:17,
    cbor.go:27, msgpack.go:17); what it cannot deserialize it drops, and if
    Deserialize panics (C113, C120) the router does. *)
From Verif Require Import Prelude Value Msg IdGen Types PathMatch Broker Dealer Session Network Connection.
From Verif Require Import MsgSpec Portable NetworkSpec NetworkWire NetworkBytes Hostile.

Local Open Scope string_scope.
Local Open Scope list_scope.
Local Open Scope N_scope.

Inductive yevent : Type :=
| YNet (e : nevent)
| YBytes (o : oracle) (c : N) (t : string).

Section hostile.
Context {PL : Platform}.
Context (sers : N -> Z).

Inductive ystep (x : bnet) : yevent -> bnet -> Prop :=
| ys_net e x' : xstep sers x e x' -> ystep x (YNet e) x'
| ys_nobody o c t : x_clients x !! c = None -> ystep x (YBytes o c t) x
| ys_unread o c t sh sh' err : deserialize_as (sers c) sh sh' t = Err err -> ystep x (YBytes o c t) x
| ys_panic o c t sh sh' w : is_Some (x_clients x !! c) -> deserialize_as (sers c) sh sh' t = Panic w ->
    ystep x (YBytes o c t) (xset_crashed (w :: x_crashed x) x)
| ys_bytes o c t sh sh' m b d outs cs un : is_Some (x_clients x !! c) -> deserialize_as (sers c) sh sh' t = Ok m ->
    answers o c m (x_broker x) (x_dealer x) = Ret (b, d) outs -> sends sers outs (x_clients x) (x_unsent x) cs un ->
    ystep x (YBytes o c t) (BNet cs b d (x_read x) (x_rejected x) (x_unread x) un (x_crashed x))
| ys_crash o c t sh sh' m w : is_Some (x_clients x !! c) -> deserialize_as (sers c) sh sh' t = Ok m ->
    answers o c m (x_broker x) (x_dealer x) = Crash w ->
    ystep x (YBytes o c t) (xset_crashed (w :: x_crashed x) x).
Inductive yrun (x : bnet) : list yevent -> bnet -> Prop :=
| yr_nil : yrun x [] x
| yr_cons e es x1 x2 : ystep x e x1 -> yrun x1 es x2 -> yrun x (e :: es) x2.

(** ** Specification *)

(** The same run message by message: bytes count as the message the router
    reads, or as nothing. *)
Inductive reading : list yevent -> list hevent -> Prop :=
| rd_nil : reading [] []
| rd_net e ys hs : reading ys hs -> reading (YNet e :: ys) (HNet e :: hs)
| rd_message o c t sh sh' m ys hs : deserialize_as (sers c) sh sh' t = Ok m -> reading ys hs ->
    reading (YBytes o c t :: ys) (HForge o c m :: hs)
| rd_nothing o c t ys hs : (forall sh sh' m, deserialize_as (sers c) sh sh' t <> Ok m) -> reading ys hs ->
    reading (YBytes o c t :: ys) hs.

(** What the router does something with. *)
Definition routed (m : message) : Prop :=
  match m with
  | MPublish _ | MSubscribe _ | MUnsubscribe _ | MCall _ | MYield _ | MRegister _ | MUnregister _ | MError _ => True
  | _ => False
  end.
(** The messages sent through a Session are as in C128, and if bytes are a
    message the router does something with, that is portable. *)
Definition fair_net (y : yevent) : Prop :=
  match y with YNet e => ordinary_event e /\ portable_event e | YBytes _ _ _ => True end.
Definition fair (y : yevent) : Prop :=
  fair_net y
  /\ match y with
     | YNet _ => True
     | YBytes _ c t => forall sh sh' m, deserialize_as (sers c) sh sh' t = Ok m -> routed m -> portable_message m
     end.
End hostile.
