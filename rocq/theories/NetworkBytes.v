(** The network of Network.v down to the bytes: every client has one of the
    serializers, [sers c], which the router uses for it, too; SendMessage and
    Receive (session.go:49-126) serialize and deserialize, and so does the
    router.  The map iteration orders [sh] are those of the serializers. *)
From Verif Require Import Prelude Value Msg IdGen Types PathMatch Broker Dealer Session Network Connection.
From Verif Require Import NetworkWire.

Local Open Scope string_scope.
Local Open Scope list_scope.
Local Open Scope N_scope.

Record bclient : Type := BClient { bc_session : session; bc_up : list string; bc_down : list string }.
(** History variables as in NetworkWire.v; [x_unsent], what could not be
    serialized. *)
Record bnet : Type := BNet {
  x_clients : gmap N bclient;
  x_broker : broker;
  x_dealer : dealer;
  x_read : list (N * message);
  x_rejected : list (N * message);
  x_unread : list (N * string);
  x_unsent : list (N * message);
  x_crashed : list string }.
Definition empty_bnet : bnet := BNet ∅ new_broker new_dealer [] [] [] [] [].
Definition xset_clients v x := BNet v (x_broker x) (x_dealer x) (x_read x) (x_rejected x) (x_unread x) (x_unsent x) (x_crashed x).
Definition xset_unread v x := BNet (x_clients x) (x_broker x) (x_dealer x) (x_read x) (x_rejected x) v (x_unsent x) (x_crashed x).
Definition xset_crashed v x := BNet (x_clients x) (x_broker x) (x_dealer x) (x_read x) (x_rejected x) (x_unread x) (x_unsent x) v.

Definition xcall_broker (o : oracle) (op : bop) (x : bnet) : bnet :=
  match bstep o (x_broker x) op with
  | Ret b _ => BNet (x_clients x) b (x_dealer x) (x_read x) (x_rejected x) (x_unread x) (x_unsent x) (x_crashed x)
  | Crash w => xset_crashed (w :: x_crashed x) x
  end.
Definition xcall_dealer (o : oracle) (op : dop) (x : bnet) : bnet :=
  match dstep o (x_dealer x) op with
  | Ret d _ => BNet (x_clients x) (x_broker x) d (x_read x) (x_rejected x) (x_unread x) (x_unsent x) (x_crashed x)
  | Crash w => xset_crashed (w :: x_crashed x) x
  end.

Section bytes.
Context {PL : Platform}.
Context (sers : N -> Z).

(** The router serializes the answers one by one; what it cannot serialize is
    not sent. *)
Inductive sends : list (message * N) -> gmap N bclient -> list (N * message) -> gmap N bclient -> list (N * message) -> Prop :=
| se_done cs un : sends [] cs un cs un
| se_gone m to outs cs un cs' un' : cs !! to = None -> sends outs cs un cs' un' -> sends ((m, to) :: outs) cs un cs' un'
| se_sent m to outs cs un cs' un' cl sh t : cs !! to = Some cl -> serialize_as (sers to) sh m = Ok t ->
    sends outs (<[to := BClient (bc_session cl) (bc_up cl) (bc_down cl ++ [t])]> cs) un cs' un' ->
    sends ((m, to) :: outs) cs un cs' un'
| se_unsent m to outs cs un cs' un' cl sh : cs !! to = Some cl -> (forall t, serialize_as (sers to) sh m <> Ok t) ->
    sends outs cs ((to, m) :: un) cs' un' ->
    sends ((m, to) :: outs) cs un cs' un'.

Inductive xstep (x : bnet) : nevent -> bnet -> Prop :=
| xs_join d :
    xstep x (NJoin d)
      (xcall_dealer any_oracle (DAdd d) (xcall_broker any_oracle (BAdd d)
        (xset_clients (<[se_id d := BClient new_session [] []]> (x_clients x)) x)))
| xs_leave o c :
    xstep x (NLeave o c)
      (xcall_dealer o (DRemove c) (xcall_broker o (BRemove c)
        (xset_clients (delete c (x_clients x)) x)))
| xs_disclose p c :
    xstep x (NDisclose p c)
      (xcall_dealer any_oracle (DDisclose c) (xcall_broker any_oracle (BDisclose p) x))
| xs_send_nobody c m : x_clients x !! c = None -> xstep x (NSend c m) x
| xs_send c m cl sh s r : x_clients x !! c = Some cl ->
    sstep (bc_session cl) (SSend (serialize_as (sers c) sh m) m) = (s, r) ->
    xstep x (NSend c m)
      (xset_clients (<[c := BClient s (bc_up cl ++ match r with Ok (SData t) => [t] | _ => [] end) (bc_down cl)]> (x_clients x)) x)
| xs_route_nothing o c :
    (forall cl, x_clients x !! c = Some cl -> bc_up cl = []) -> xstep x (NRoute o c) x
| xs_route_unread o c cl t up sh sh' : x_clients x !! c = Some cl -> bc_up cl = t :: up ->
    (forall m, deserialize_as (sers c) sh sh' t <> Ok m) ->
    xstep x (NRoute o c)
      (xset_unread ((c, t) :: x_unread x)
        (xset_clients (<[c := BClient (bc_session cl) up (bc_down cl)]> (x_clients x)) x))
| xs_route o c cl t up sh sh' m b d outs cs un : x_clients x !! c = Some cl -> bc_up cl = t :: up ->
    deserialize_as (sers c) sh sh' t = Ok m ->
    answers o c m (x_broker x) (x_dealer x) = Ret (b, d) outs ->
    sends outs (<[c := BClient (bc_session cl) up (bc_down cl)]> (x_clients x)) (x_unsent x) cs un ->
    xstep x (NRoute o c) (BNet cs b d (x_read x) (x_rejected x) (x_unread x) un (x_crashed x))
| xs_route_crash o c cl t up sh sh' m w : x_clients x !! c = Some cl -> bc_up cl = t :: up ->
    deserialize_as (sers c) sh sh' t = Ok m ->
    answers o c m (x_broker x) (x_dealer x) = Crash w ->
    xstep x (NRoute o c)
      (xset_crashed (w :: x_crashed x)
        (xset_clients (<[c := BClient (bc_session cl) up (bc_down cl)]> (x_clients x)) x))
| xs_deliver_nothing c :
    (forall cl, x_clients x !! c = Some cl -> bc_down cl = []) -> xstep x (NDeliver c) x
| xs_deliver_unread c cl t down sh sh' : x_clients x !! c = Some cl -> bc_down cl = t :: down ->
    (forall m, deserialize_as (sers c) sh sh' t <> Ok m) ->
    xstep x (NDeliver c)
      (xset_unread ((c, t) :: x_unread x)
        (xset_clients (<[c := BClient (bc_session cl) (bc_up cl) down]> (x_clients x)) x))
| xs_deliver c cl t down sh sh' m s r : x_clients x !! c = Some cl -> bc_down cl = t :: down ->
    deserialize_as (sers c) sh sh' t = Ok m ->
    sstep (bc_session cl) (SReceive (deserialize_as (sers c) sh sh' t)) = (s, r) ->
    xstep x (NDeliver c)
      (BNet (<[c := BClient s (bc_up cl) down]> (x_clients x)) (x_broker x) (x_dealer x)
        (x_read x ++ [(c, m)])
        (match r with Ok _ => x_rejected x | _ => (c, m) :: x_rejected x end)
        (x_unread x) (x_unsent x) (x_crashed x)).

Inductive xrun_bytes (x : bnet) : list nevent -> bnet -> Prop :=
| xr_nil : xrun_bytes x [] x
| xr_cons e es x1 x2 : xstep x e x1 -> xrun_bytes x1 es x2 -> xrun_bytes x (e :: es) x2.

(** ** Specification *)

(** What is under way to a reader is, for that reader, like what is under way to
    it in the network without serializers. *)
Definition bytes_like (ser : Z) (m : message) (t : string) : Prop :=
  forall sh sh', exists m', deserialize_as ser sh sh' t = Ok m' /\ msg_like m m'.
Definition bclient_like (ser : Z) (cl : client) (bcl : bclient) : Prop :=
  bc_session bcl = cl_session cl
  /\ Forall2 (bytes_like ser) (cl_up cl) (bc_up bcl) /\ Forall2 (bytes_like ser) (cl_down cl) (bc_down bcl).
Record bnet_like (n : net) (x : bnet) : Prop := {
  xl_broker : x_broker x = n_broker n;
  xl_dealer : x_dealer x = n_dealer n;
  xl_clients : forall c, option_Forall2 (bclient_like (sers c)) (n_clients n !! c) (x_clients x !! c);
  xl_rejected : Forall2 (fun a b => fst a = fst b /\ msg_like (snd a) (snd b)) (n_rejected n) (x_rejected x);
  xl_crashed : x_crashed x = n_crashed n;
  xl_unread : x_unread x = [];
  xl_unsent : x_unsent x = [] }.
End bytes.
