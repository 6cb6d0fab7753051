(** The network of Network.v with serializers in it: what travels is bytes, and
    every reader deserializes them.

    Bytes are represented by the list that the codec's Unmarshal gives for them
    (serializers/json.go:17-32, cbor.go:26-42, msgpack.go:13-28 decode into
    []any and go on from there): [carried m l] says that a faithful codec may
    turn the message [m] into bytes that decode to [l]; which of the lists it
    is may differ from message to message and from recipient to recipient.
    What Deserialize makes of [l] is [deserialize_decoded] of Msg.v. *)
From Verif Require Import Prelude Value Msg IdGen Types PathMatch Broker Dealer Session Network.
From Verif Require Import WireSpec MsgSpec NetworkSpec.

Local Open Scope string_scope.
Local Open Scope list_scope.
Local Open Scope N_scope.

Definition carried (m : message) (l : list value) : Prop := Forall2 wire (marshal m) l.

Record wclient : Type := WClient {
  wc_session : session; wc_up : list (list value); wc_down : list (list value) }.

(** History variables: [w_read], what the clients' sessions were given, in
    order; [w_rejected], what they refused; [w_unread], what could not be
    deserialized by its reader; [w_crashed], the panics. *)
Record wnet : Type := WNet {
  w_clients : gmap N wclient;
  w_broker : broker;
  w_dealer : dealer;
  w_read : list (N * message);
  w_rejected : list (N * message);
  w_unread : list (N * list value);
  w_crashed : list string }.
Definition empty_wnet : wnet := WNet ∅ new_broker new_dealer [] [] [] [].

Definition wset_clients x w := WNet x (w_broker w) (w_dealer w) (w_read w) (w_rejected w) (w_unread w) (w_crashed w).
Definition wset_unread x w := WNet (w_clients w) (w_broker w) (w_dealer w) (w_read w) (w_rejected w) x (w_crashed w).
Definition wset_crashed x w := WNet (w_clients w) (w_broker w) (w_dealer w) (w_read w) (w_rejected w) (w_unread w) x.

Definition wcall_broker (o : oracle) (op : bop) (w : wnet) : wnet :=
  match bstep o (w_broker w) op with
  | Ret b _ => WNet (w_clients w) b (w_dealer w) (w_read w) (w_rejected w) (w_unread w) (w_crashed w)
  | Crash x => wset_crashed (x :: w_crashed w) w
  end.
Definition wcall_dealer (o : oracle) (op : dop) (w : wnet) : wnet :=
  match dstep o (w_dealer w) op with
  | Ret d _ => WNet (w_clients w) (w_broker w) d (w_read w) (w_rejected w) (w_unread w) (w_crashed w)
  | Crash x => wset_crashed (x :: w_crashed w) w
  end.

(** The router handles message [m] of session [c]: the new broker and dealer,
    and the answers with their recipients (as [handle] of Network.v). *)
Definition answers (o : oracle) (c : N) (m : message) (b : broker) (d : dealer)
  : outcome (broker * dealer) (list (message * N)) :=
  match m with
  | MPublish p =>
      match bstep o b (BPublish c p) with
      | Crash x => Crash x
      | Ret b (BPubl ev rs ack) =>
          Ret (b, d) (match ev with Some e => map (fun r => (MEvent e, r)) rs | None => [] end
                      ++ match ack with Some a => [a] | None => [] end)
      | Ret b _ => Ret (b, d) []
      end
  | MSubscribe _ | MUnsubscribe _ =>
      match bstep o b (BReceive c m) with
      | Crash x => Crash x
      | Ret b (BMsg a to) => Ret (b, d) [(a, to)]
      | Ret b _ => Ret (b, d) []
      end
  | MCall _ | MYield _ | MRegister _ | MUnregister _ | MError _ =>
      match dstep o d (DReceive c m) with
      | Crash x => Crash x
      | Ret d (DMsg a to) => Ret (b, d) [(a, to)]
      | Ret d _ => Ret (b, d) []
      end
  | _ => Ret (b, d) []
  end.

(** Every answer is serialized and sent to its recipient, if that is there. *)
Definition answers_for (x : N) (outs : list (message * N)) : list message :=
  omap (fun a : message * N => if snd a =? x then Some (fst a) else None) outs.
Definition sent_out (outs : list (message * N)) (cs cs' : gmap N wclient) : Prop :=
  forall x, match cs !! x with
            | None => cs' !! x = None
            | Some cl => exists ls, Forall2 carried (answers_for x outs) ls
                /\ cs' !! x = Some (WClient (wc_session cl) (wc_up cl) (wc_down cl ++ ls))
            end.

Section wired.
Context {PL : Platform}.

(** The events are those of Network.v.  Sending needs a message the codec can
    encode; so there is no step for one that it cannot. *)
Inductive wstep (w : wnet) : nevent -> wnet -> Prop :=
| ws_join d :
    wstep w (NJoin d)
      (wcall_dealer any_oracle (DAdd d) (wcall_broker any_oracle (BAdd d)
        (wset_clients (<[se_id d := WClient new_session [] []]> (w_clients w)) w)))
| ws_leave o c :
    wstep w (NLeave o c)
      (wcall_dealer o (DRemove c) (wcall_broker o (BRemove c)
        (wset_clients (delete c (w_clients w)) w)))
| ws_disclose p c :
    wstep w (NDisclose p c)
      (wcall_dealer any_oracle (DDisclose c) (wcall_broker any_oracle (BDisclose p) w))
| ws_send_nobody c m : w_clients w !! c = None -> wstep w (NSend c m) w
| ws_send c m l cl s out : w_clients w !! c = Some cl -> carried m l ->
    sstep (wc_session cl) (SSend (Ok "") m) = (s, Ok out) ->
    wstep w (NSend c m)
      (wset_clients (<[c := WClient s (wc_up cl ++ [l]) (wc_down cl)]> (w_clients w)) w)
| ws_send_refused c m l cl s r : w_clients w !! c = Some cl -> carried m l ->
    sstep (wc_session cl) (SSend (Ok "") m) = (s, r) -> (forall out, r <> Ok out) ->
    wstep w (NSend c m)
      (wset_clients (<[c := WClient s (wc_up cl) (wc_down cl)]> (w_clients w)) w)
| ws_route_nothing o c :
    (forall cl, w_clients w !! c = Some cl -> wc_up cl = []) -> wstep w (NRoute o c) w
| ws_route_unread o c cl l up sh sh' : w_clients w !! c = Some cl -> wc_up cl = l :: up ->
    (forall m, deserialize_decoded sh sh' l <> Ok m) ->
    wstep w (NRoute o c)
      (wset_unread ((c, l) :: w_unread w)
        (wset_clients (<[c := WClient (wc_session cl) up (wc_down cl)]> (w_clients w)) w))
| ws_route o c cl l up sh sh' m b d outs cs : w_clients w !! c = Some cl -> wc_up cl = l :: up ->
    deserialize_decoded sh sh' l = Ok m ->
    answers o c m (w_broker w) (w_dealer w) = Ret (b, d) outs ->
    sent_out outs (<[c := WClient (wc_session cl) up (wc_down cl)]> (w_clients w)) cs ->
    wstep w (NRoute o c) (WNet cs b d (w_read w) (w_rejected w) (w_unread w) (w_crashed w))
| ws_route_crash o c cl l up sh sh' m x : w_clients w !! c = Some cl -> wc_up cl = l :: up ->
    deserialize_decoded sh sh' l = Ok m ->
    answers o c m (w_broker w) (w_dealer w) = Crash x ->
    wstep w (NRoute o c)
      (wset_crashed (x :: w_crashed w)
        (wset_clients (<[c := WClient (wc_session cl) up (wc_down cl)]> (w_clients w)) w))
| ws_deliver_nothing c :
    (forall cl, w_clients w !! c = Some cl -> wc_down cl = []) -> wstep w (NDeliver c) w
| ws_deliver_unread c cl l down sh sh' : w_clients w !! c = Some cl -> wc_down cl = l :: down ->
    (forall m, deserialize_decoded sh sh' l <> Ok m) ->
    wstep w (NDeliver c)
      (wset_unread ((c, l) :: w_unread w)
        (wset_clients (<[c := WClient (wc_session cl) (wc_up cl) down]> (w_clients w)) w))
| ws_deliver c cl l down sh sh' m s r : w_clients w !! c = Some cl -> wc_down cl = l :: down ->
    deserialize_decoded sh sh' l = Ok m ->
    sstep (wc_session cl) (SReceive (Ok m)) = (s, r) ->
    wstep w (NDeliver c)
      (WNet (<[c := WClient s (wc_up cl) down]> (w_clients w)) (w_broker w) (w_dealer w)
        (w_read w ++ [(c, m)])
        (match r with Ok _ => w_rejected w | _ => (c, m) :: w_rejected w end)
        (w_unread w) (w_crashed w)).

Inductive wrun (w : wnet) : list nevent -> wnet -> Prop :=
| wr_nil : wrun w [] w
| wr_cons e es w1 w2 : wstep w e w1 -> wrun w1 es w2 -> wrun w (e :: es) w2.

(** ** Specification *)

(** Equal, or equal up to a serializer.  *)
Definition like (v v' : value) : Prop := v = v' \/ wire v v'.
Definition map_like (m m' : list (string * value)) : Prop :=
  forall k, option_Forall2 like (assoc k m) (assoc k m').
Definition fld_like (f f' : fld) : Prop :=
  match f, f' with
  | FDict (Some m), FDict (Some m') => map_like m m'
  | FArgs None, FArgs (Some l') => l' = []
  | FArgs (Some l), FArgs (Some l') => Forall2 like l l'
  | FKwArgs (Some m), FKwArgs (Some m') => map_like m m'
  | _, _ => f = f'
  end.
Definition msg_like (m m' : message) : Prop :=
  mtype m = mtype m' /\ Forall2 fld_like (msg_fields m) (msg_fields m').

(** What the clients must see to: ids are uint64 and mandatory dictionaries
    are there (the constructors make them), no pre-encoded payload is given (it
    is handed on only where no serializer is in between), and no option is of
    the named type auth.Method (a codec would turn it into a string). *)
Definition options_of (m : message) : gomap :=
  match m with
  | MCall x => ca_options x | MYield x => yi_options x | MPublish x => pu_options x
  | MSubscribe x => su_options x | MRegister x => rg_options x | _ => None
  end.
Definition ordinary (m : message) : Prop :=
  msg_ok m /\ bp_binary (msg_bin m) = false /\ forall k s, mget (options_of m) k <> VMethod s.
Definition ordinary_event (e : nevent) : Prop :=
  match e with NSend _ m => ordinary m | _ => True end.

(** What the codec can encode; session ids are uint64, too. *)
Definition encodable_event (e : nevent) : Prop :=
  match e with
  | NSend _ m => exists l, carried m l
  | NJoin d => (Z.of_N (se_id d) < two64)%Z
  | _ => True
  end.

(** What is under way to a reader in the network with serializers is, for that
    reader, like what is under way to it in the network without. *)
Definition reads_like (m : message) (l : list value) : Prop :=
  forall sh sh', exists m', deserialize_decoded sh sh' l = Ok m' /\ msg_like m m'.
Definition client_like (cl : client) (wcl : wclient) : Prop :=
  wc_session wcl = cl_session cl
  /\ Forall2 reads_like (cl_up cl) (wc_up wcl) /\ Forall2 reads_like (cl_down cl) (wc_down wcl).
Definition read_by (c : N) (log : list (N * message)) : list message :=
  omap (fun x : N * message => if fst x =? c then Some (snd x) else None) log.

Record net_like (n : net) (w : wnet) : Prop := {
  nl_broker : w_broker w = n_broker n;
  nl_dealer : w_dealer w = n_dealer n;
  nl_clients : forall c, option_Forall2 client_like (n_clients n !! c) (w_clients w !! c);
  nl_rejected : Forall2 (fun x y => fst x = fst y /\ msg_like (snd x) (snd y)) (n_rejected n) (w_rejected w);
  nl_crashed : w_crashed w = n_crashed n;
  nl_unread : w_unread w = [] }.

End wired.
