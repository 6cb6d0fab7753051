(** /repo/broker.go. *)
From Verif Require Import Prelude Value Msg IdGen Types PathMatch.

(** Match policies and option keys, dealer.go:15-24 and broker.go:13-15. *)
Definition opt_match : string := "match".
Definition opt_acknowledge : string := "acknowledge".
Definition match_exact : string := "exact".
Definition match_prefix : string := "prefix".
Definition match_wildcard : string := "wildcard".

(** Subscription, types.go:83-88. *)
Record subscription : Type := Subscription {
  sub_id : N; sub_topic : string; sub_subscribers : gmap N N; sub_match : string }.
Definition set_subscribers (m : gmap N N) (s : subscription) : subscription :=
  Subscription (sub_id s) (sub_topic s) m (sub_match s).

(** Broker, broker.go:17-27.  Subscriptions live in a heap and are referred to
    by location from the four maps, as the pointers of the code are. *)
Record broker : Type := Broker {
  b_heap : gmap N subscription;
  b_fresh : N;
  b_by_topic : gmap string N;
  b_by_session : gmap N (gmap N N);
  b_sessions : gmap N session_details;
  b_prefix : gmap string N;
  b_wildcard : gmap string N;
  b_details : bool;
  b_idgen : N }.

(** NewBroker, broker.go:29-38. *)
Definition new_broker : broker := Broker ∅ 0 ∅ ∅ ∅ ∅ ∅ false 0.

Definition set_heap x b := Broker x (b_fresh b) (b_by_topic b) (b_by_session b) (b_sessions b) (b_prefix b) (b_wildcard b) (b_details b) (b_idgen b).
Definition set_by_topic x b := Broker (b_heap b) (b_fresh b) x (b_by_session b) (b_sessions b) (b_prefix b) (b_wildcard b) (b_details b) (b_idgen b).
Definition set_by_session x b := Broker (b_heap b) (b_fresh b) (b_by_topic b) x (b_sessions b) (b_prefix b) (b_wildcard b) (b_details b) (b_idgen b).
Definition set_sessions x b := Broker (b_heap b) (b_fresh b) (b_by_topic b) (b_by_session b) x (b_prefix b) (b_wildcard b) (b_details b) (b_idgen b).
Definition set_prefix x b := Broker (b_heap b) (b_fresh b) (b_by_topic b) (b_by_session b) (b_sessions b) x (b_wildcard b) (b_details b) (b_idgen b).
Definition set_wildcard x b := Broker (b_heap b) (b_fresh b) (b_by_topic b) (b_by_session b) (b_sessions b) (b_prefix b) x (b_details b) (b_idgen b).
Definition set_bdetails x b := Broker (b_heap b) (b_fresh b) (b_by_topic b) (b_by_session b) (b_sessions b) (b_prefix b) (b_wildcard b) x (b_idgen b).
Definition set_bidgen x b := Broker (b_heap b) (b_fresh b) (b_by_topic b) (b_by_session b) (b_sessions b) (b_prefix b) (b_wildcard b) (b_details b) x.

(** Publication, types.go:90-94, and the results of the six methods. *)
Inductive bout : Type :=
| BErr (e : string)
| BOk
| BHas (b : bool)
| BMsg (m : message) (to : N)
| BPubl (ev : option event) (recipients : list N) (ack : option outmsg).

(** AddSession, broker.go:40-52. *)
Definition b_add_session (b : broker) (d : session_details) : outcome broker bout :=
  match b_by_session b !! se_id d with
  | Some _ => Ret b (BErr "session already exists")
  | None =>
      let b := set_by_session (<[se_id d := ∅]> (b_by_session b)) b in
      let b := set_sessions (<[se_id d := d]> (b_sessions b)) b in
      Ret b BOk
  end.

(** The body of the loop of RemoveSession, broker.go:65-81: [l] is the pointer
    [v], [id] the leaving session. *)
Definition b_remove_body (id : N) (b : broker) (l : N) : outcome broker unit :=
  match b_heap b !! l with
  | None => Crash "nil dereference"
  | Some v =>
      match b_by_topic b !! sub_topic v with
      | None => Crash "nil dereference"  (* len(subscription.Subscribers) on nil *)
      | Some l' =>
          match b_heap b !! l' with
          | None => Crash "nil dereference"
          | Some s =>
              let s := set_subscribers (delete id (sub_subscribers s)) s in
              let b := set_heap (<[l' := s]> (b_heap b)) b in
              let b := if decide (sub_subscribers s = ∅)
                       then set_by_topic (delete (sub_topic v) (b_by_topic b)) b else b in
              let b := if String.eqb (sub_match s) match_prefix
                       then set_prefix (delete (sub_topic s) (b_prefix b)) b else b in
              let b := if String.eqb (sub_match s) match_wildcard
                       then set_wildcard (delete (sub_topic v) (b_wildcard b)) b else b in
              Ret b ()
          end
      end
  end.
Fixpoint b_remove_loop (id : N) (b : broker) (ls : list N) : outcome broker unit :=
  match ls with
  | [] => Ret b ()
  | l :: ls' =>
      match b_remove_body id b l with
      | Ret b' _ => b_remove_loop id b' ls'
      | Crash w => Crash w
      end
  end.

(** RemoveSession, broker.go:54-86. *)
Definition b_remove_session (o : oracle) (b : broker) (id : N) : outcome broker bout :=
  match b_by_session b !! id with
  | None => Ret b (BErr "session doesn't exist")
  | Some subs =>
      let b := set_by_session (delete id (b_by_session b)) b in
      match b_remove_loop id b (map snd (shuf (o_first o) (map_to_list subs))) with
      | Ret b _ => Ret (set_sessions (delete id (b_sessions b)) b) BOk
      | Crash w => Crash w
      end
  end.

(** HasSubscription, broker.go:88-94. *)
Definition b_has_subscription (b : broker) (topic : string) : outcome broker bout :=
  Ret b (BHas (match b_by_topic b !! topic with Some _ => true | None => false end)).

(** AutoDisclosePublisher, broker.go:96-100. *)
Definition b_auto_disclose (b : broker) (disclose : bool) : outcome broker bout :=
  Ret (set_bdetails disclose b) BOk.

(** ReceiveMessage, case SUBSCRIBE, broker.go:107-141. *)
Definition b_subscribe (b : broker) (sid : N) (m : subscribe) : outcome broker bout :=
  match b_by_session b !! sid with
  | None => Ret b (BErr "session doesn't exist")
  | Some mine =>
      match b_by_topic b !! su_topic m with
      | Some l =>
          match b_heap b !! l with
          | None => Crash "nil dereference"
          | Some s =>
              let s := set_subscribers (<[sid := sid]> (sub_subscribers s)) s in
              let b := set_heap (<[l := s]> (b_heap b)) b in
              let b := set_by_session (<[sid := <[sub_id s := l]> mine]> (b_by_session b)) b in
              Ret b (BMsg (MSubscribed (Subscribed (su_request m) (sub_id s))) sid)
          end
      | None =>
          let id := next_id (b_idgen b) in
          let b := set_bidgen id b in
          let l := b_fresh b in
          let mt := to_string (mget (su_options m) opt_match) in
          let mt' := if String.eqb mt match_prefix then mt
                     else if String.eqb mt match_wildcard then mt else match_exact in
          let s := Subscription id (su_topic m) {[sid := sid]} mt' in
          let b := Broker (<[l := s]> (b_heap b)) (l + 1) (b_by_topic b) (b_by_session b)
                     (b_sessions b) (b_prefix b) (b_wildcard b) (b_details b) (b_idgen b) in
          let b := if String.eqb mt match_prefix
                   then set_prefix (<[su_topic m := l]> (b_prefix b)) b
                   else if String.eqb mt match_wildcard
                   then set_wildcard (<[su_topic m := l]> (b_wildcard b)) b else b in
          let b := set_by_topic (<[su_topic m := l]> (b_by_topic b)) b in
          let b := set_by_session (<[sid := <[id := l]> mine]> (b_by_session b)) b in
          Ret b (BMsg (MSubscribed (Subscribed (su_request m) id)) sid)
      end
  end.

(** ReceiveMessage, case UNSUBSCRIBE, broker.go:142-170. *)
Definition b_unsubscribe (b : broker) (sid : N) (m : unsubscribe) : outcome broker bout :=
  match b_by_session b !! sid with
  | None => Ret b (BErr "session doesn't exist")
  | Some mine =>
      match mine !! us_subscription m with
      | None => Ret b (BErr "non-existent subscription")
      | Some l =>
          match b_heap b !! l with
          | None => Crash "nil dereference"
          | Some s =>
              let s := set_subscribers (delete sid (sub_subscribers s)) s in
              let b := set_heap (<[l := s]> (b_heap b)) b in
              let b := if decide (sub_subscribers s = ∅)
                       then set_by_topic (delete (sub_topic s) (b_by_topic b)) b else b in
              let b := if String.eqb (sub_match s) match_prefix
                       then set_prefix (delete (sub_topic s) (b_prefix b)) b else b in
              let b := if String.eqb (sub_match s) match_wildcard
                       then set_wildcard (delete (sub_topic s) (b_wildcard b)) b else b in
              let b := set_by_session (<[sid := delete (sub_id s) mine]> (b_by_session b)) b in
              Ret b (BMsg (MUnsubscribed (Unsubscribed (us_request m))) sid)
          end
      end
  end.

(** ReceiveMessage, broker.go:102-176. *)
Definition b_receive_message (b : broker) (sid : N) (m : message) : outcome broker bout :=
  match m with
  | MSubscribe s => b_subscribe b sid s
  | MUnsubscribe u => b_unsubscribe b sid u
  | MError _ => Ret b (BErr "error handling is not implemented yet")
  | _ => Ret b (BErr "unexpected message")
  end.

(** The search of ReceivePublish, broker.go:190-208.  [exists] and the pointer
    are one option here: both are assigned together. *)
Definition b_subscribers_at (b : broker) (l : N) : option (gmap N N) :=
  sub_subscribers <$> b_heap b !! l.
Definition b_find (o : oracle) (b : broker) (topic : string) : option N :=
  let exact := b_by_topic b !! topic in
  let usable := match exact with
                | Some l => match b_subscribers_at b l with
                            | Some m => negb (bool_decide (m = ∅)) | None => false end
                | None => false
                end in
  if usable then exact
  else
    let pref := if (0 <? size (b_prefix b))%nat then longest_prefix (b_prefix b) topic else None in
    let cur := match pref with Some l => Some l | None => exact end in
    match cur with
    | Some l => Some l
    | None =>
        match List.find (fun x => wildcard_match topic (fst x))
                        (shuf (o_first o) (map_to_list (b_wildcard b))) with
        | Some (_, l) => Some l
        | None => None
        end
    end.

(** ReceivePublish, broker.go:178-233. *)
Definition b_receive_publish (o : oracle) (b : broker) (sid : N) (p : publish)
  : outcome broker bout :=
  match b_by_session b !! sid with
  | None => Ret b (BErr "session doesn't exist")
  | Some _ =>
      let pid := next_id (b_idgen b) in
      let b := set_bidgen pid b in
      let ack := match mget (pu_options p) opt_acknowledge with
                 | VBool true => Some (MPublished (Published (pu_request p) pid), sid)
                 | _ => None
                 end in
      match b_find o b (pu_topic p) with
      | None => Ret b (BPubl None [] ack)
      | Some l =>
          match b_heap b !! l with
          | None => Crash "nil dereference"
          | Some s =>
              if decide (sub_subscribers s = ∅) then Ret b (BPubl None [] ack)
              else
                let rs := map snd (shuf (o_second o) (map_to_list (sub_subscribers s))) in
                if b_details b then
                  match b_sessions b !! sid with
                  | None => Crash "nil dereference"  (* publisher.AuthID() *)
                  | Some pub =>
                      let d := [("topic", VStr (pu_topic p)); ("publisher", vid sid);
                                ("publisher_authid", VStr (se_authid pub));
                                ("publisher_authrole", VStr (se_authrole pub))]%string in
                      Ret b (BPubl (Some (new_event (sub_id s) pid (Some d) (pu_args p) (pu_kwargs p)))
                               rs ack)
                  end
                else
                  Ret b (BPubl (Some (new_event (sub_id s) pid (Some []) (pu_args p) (pu_kwargs p)))
                           rs ack)
          end
      end
  end.

(** The methods as operations on a history. *)
Inductive bop : Type :=
| BAdd (d : session_details)
| BRemove (id : N)
| BHasSub (topic : string)
| BDisclose (x : bool)
| BReceive (sid : N) (m : message)
| BPublish (sid : N) (p : publish).

Definition bstep (o : oracle) (b : broker) (op : bop) : outcome broker bout :=
  match op with
  | BAdd d => b_add_session b d
  | BRemove id => b_remove_session o b id
  | BHasSub t => b_has_subscription b t
  | BDisclose x => b_auto_disclose b x
  | BReceive sid m => b_receive_message b sid m
  | BPublish sid p => b_receive_publish o b sid p
  end.

(** A history: operations with the runtime's choices; the run stops at a panic. *)
Notation bhist := (list (oracle * bop)).
Fixpoint brun (b : broker) (h : bhist) : outcome broker (list bout) :=
  match h with
  | [] => Ret b []
  | (o, op) :: h' =>
      match bstep o b op with
      | Crash w => Crash w
      | Ret b' r =>
          match brun b' h' with
          | Crash w => Crash w
          | Ret b'' rs => Ret b'' (r :: rs)
          end
      end
  end.
