(** What a broker is supposed to do, written without the broker's data
    structures: a table with one row per topic, and predicates on traces (the
    calls made and the results returned). *)
From Verif Require Import Prelude Value Msg IdGen Types PathMatch Broker.
From Verif Require Export MatchSpec.

(** * The topic table *)

(** One row per subscribed topic.  [t_indexed]: a pattern row can only be found
    through its pattern while nobody has left it since it was created (this is
    what the code does; C29 records the consequence). *)
Record topic_row : Type := TopicRow {
  t_id : N; t_policy : policy; t_subs : gset N; t_indexed : bool }.

Record table : Type := Table {
  tb_rows : gmap string topic_row;
  tb_sessions : gmap N session_details;
  tb_disclose : bool;
  tb_ids : N }.    (* ids handed out so far *)

Definition empty_table : table := Table ∅ ∅ false 0.

(** Session [sid] leaves a row. *)
Definition leave (sid : N) (r : topic_row) : option topic_row :=
  if decide (sid ∈ t_subs r) then
    if decide (t_subs r ∖ {[sid]} = ∅) then None
    else Some (TopicRow (t_id r) (t_policy r) (t_subs r ∖ {[sid]}) false)
  else Some r.

(** The row [r] of topic [t] serves a publication to [topic]: literal topic
    first, then the longest matching prefix row, then any matching wildcard row. *)
Definition prefix_candidate (rows : gmap string topic_row) (topic t : string) (r : topic_row) : Prop :=
  rows !! t = Some r /\ t_policy r = PPrefix /\ t_indexed r = true /\ is_prefix t topic.
Definition wildcard_candidate (rows : gmap string topic_row) (topic t : string) (r : topic_row) : Prop :=
  rows !! t = Some r /\ t_policy r = PWildcard /\ t_indexed r = true /\ wildcard_match topic t = true.
Inductive serves (rows : gmap string topic_row) (topic : string) : string -> topic_row -> Prop :=
| serves_exact r : rows !! topic = Some r -> serves rows topic topic r
| serves_prefix t r :
    rows !! topic = None -> prefix_candidate rows topic t r ->
    (forall t' r', prefix_candidate rows topic t' r' -> (String.length t' <= String.length t)%nat) ->
    serves rows topic t r
| serves_wildcard t r :
    rows !! topic = None -> (forall t' r', ~ prefix_candidate rows topic t' r') ->
    wildcard_candidate rows topic t r -> serves rows topic t r.

(** The acknowledgement of a publication. *)
Definition ack_of (p : publish) (sid pid : N) : option outmsg :=
  match mget (pu_options p) "acknowledge" with
  | VBool true => Some (MPublished (Published (pu_request p) pid), sid)
  | _ => None
  end.

(** The details of an event. *)
Definition event_details (disclose : bool) (topic : string) (pub : session_details) (sid : N)
  : list (string * value) :=
  if disclose then
    [("topic", VStr topic); ("publisher", VInt KUint64 (Z.of_N sid));
     ("publisher_authid", VStr (se_authid pub)); ("publisher_authrole", VStr (se_authrole pub))]%string
  else [].

Definition set_rows (x : gmap string topic_row) (s : table) : table :=
  Table x (tb_sessions s) (tb_disclose s) (tb_ids s).

(** One call on the table: which results and which next tables are allowed. *)
Inductive tstep (s : table) : bop -> bout -> table -> Prop :=
| ts_add d :
    tb_sessions s !! se_id d = None ->
    tstep s (BAdd d) BOk
      (Table (tb_rows s) (<[se_id d := d]> (tb_sessions s)) (tb_disclose s) (tb_ids s))
| ts_add_err d e :
    is_Some (tb_sessions s !! se_id d) -> tstep s (BAdd d) (BErr e) s
| ts_remove sid :
    is_Some (tb_sessions s !! sid) ->
    tstep s (BRemove sid) BOk
      (Table (omap (leave sid) (tb_rows s)) (delete sid (tb_sessions s)) (tb_disclose s) (tb_ids s))
| ts_remove_err sid e :
    tb_sessions s !! sid = None -> tstep s (BRemove sid) (BErr e) s
| ts_has t b :
    (b = true <-> is_Some (tb_rows s !! t)) -> tstep s (BHasSub t) (BHas b) s
| ts_disclose x :
    tstep s (BDisclose x) BOk (Table (tb_rows s) (tb_sessions s) x (tb_ids s))
| ts_sub_old sid m r :
    is_Some (tb_sessions s !! sid) -> tb_rows s !! su_topic m = Some r ->
    tstep s (BReceive sid (MSubscribe m))
      (BMsg (MSubscribed (Subscribed (su_request m) (t_id r))) sid)
      (set_rows (<[su_topic m := TopicRow (t_id r) (t_policy r) ({[sid]} ∪ t_subs r) (t_indexed r)]>
                   (tb_rows s)) s)
| ts_sub_new sid m :
    is_Some (tb_sessions s !! sid) -> tb_rows s !! su_topic m = None ->
    tstep s (BReceive sid (MSubscribe m))
      (BMsg (MSubscribed (Subscribed (su_request m) (tb_ids s + 1))) sid)
      (Table (<[su_topic m := TopicRow (tb_ids s + 1) (requested_policy (su_options m)) {[sid]} true]>
                (tb_rows s)) (tb_sessions s) (tb_disclose s) (tb_ids s + 1))
| ts_unsub sid m t r :
    is_Some (tb_sessions s !! sid) -> tb_rows s !! t = Some r ->
    t_id r = us_subscription m -> sid ∈ t_subs r ->
    tstep s (BReceive sid (MUnsubscribe m))
      (BMsg (MUnsubscribed (Unsubscribed (us_request m))) sid)
      (set_rows (partial_alter (fun x => x ≫= leave sid) t (tb_rows s)) s)
| ts_msg_err sid m e :
    (match m with
     | MSubscribe _ => tb_sessions s !! sid = None
     | MUnsubscribe u =>
         tb_sessions s !! sid = None
         \/ forall t r, tb_rows s !! t = Some r -> t_id r = us_subscription u -> sid ∉ t_subs r
     | _ => True
     end) ->
    tstep s (BReceive sid m) (BErr e) s
| ts_pub_err sid p e :
    tb_sessions s !! sid = None -> tstep s (BPublish sid p) (BErr e) s
| ts_pub_none sid p :
    is_Some (tb_sessions s !! sid) ->
    (forall t r, ~ serves (tb_rows s) (pu_topic p) t r) ->
    tstep s (BPublish sid p) (BPubl None [] (ack_of p sid (tb_ids s + 1)))
      (Table (tb_rows s) (tb_sessions s) (tb_disclose s) (tb_ids s + 1))
| ts_pub sid p pub t r rs :
    tb_sessions s !! sid = Some pub ->
    serves (tb_rows s) (pu_topic p) t r ->
    NoDup rs -> (forall x, x ∈ rs <-> x ∈ t_subs r) ->
    tstep s (BPublish sid p)
      (BPubl (Some (Event (t_id r) (tb_ids s + 1)
                      (Some (event_details (tb_disclose s) (pu_topic p) pub sid))
                      (pu_args p) (pu_kwargs p)))
         rs (ack_of p sid (tb_ids s + 1)))
      (Table (tb_rows s) (tb_sessions s) (tb_disclose s) (tb_ids s + 1)).

Inductive truns : table -> list bop -> list bout -> table -> Prop :=
| truns_nil s : truns s [] [] s
| truns_cons s op out s' ops outs s'' :
    tstep s op out s' -> truns s' ops outs s'' -> truns s (op :: ops) (out :: outs) s''.

(** * Predicates on traces: calls paired with their results, latest first *)

Notation btrace := (list (bop * bout)).

(** The call is a SUBSCRIBE of [sid] for topic [t], answered with id [id]. *)
Definition is_subscribed (c : bop * bout) (sid : N) (t : string) (id : N) : Prop :=
  match c with
  | (BReceive s (MSubscribe m), BMsg (MSubscribed a) to) =>
      s = sid /\ su_topic m = t /\ sd_subscription a = id /\ to = sid
  | _ => False
  end.
(** The call ends [sid]'s subscription [id]: UNSUBSCRIBE answered, or removal. *)
Definition is_ended (c : bop * bout) (sid id : N) : Prop :=
  match c with
  | (BReceive s (MUnsubscribe m), BMsg (MUnsubscribed _) _) => s = sid /\ us_subscription m = id
  | (BRemove s, BOk) => s = sid
  | _ => False
  end.
(** [sid] holds subscription [id] to topic [t]. *)
Fixpoint holds (tr : btrace) (sid : N) (t : string) (id : N) : Prop :=
  match tr with
  | [] => False
  | c :: tr' => is_subscribed c sid t id \/ (holds tr' sid t id /\ ~ is_ended c sid id)
  end.

(** [sid] is attached: added and not removed since. *)
Fixpoint attached (tr : btrace) (sid : N) : Prop :=
  match tr with
  | [] => False
  | (BAdd d, BOk) :: tr' => se_id d = sid \/ attached tr' sid
  | (BRemove s, BOk) :: tr' => s <> sid /\ attached tr' sid
  | _ :: tr' => attached tr' sid
  end.

(** [d] are the details [sid] was added with. *)
Fixpoint added (tr : btrace) (sid : N) (d : session_details) : Prop :=
  match tr with
  | [] => False
  | (BAdd d', BOk) :: tr' => (se_id d' = sid /\ d' = d) \/ (se_id d' <> sid /\ added tr' sid d)
  | (BRemove s, BOk) :: tr' => s <> sid /\ added tr' sid d
  | _ :: tr' => added tr' sid d
  end.

(** The last AutoDisclosePublisher. *)
Fixpoint disclosing (tr : btrace) : bool :=
  match tr with
  | [] => false
  | (BDisclose x, _) :: _ => x
  | _ :: tr' => disclosing tr'
  end.

(** The pattern [t] with policy [pol] is searchable under id [id]: somebody
    subscribed to it when nobody held [t], and none of its subscribers has
    left it since. *)
Definition is_created (c : bop * bout) (t : string) (pol : policy) (id : N) : Prop :=
  match c with
  | (BReceive s (MSubscribe m), BMsg (MSubscribed a) _) =>
      su_topic m = t /\ requested_policy (su_options m) = pol /\ sd_subscription a = id
  | _ => False
  end.
Fixpoint searchable (tr : btrace) (t : string) (pol : policy) (id : N) : Prop :=
  match tr with
  | [] => False
  | c :: tr' =>
      (is_created c t pol id /\ forall x i, ~ holds tr' x t i)
      \/ (searchable tr' t pol id /\ forall x, holds tr' x t id -> ~ is_ended c x id)
  end.

(** No pattern subscription was asked for. *)
Definition no_patterns (ops : list bop) : Prop :=
  forall sid m, BReceive sid (MSubscribe m) ∈ ops -> requested_policy (su_options m) = PExact.

(** Publication ids shown to anyone by a call. *)
Definition shows_publication (out : bout) (pid : N) : Prop :=
  match out with
  | BPubl ev _ ack =>
      (exists e, ev = Some e /\ ev_publication e = pid)
      \/ (exists p to, ack = Some (MPublished p, to) /\ pd_publication p = pid)
  | _ => False
  end.

(** The calls of a history paired with the results, latest first. *)
Definition trace_of (h : bhist) (outs : list bout) : btrace := rev (zip (map snd h) outs).
