(** Concrete broker histories used by the examples and refutations. *)
From Verif Require Import Prelude Value Msg IdGen Types PathMatch Broker BrokerSpec BrokerSafe.

Definition o0 : oracle := Oracle sh_id sh_id 0.
Definition o1 : oracle := Oracle sh_rev sh_rev 1.
Definition sess (n : N) : session_details :=
  new_session_details n "realm1" "john" "user" "ticket" false None None.
Definition bsub (sid req : N) (t : string) (o : list (string * value)) : bop :=
  BReceive sid (MSubscribe (Subscribe req (Some o) t)).
Definition bunsub (sid req id : N) : bop := BReceive sid (MUnsubscribe (Unsubscribe req id)).
Definition pub (t : string) (o : list (string * value)) : publish :=
  Publish 77 (Some o) t (Some [VStr "hi"]) None.
Definition as_prefix : list (string * value) := [("match", VStr "prefix")]%string.
Definition as_wildcard : list (string * value) := [("match", VStr "wildcard")]%string.

Definition history (l : list bop) : bhist := map (pair o0) l.
Definition outs_of (h : bhist) : list bout := match brun new_broker h with Ret _ l => l | Crash _ => [] end.
Definition final (h : bhist) : broker := match brun new_broker h with Ret b _ => b | Crash _ => new_broker end.

(** Two subscribers of a topic, one of them leaves. *)
Definition h_two : bhist := history
  [BAdd (sess 1); BAdd (sess 2); BAdd (sess 3); bsub 1 10 "a.b" []; bsub 2 11 "a.b" [];
   bsub 3 12 "a" as_prefix; bsub 3 13 "x.*" as_wildcard].
(** Two subscribers of a prefix. *)
Definition h_prefix : bhist := history
  [BAdd (sess 1); BAdd (sess 2); bsub 1 10 "a" as_prefix; bsub 2 11 "a" as_prefix].
(** An exact subscriber first, then a prefix subscriber of the same topic. *)
Definition h_mixed : bhist := history
  [BAdd (sess 1); BAdd (sess 2); bsub 1 10 "a" []; bsub 2 11 "a" as_prefix].

Lemma run_is h l : outs_of h = l -> brun new_broker h = Ret (final h) l.
Proof.
  intros <-. unfold outs_of, final. destruct (broker_never_panics h) as (b & outs & -> & _). done.
Qed.
