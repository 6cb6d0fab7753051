(** What a message goes back to in the network of Hostile.v: the history alone
    says who had the router read what, through a Session or past it. *)
From Verif Require Import Prelude Value Msg IdGen Types PathMatch Broker Dealer Session Network.
From Verif Require Import BrokerSpec DealerSpec NetworkSpec Hostile.

Local Open Scope string_scope.
Local Open Scope N_scope.

(** Session [s] sent [m]; session [s] joined with details [d]. *)
Definition said (es : list hevent) (s : N) (m : message) : Prop :=
  HNet (NSend s m) ∈ es \/ exists o, HForge o s m ∈ es.
Definition joined (es : list hevent) (s : N) (d : session_details) : Prop :=
  HNet (NJoin d) ∈ es /\ se_id d = s.

(** After [before], the dealer read [m] from [s] and gave [a] to [c]. *)
Definition dealt (n : net) (before : dtrace) (s : N) (m : message) (a : message) (c : N) : Prop :=
  exists after, dtr n = (after ++ (DReceive s m, DMsg a c) :: before)%list.

(** Where message [a] for session [c] comes from.  Identities in it are those
    of the session that sent the message, as it joined; a RESULT or ERROR for
    a call comes from a YIELD or ERROR for an invocation that a CALL of [c]
    opened and nothing has closed since. *)
Definition traced (n : net) (es : list hevent) (c : N) (a : message) : Prop :=
  match a with
  | MSubscribed x => exists m, said es c (MSubscribe m) /\ sd_request x = su_request m
  | MUnsubscribed x => exists m, said es c (MUnsubscribe m) /\ ud_request x = us_request m
  | MPublished x => exists m, said es c (MPublish m) /\ pd_request x = pu_request m
                              /\ says (pu_options m) "acknowledge" = true
  | MRegistered x => exists m, said es c (MRegister m) /\ rd_request x = rg_request m
  | MUnregistered x => exists m, said es c (MUnregister m) /\ un_request x = ur_request m
  | MEvent e => exists s p pub disclose, said es s (MPublish p) /\ joined es s pub
      /\ e = Event (ev_subscription e) (ev_publication e)
               (Some (event_details disclose (pu_topic p) pub s)) (pu_args p) (pu_kwargs p)
  | MInvocation v => exists s call d who before, said es s (MCall call) /\ dealt n before s (MCall call) a c
      /\ joined es c d /\ (who = None \/ exists w, who = Some w /\ joined es s w)
      /\ v = invocation_for call (in_request v) (in_registration v) (invocation_details call s who) d
  | MResult x => exists call s y d before, said es c (MCall call) /\ said es s (MYield y)
      /\ dealt n before s (MYield y) a c
      /\ open_inv before (yi_request y) c (ca_request call) (says (ca_options call) "receive_progress")
      /\ joined es c d
      /\ x = result_for y (ca_request call)
               (says (ca_options call) "receive_progress" && says (yi_options y) "progress") d
  | MError x =>
      (exists call, said es c (MCall call) /\ a = refusal 48 (ca_request call) "wamp.error.no_such_procedure")
      \/ (exists reg, said es c (MRegister reg) /\ a = refusal 64 (rg_request reg) "wamp.error.procedure_already_exists")
      \/ exists call s y before, said es c (MCall call) /\ said es s (MError y)
         /\ dealt n before s (MError y) a c /\ er_type y = 68
         /\ open_inv before (er_request y) c (ca_request call) (says (ca_options call) "receive_progress")
         /\ x = Error 48 (ca_request call) (or_empty (er_details y)) (er_uri y) (er_args y) (er_kwargs y)
  | _ => False
  end.
