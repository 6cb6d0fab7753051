(** What an event that was read behind serializers has of the one given out,
    and of the publication. *)
From Verif Require Import Prelude Value Msg MsgSpec Network NetworkWire.

Definition event_like (e e' : event) : Prop :=
  ev_publication e = ev_publication e'
  /\ fld_like (FArgs (ev_args e)) (FArgs (ev_args e')) /\ fld_like (FKwArgs (ev_kwargs e)) (FKwArgs (ev_kwargs e')).
Definition carries (p : publish) (e : event) : Prop :=
  fld_like (FArgs (pu_args p)) (FArgs (ev_args e)) /\ fld_like (FKwArgs (pu_kwargs p)) (FKwArgs (ev_kwargs e)).
