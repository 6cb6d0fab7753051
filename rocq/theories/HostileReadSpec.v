(** The calls that messages reply to. *)
From Verif Require Import Prelude Value Msg Types Dealer.

Local Open Scope N_scope.

(** The request ids of all replies to calls: progressive RESULTs, too. *)
Definition reply_ids (q : list message) : list N :=
  omap (fun m => match m with
                 | MResult x => Some (re_request x)
                 | MError x => if er_type x =? tCall then Some (er_request x) else None
                 | _ => None
                 end) q.
