(** What ends an invocation. *)
From Verif Require Import Prelude Value Msg Types Dealer DealerSpec.

Local Open Scope string_scope.

(** A YIELD that is not a progressive one, or an ERROR, for invocation [i]. *)
Definition last_answer (m : message) (i : N) : Prop :=
  match m with
  | MYield y => yi_request y = i /\ says (yi_options y) "progress" = false
  | MError x => er_request x = i /\ er_type x = tInvocation
  | _ => False
  end.
