(** Notions shared by the specifications of the broker and the dealer. *)
From Verif Require Import Prelude Value.

(** The match policy asked for by a SUBSCRIBE or REGISTER. *)
Inductive policy : Type := PExact | PPrefix | PWildcard.
Global Instance policy_eq_dec : EqDecision policy.
Proof. solve_decision. Defined.
Definition requested_policy (options : gomap) : policy :=
  match mget options "match" with
  | VStr s => if String.eqb s "prefix" then PPrefix
              else if String.eqb s "wildcard" then PWildcard else PExact
  | _ => PExact
  end.

Definition is_prefix (p s : string) : Prop := exists x, s = (p ++ x)%string.
