(** /repo/idgen.go *)
From Verif Require Import Prelude.

(** const maxID, idgen.go:12. *)
Definition max_id : N := two53.

(** SessionScopeIDGenerator.NextID, idgen.go:30-40, on the counter field:
    returns (returned id, new counter); both are the same number. *)
Definition next_id (c : N) : N :=
  let c := if c =? max_id then 0 else c in c + 1.

(** GenerateID, idgen.go:20-23, as a function of the value [r] drawn by
    rand.Int63n(maxID), which lies in [0, maxID). *)
Definition generate_id (r : N) : N := r.
