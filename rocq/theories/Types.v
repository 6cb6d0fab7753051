(** /repo/types.go, and the radix tree of hashicorp/go-immutable-radix. *)
From Verif Require Import Prelude Value Msg.

(** SessionDetails and NewSessionDetails, types.go:8-40.  createdAt (the wall
    clock) is left out. *)
Record session_details : Type := SessionDetails {
  se_id : N; se_realm : string; se_authid : string; se_authrole : string;
  se_authmethod : string; se_static : bool; se_roles : gomap; se_authextra : gomap }.
Definition new_session_details (id : N) (realm authid authrole authmethod : string)
  (static : bool) (roles extra : gomap) : session_details :=
  SessionDetails id realm authid authrole authmethod static (or_empty roles) (or_empty extra).

(** MessageWithRecipient, types.go:78-81: the message and the session it is for. *)
Notation outmsg := (message * N)%type.

(** What the runtime chooses in one call: the iteration orders of (up to) two
    different maps and the result of rand.Intn before reduction. *)
Record oracle : Type := Oracle { o_first : shuffle; o_second : shuffle; o_rand : nat }.

(** iradix.Tree[*T]: a finite map from byte strings to pointers.  LongestPrefix
    walks down from the root and returns the deepest leaf on the path of the
    query: the longest stored key that is a prefix of the query, the empty key
    included. *)
Fixpoint longest_prefix_upto (t : gmap string N) (q : string) (n : nat) : option N :=
  match t !! substring 0 n q with
  | Some l => Some l
  | None => match n with O => None | S n' => longest_prefix_upto t q n' end
  end.
Definition longest_prefix (t : gmap string N) (q : string) : option N :=
  longest_prefix_upto t q (String.length q).
