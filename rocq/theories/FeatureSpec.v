(** What HELLO and WELCOME announce: the dictionary under "roles" has an entry
    for each role, whose "features" name what the role supports. *)
From Verif Require Import Prelude Value Msg Acceptor.

Local Open Scope string_scope.

Definition has_role (roles : gomap) (role : string) : Prop :=
  exists m fs, mget roles role = VMap m /\ mget m "features" = VMap (Some fs).
Definition announces (roles : gomap) (role feature : string) : Prop :=
  exists m fs, mget roles role = VMap m /\ mget m "features" = VMap (Some fs)
    /\ mget (Some fs) feature = VBool true.

(** These roles and these features, and no others. *)
Definition announces_exactly (roles : gomap) (rs : list string) (l : list (string * string)) : Prop :=
  (forall r, has_role roles r <-> r ∈ rs) /\ (forall r f, announces roles r f <-> (r, f) ∈ l).

Definition client_role_names : list string := ["caller"; "callee"; "publisher"; "subscriber"].
Definition client_features : list (string * string) :=
  [("caller", "progressive_call_invocations");
   ("callee", "progressive_call_invocations"); ("callee", "progressive_call_results");
   ("callee", "call_canceling");
   ("publisher", "publisher_exclusion")].

Definition router_role_names : list string := ["dealer"; "broker"].
Definition router_features : list (string * string) :=
  [("dealer", "progressive_call_invocations"); ("dealer", "call_canceling");
   ("broker", "publisher_exclusion")].

(** The roles a WELCOME names. *)
Definition roles_of (w : welcome) : gomap :=
  match mget (we_details w) "roles" with VMap (Some r) => Some r | _ => Some [] end.

(** What the router keeps of AUTHENTICATE's extra; nothing after HELLO. *)
Definition extra_of (m : message) : gomap :=
  match m with MAuthenticate au => or_empty (au_extra au) | _ => Some [] end.

(** The message whose answer was the WELCOME. *)
Fixpoint welcomed_by (t : list aevent) : option message :=
  match t with
  | [] => None
  | AMade (Ok (MWelcome _)) :: t' =>
      (fix last_got (t : list aevent) : option message :=
         match t with [] => None | AGot m :: _ => Some m | _ :: t => last_got t end) t'
  | _ :: t' => welcomed_by t'
  end.
