(** Properties C95 and C96: the features announced in the handshake, and the
    session details made of it. *)
From Verif Require Import Prelude Value Msg Types IdGen Auth Acceptor Joiner Dealer Broker Session BaseSpec
  WireSpec MsgSpec AuthSpec HandshakeSpec BrokerSpec BrokerEx FeatureSpec FeatureProofs AuthEx.

Local Open Scope string_scope.
Local Open Scope N_scope.

(** ** C95 *)
Theorem C95_client_announces : forall (PL : Platform) realm static ops j t h,
  joiner_run ops (new_joiner realm static, []) = Ret (j, t) tt -> JHello (Ok (MHello h)) ∈ t ->
  announces_exactly (he_roles h) client_role_names client_features
  /\ sent (MHello h) (fun m => exists h', m = MHello h'
       /\ announces_exactly (he_roles h') client_role_names client_features).
Proof. intros. by eapply hello_announces. Qed.
Theorem C95_router_announces : forall (CR : Crypto) static ins a tr x w,
  acceptor_run ins (new_acceptor static, []) = Ret (a, tr) x -> AMade (Ok (MWelcome w)) ∈ tr ->
  exists roles, mget (we_details w) "roles" = VMap roles
    /\ announces_exactly roles router_role_names router_features.
Proof. intros. by eapply welcome_announces. Qed.
Theorem C95_client_learns : forall (PL : Platform) (CR : Crypto) static ins a tr x w realm jstatic ops j t c,
  acceptor_run ins (new_acceptor static, []) = Ret (a, tr) x -> AMade (Ok (MWelcome w)) ∈ tr ->
  we_session w < two53 ->
  joiner_run ops (new_joiner realm jstatic, []) = Ret (j, t) tt -> awaiting t ->
  sent (MWelcome w) (fun m => exists j' d, joiner_receive c j m = Ret j' (Ok None)
    /\ joiner_details j' = Ok d /\ announces_exactly (se_roles d) router_role_names router_features).
Proof. intros. by eapply welcome_tells. Qed.

(** Announced but not there: a dealer refuses every CANCEL and a session
    neither sends CANCEL nor accepts INTERRUPT; the broker sends a publisher
    its own event whatever exclude_me says. *)
Theorem C95_canceling_refuted :
  ("dealer", "call_canceling") ∈ router_features /\ ("callee", "call_canceling") ∈ client_features
  /\ (forall o d sid c, exists e, d_receive_message o d sid (MCancel c) = Ret d (DErr e))
  /\ (forall s data c, exists e, sstep s (SSend (Ok data) (MCancel c)) = (s, Err e))
  /\ (forall s i, exists e, sstep s (SReceiveMessage (MInterrupt i)) = (s, Err e)).
Proof.
  split; [repeat constructor|]. split; [repeat constructor|].
  split; [intros; eexists; reflexivity|]. split; intros; eexists; reflexivity.
Qed.
Theorem C95_exclusion_refuted :
  ("broker", "publisher_exclusion") ∈ router_features
  /\ exists h sid o p b e rs,
       brun new_broker (h ++ [(o, BPublish sid p)])%list = Ret b (outs_of h ++ [BPubl (Some e) rs None])%list
       /\ mget (pu_options p) "exclude_me" = VBool true /\ sid ∈ rs.
Proof.
  split; [repeat constructor|].
  exists h_two, 1, o0, (pub "a.b" [("exclude_me", VBool true)]%string).
  eexists _, (Event 1 4 (Some []) (Some [VStr "hi"]) None), [1; 2].
  split; [apply run_is; vm_compute; reflexivity|]. split; [reflexivity|]. set_solver.
Qed.

(** ** C96 *)
Theorem C96_client_details : forall realm static ops j t d,
  joiner_run ops (new_joiner realm static, []) = Ret (j, t) tt -> joiner_details j = Ok d ->
  se_static d = static /\ se_authextra d = Some []
  /\ exists w, last_welcome t = Some w /\ se_roles d = roles_of w.
Proof. exact joiner_reports. Qed.
Theorem C96_router_details : forall (CR : Crypto) static ins a tr x d,
  acceptor_run ins (new_acceptor static, []) = Ret (a, tr) x -> acceptor_details a = Ok d ->
  se_static d = static
  /\ announces_exactly (se_roles d) router_role_names router_features
  /\ exists m, welcomed_by tr = Some m /\ se_authextra d = extra_of m.
Proof. intros. by eapply acceptor_reports. Qed.

(** A ticket handshake, over a serializer that is static on the router's side. *)
Definition details_ex : acceptor * list aevent :=
  match acceptor_run (CR := toy)
          (map (fun m => (toy_env, m))
             [MHello (toy_hello ["ticket"]);
              MAuthenticate (Authenticate "open sesame" (Some [("device", VStr "d1")]))])
          (new_acceptor true, []) with
  | Ret s _ => s
  | Crash _ => (new_acceptor false, [])
  end.
Example C96_ex :
  match acceptor_details (fst details_ex) with
  | Ok d => se_id d = 77 /\ se_static d = true /\ se_authextra d = Some [("device", VStr "d1")]
            /\ mget (se_roles d) "dealer" <> VNil /\ mget (se_roles d) "caller" = VNil
  | _ => False
  end.
Proof. vm_compute. repeat split; discriminate. Qed.
Example C95_ex :
  match snd details_ex with
  | AMade (Ok (MWelcome w)) :: _ =>
      let c := new_ticket "alice" "open sesame" None in
      match joiner_run [(c, JSendHello true); (c, JReceive (MWelcome w))] (new_joiner "realm1" false, []) with
      | Ret (j, t) _ =>
          (exists h, JHello (Ok (MHello h)) ∈ t) /\ last_welcome t = Some w /\ we_session w = 77
          /\ match joiner_details j with
             | Ok d => se_static d = false
                 /\ announces_exactly (se_roles d) router_role_names router_features
             | _ => False
             end
      | Crash _ => False
      end
  | _ => False
  end.
Proof.
  vm_compute. split; [eexists; apply elem_of_list_further, elem_of_list_here|].
  split; [reflexivity|]. split; [reflexivity|]. split; [reflexivity|exact router_announces].
Qed.

(** * Assumptions *)
Print Assumptions C95_client_announces.
Print Assumptions C95_router_announces.
Print Assumptions C95_client_learns.
Print Assumptions C95_canceling_refuted.
Print Assumptions C95_exclusion_refuted.
Print Assumptions C96_client_details.
Print Assumptions C96_router_details.
