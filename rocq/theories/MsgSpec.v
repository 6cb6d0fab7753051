(** The WAMP message table and what it means for a decoded list to conform to
    it, written independently of /repo's validators. *)
From Verif Require Import Prelude Value Msg BaseSpec WireSpec.

(** What a slot of a message holds. *)
Inductive slot : Type := SId | SStr | SDict | SArgs | SKwArgs.

(** One row per message: code, minimal and maximal length of the list, slots
    after the code.  From the WAMP specification, message by message. *)
Record row : Type := Row { r_code : N; r_min : nat; r_max : nat; r_slots : list slot }.
Definition wamp_table : list row :=
  [ Row 1 2 3 [SStr; SDict];                          (* HELLO realm details *)
    Row 2 3 3 [SId; SDict];                           (* WELCOME session details *)
    Row 3 3 5 [SDict; SStr; SArgs; SKwArgs];          (* ABORT details reason *)
    Row 4 3 3 [SStr; SDict];                          (* CHALLENGE method extra *)
    Row 5 2 3 [SStr; SDict];                          (* AUTHENTICATE signature extra *)
    Row 6 3 3 [SDict; SStr];                          (* GOODBYE details reason *)
    Row 8 5 7 [SId; SId; SDict; SStr; SArgs; SKwArgs];(* ERROR type request details uri *)
    Row 16 4 6 [SId; SDict; SStr; SArgs; SKwArgs];     (* PUBLISH request options topic *)
    Row 17 3 3 [SId; SId];                             (* PUBLISHED request publication *)
    Row 32 4 4 [SId; SDict; SStr];                     (* SUBSCRIBE request options topic *)
    Row 33 3 3 [SId; SId];                             (* SUBSCRIBED request subscription *)
    Row 34 3 3 [SId; SId];                             (* UNSUBSCRIBE request subscription *)
    Row 35 2 2 [SId];                                  (* UNSUBSCRIBED request *)
    Row 36 4 6 [SId; SId; SDict; SArgs; SKwArgs];      (* EVENT subscription publication details *)
    Row 48 4 6 [SId; SDict; SStr; SArgs; SKwArgs];     (* CALL request options procedure *)
    Row 49 3 3 [SId; SDict];                           (* CANCEL request options *)
    Row 50 3 5 [SId; SDict; SArgs; SKwArgs];           (* RESULT request details *)
    Row 64 4 4 [SId; SDict; SStr];                     (* REGISTER request options procedure *)
    Row 65 3 3 [SId; SId];                             (* REGISTERED request registration *)
    Row 66 3 3 [SId; SId];                             (* UNREGISTER request registration *)
    Row 67 2 2 [SId];                                  (* UNREGISTERED request *)
    Row 68 4 6 [SId; SId; SDict; SArgs; SKwArgs];      (* INVOCATION request registration details *)
    Row 69 3 3 [SId; SDict];                           (* INTERRUPT request options *)
    Row 70 3 5 [SId; SDict; SArgs; SKwArgs]            (* YIELD request options *)
  ].

(** The contents of one field of a message. *)
Inductive fld : Type :=
| FId (n : N) | FStr (s : string) | FDict (m : gomap) | FArgs (a : goslice) | FKwArgs (k : gomap).

(** The fields of a message, in table order. HELLO's details are decoded
    further and handled separately. *)
Definition msg_fields (m : message) : list fld :=
  match m with
  | MHello h => [FStr (he_realm h)]
  | MWelcome w => [FId (we_session w); FDict (we_details w)]
  | MAbort a => [FDict (ab_details a); FStr (ab_reason a); FArgs (ab_args a); FKwArgs (ab_kwargs a)]
  | MChallenge c => [FStr (ch_method c); FDict (ch_extra c)]
  | MAuthenticate a => [FStr (au_signature a); FDict (au_extra a)]
  | MGoodbye g => [FDict (gb_details g); FStr (gb_reason g)]
  | MError e => [FId (er_type e); FId (er_request e); FDict (er_details e); FStr (er_uri e);
                 FArgs (er_args e); FKwArgs (er_kwargs e)]
  | MPublish p => [FId (pu_request p); FDict (pu_options p); FStr (pu_topic p);
                   FArgs (pu_args p); FKwArgs (pu_kwargs p)]
  | MPublished p => [FId (pd_request p); FId (pd_publication p)]
  | MSubscribe s => [FId (su_request s); FDict (su_options s); FStr (su_topic s)]
  | MSubscribed s => [FId (sd_request s); FId (sd_subscription s)]
  | MUnsubscribe u => [FId (us_request u); FId (us_subscription u)]
  | MUnsubscribed u => [FId (ud_request u)]
  | MEvent e => [FId (ev_subscription e); FId (ev_publication e); FDict (ev_details e);
                 FArgs (ev_args e); FKwArgs (ev_kwargs e)]
  | MCall c => [FId (ca_request c); FDict (ca_options c); FStr (ca_procedure c);
                FArgs (ca_args c); FKwArgs (ca_kwargs c)]
  | MCancel c => [FId (cn_request c); FDict (cn_options c)]
  | MResult r => [FId (re_request r); FDict (re_details r); FArgs (re_args r); FKwArgs (re_kwargs r)]
  | MRegister r => [FId (rg_request r); FDict (rg_options r); FStr (rg_procedure r)]
  | MRegistered r => [FId (rd_request r); FId (rd_registration r)]
  | MUnregister u => [FId (ur_request u); FId (ur_registration u)]
  | MUnregistered u => [FId (un_request u)]
  | MInvocation i => [FId (in_request i); FId (in_registration i); FDict (in_details i);
                      FArgs (in_args i); FKwArgs (in_kwargs i)]
  | MInterrupt i => [FId (it_request i); FDict (it_options i)]
  | MYield y => [FId (yi_request y); FDict (yi_options y); FArgs (yi_args y); FKwArgs (yi_kwargs y)]
  end.

(** The binary-payload part, which is never on the wire. *)
Definition msg_bin (m : message) : binpay :=
  match m with
  | MCall c => ca_bin c | MResult r => re_bin r | MInvocation i => in_bin i
  | MYield y => yi_bin y | _ => no_bin
  end.

Section conforms.
Context {PL : Platform}.

(** How a Go value is read as an id: an integer modulo 2^64 (so itself when it
    is not negative), a float by its integer part, or, if that is not a uint64,
    by whatever the platform makes of it.  int16 is not read (see C05). *)
Definition reads_id (v : value) (n : N) : Prop :=
  match v with
  | VInt KInt16 _ => False
  | VInt _ z => (Z.of_N n = z mod 2 ^ 64)%Z
  | VF32 f | VF64 f =>
      (float_trunc f (Z.of_N n) /\ (Z.of_N n < 2 ^ 64)%Z)
      \/ (~ (exists z, float_trunc f z /\ 0 <= z < 2 ^ 64)%Z /\ n = f2u_oor f)
  | _ => False
  end.

(** Slot contents against a field: what a single list element must be. *)
Definition slot_holds (s : slot) (v : value) (f : fld) : Prop :=
  match s, f with
  | SId, FId n => reads_id v n
  | SStr, FStr x => v = VStr x
  | SDict, FDict m => v = VMap m
  | SArgs, FArgs a => v = VSlice a
  | SKwArgs, FKwArgs k => v = VMap k
  | _, _ => False
  end.

(** An absent optional slot. *)
Definition slot_absent (s : slot) (f : fld) : Prop :=
  (s = SArgs /\ f = FArgs None) \/ (s = SKwArgs /\ f = FKwArgs None).

(** The list elements after the type code against the slots: elements fill the
    slots from the left; slots beyond the end of the list must be optional. *)
Inductive slots_hold : list slot -> list value -> list fld -> Prop :=
| sh_nil : slots_hold [] [] []
| sh_cons s ss v vs f fs :
    slot_holds s v f -> slots_hold ss vs fs -> slots_hold (s :: ss) (v :: vs) (f :: fs)
| sh_absent s ss f fs :
    slot_absent s f -> slots_hold ss [] fs -> slots_hold (s :: ss) [] (f :: fs).

(** HELLO's details: absent or ill-typed entries default, except that a list
    of authmethods must contain only strings. *)
Definition hello_details (d : gomap) (h : hello) : Prop :=
  he_authid h = match mget d "authid" with VStr s => s | _ => "" end
  /\ he_authextra h = match mget d "authextra" with VMap m => m | _ => Some [] end
  /\ he_roles h = match mget d "roles" with VMap m => m | _ => Some [] end
  /\ exists ms, he_authmethods h = Some ms /\
       match mget d "authmethods" with
       | VSlice (Some l) => l = map VStr ms
       | _ => ms = []
       end.

(** The decoded list [code; v1; ...] is the message [m]. *)
Definition list_is_message (l : list value) (m : message) : Prop :=
  exists v vs lo hi ss,
    l = v :: vs
    /\ Row (mtype m) lo hi ss ∈ wamp_table
    /\ reads_id v (mtype m)
    /\ (lo <= length l <= hi)%nat
    /\ msg_bin m = no_bin
    /\ match m with
       | MHello h => exists v2 d, vs = [VStr (he_realm h); v2] /\ v2 = VMap d /\ hello_details d h
       | _ => slots_hold ss vs (msg_fields m)
       end.

End conforms.

(** * Round trip over the wire *)

(** Received field against sent field: ids and strings are equal, dictionaries
    and lists equal up to the transport. *)
Definition fld_same (f f' : fld) : Prop :=
  match f, f' with
  | FId n, FId n' => n = n'
  | FStr s, FStr s' => s = s'
  | FDict (Some m), FDict (Some m') => wire_map m m'
  | FArgs None, FArgs None => True
  | FArgs None, FArgs (Some l') => l' = []
  | FArgs (Some l), FArgs (Some l') => Forall2 wire l l'
  | FKwArgs None, FKwArgs None => True
  | FKwArgs (Some m), FKwArgs (Some m') => wire_map m m'
  | _, _ => False
  end.

(** Args absent on the sending side stay absent unless kwargs are present. *)
Definition args_absent_ok (fs fs' : list fld) : Prop :=
  FArgs None ∈ fs -> FKwArgs None ∈ fs -> FArgs None ∈ fs'.

Definition hello_same (h h' : hello) : Prop :=
  he_realm h' = he_realm h /\ he_authid h' = he_authid h
  /\ he_authmethods h' = Some (default [] (he_authmethods h))
  /\ (exists m', he_authextra h' = Some m' /\ wire_map (default [] (he_authextra h)) m')
  /\ (exists m', he_roles h' = Some m' /\ wire_map (default [] (he_roles h)) m').

Definition msg_same (m m' : message) : Prop :=
  match m, m' with
  | MHello h, MHello h' => hello_same h h'
  (* Marshal writes {} for an absent AUTHENTICATE extra *)
  | MAuthenticate a, MAuthenticate a' =>
      au_signature a' = au_signature a
      /\ exists x, au_extra a' = Some x /\ wire_map (default [] (au_extra a)) x
  | _, _ => mtype m = mtype m' /\ Forall2 fld_same (msg_fields m) (msg_fields m')
            /\ args_absent_ok (msg_fields m) (msg_fields m')
  end.

(** Messages a program can hand to a serializer: ids are uint64, mandatory
    dictionaries are non-nil (the constructors of ABORT, GOODBYE, ERROR, CALL,
    ... guarantee that; WELCOME and CHALLENGE take what they are given), and an
    ABORT with keyword arguments also has positional ones (see C11). *)
Definition fld_ok (f : fld) : Prop :=
  match f with
  | FId n => (Z.of_N n < two64)%Z
  | FDict m => m <> None
  | _ => True
  end.
Definition msg_ok (m : message) : Prop :=
  match m with
  | MHello _ | MAuthenticate _ => True
  | MAbort a => Forall fld_ok (msg_fields m) /\ (ab_kwargs a <> None -> ab_args a <> None)
  | _ => Forall fld_ok (msg_fields m)
  end.
