(** WAMP messages: /repo/messages/*.go and /repo/serializers/helpers.go.

    Every message type is a record of its fields.  The Go types hold their
    fields behind an interface (XxxFields) so that a caller may plug in its own
    implementation with NewXxxWithFields; the model takes the values those
    accessors return. *)
From Verif Require Import Prelude Value.

(** messages.BinaryPayload, messages/message.go:9-13. *)
Record binpay : Type := BinPay {
  bp_binary : bool; bp_serializer : N; bp_payload : string }.
Definition no_bin : binpay := BinPay false 0 "".

(** Message type codes: the MessageTypeXxx constants, first lines of each
    file of /repo/messages. *)
Definition tHello : N := 1.
Definition tWelcome : N := 2.
Definition tAbort : N := 3.
Definition tChallenge : N := 4.
Definition tAuthenticate : N := 5.
Definition tGoodbye : N := 6.
Definition tError : N := 8.
Definition tPublish : N := 16.
Definition tPublished : N := 17.
Definition tSubscribe : N := 32.
Definition tSubscribed : N := 33.
Definition tUnsubscribe : N := 34.
Definition tUnsubscribed : N := 35.
Definition tEvent : N := 36.
Definition tCall : N := 48.
Definition tCancel : N := 49.
Definition tResult : N := 50.
Definition tRegister : N := 64.
Definition tRegistered : N := 65.
Definition tUnregister : N := 66.
Definition tUnregistered : N := 67.
Definition tInvocation : N := 68.
Definition tInterrupt : N := 69.
Definition tYield : N := 70.

(** messages/hello.go:30-36. *)
Record hello := Hello { he_realm : string; he_authid : string;
  he_authmethods : option (list string); he_authextra : gomap; he_roles : gomap }.
(** messages/welcome.go:23-26. *)
Record welcome := Welcome { we_session : N; we_details : gomap }.
(** messages/abort.go:27-32. *)
Record abort := Abort { ab_details : gomap; ab_reason : string;
  ab_args : goslice; ab_kwargs : gomap }.
(** messages/challenge.go:23-26. *)
Record challenge := Challenge { ch_method : string; ch_extra : gomap }.
(** messages/authenticate.go:25-28. *)
Record authenticate := Authenticate { au_signature : string; au_extra : gomap }.
(** messages/goodbye.go:23-26. *)
Record goodbye := Goodbye { gb_details : gomap; gb_reason : string }.
(** messages/error.go:33-40 (never binary: error.go:66-76). *)
Record error := Error { er_type : N; er_request : N; er_details : gomap;
  er_uri : string; er_args : goslice; er_kwargs : gomap }.
(** messages/publish.go:31-37 (never binary). *)
Record publish := Publish { pu_request : N; pu_options : gomap; pu_topic : string;
  pu_args : goslice; pu_kwargs : gomap }.
(** messages/published.go:23-26. *)
Record published := Published { pd_request : N; pd_publication : N }.
(** messages/subscribe.go:25-29. *)
Record subscribe := Subscribe { su_request : N; su_options : gomap; su_topic : string }.
(** messages/subscribed.go:23-26. *)
Record subscribed := Subscribed { sd_request : N; sd_subscription : N }.
(** messages/unsubscribe.go:23-26. *)
Record unsubscribe := Unsubscribe { us_request : N; us_subscription : N }.
(** messages/unsubscribed.go:21-23. *)
Record unsubscribed := Unsubscribed { ud_request : N }.
(** messages/event.go:31-37 (never binary). *)
Record event := Event { ev_subscription : N; ev_publication : N; ev_details : gomap;
  ev_args : goslice; ev_kwargs : gomap }.
(** messages/call.go:31-41. *)
Record call := Call { ca_request : N; ca_options : gomap; ca_procedure : string;
  ca_args : goslice; ca_kwargs : gomap; ca_bin : binpay }.
(** messages/cancel.go:23-26. *)
Record cancel := Cancel { cn_request : N; cn_options : gomap }.
(** messages/result.go:29-38. *)
Record result := Result { re_request : N; re_details : gomap;
  re_args : goslice; re_kwargs : gomap; re_bin : binpay }.
(** messages/register.go:25-29. *)
Record register := Register { rg_request : N; rg_options : gomap; rg_procedure : string }.
(** messages/registered.go:23-26. *)
Record registered := Registered { rd_request : N; rd_registration : N }.
(** messages/unregister.go:23-26. *)
Record unregister := Unregister { ur_request : N; ur_registration : N }.
(** messages/unregistered.go:21-23. *)
Record unregistered := Unregistered { un_request : N }.
(** messages/invocation.go:33-43. *)
Record invocation := Invocation { in_request : N; in_registration : N; in_details : gomap;
  in_args : goslice; in_kwargs : gomap; in_bin : binpay }.
(** messages/interrupt.go:23-26. *)
Record interrupt := Interrupt { it_request : N; it_options : gomap }.
(** messages/yield.go:29-38. *)
Record yield := Yield { yi_request : N; yi_options : gomap;
  yi_args : goslice; yi_kwargs : gomap; yi_bin : binpay }.

(** The interface messages.Message, messages/message.go:3-7. *)
Inductive message : Type :=
| MHello (m : hello) | MWelcome (m : welcome) | MAbort (m : abort)
| MChallenge (m : challenge) | MAuthenticate (m : authenticate) | MGoodbye (m : goodbye)
| MError (m : error) | MPublish (m : publish) | MPublished (m : published)
| MSubscribe (m : subscribe) | MSubscribed (m : subscribed)
| MUnsubscribe (m : unsubscribe) | MUnsubscribed (m : unsubscribed)
| MEvent (m : event) | MCall (m : call) | MCancel (m : cancel) | MResult (m : result)
| MRegister (m : register) | MRegistered (m : registered)
| MUnregister (m : unregister) | MUnregistered (m : unregistered)
| MInvocation (m : invocation) | MInterrupt (m : interrupt) | MYield (m : yield).

(** The Type() methods of the 24 types. *)
Definition mtype (m : message) : N :=
  match m with
  | MHello _ => tHello | MWelcome _ => tWelcome | MAbort _ => tAbort
  | MChallenge _ => tChallenge | MAuthenticate _ => tAuthenticate | MGoodbye _ => tGoodbye
  | MError _ => tError | MPublish _ => tPublish | MPublished _ => tPublished
  | MSubscribe _ => tSubscribe | MSubscribed _ => tSubscribed
  | MUnsubscribe _ => tUnsubscribe | MUnsubscribed _ => tUnsubscribed
  | MEvent _ => tEvent | MCall _ => tCall | MCancel _ => tCancel | MResult _ => tResult
  | MRegister _ => tRegister | MRegistered _ => tRegistered
  | MUnregister _ => tUnregister | MUnregistered _ => tUnregistered
  | MInvocation _ => tInvocation | MInterrupt _ => tInterrupt | MYield _ => tYield
  end.

(** The nil-map defaulting shared by the NewXxx constructors
    (e.g. messages/call.go:80-82). *)
Definition or_empty (m : gomap) : gomap :=
  match m with None => Some [] | _ => m end.

(** Constructors used by broker, dealer, acceptor and joiner.
    NewAbort abort.go:54-65, NewError error.go:84-98, NewEvent event.go:77-89,
    NewResult result.go:72-78, NewResultBinary result.go:84-98,
    NewInvocation invocation.go:81-95, NewInvocationBinary invocation.go:101-118.
    NewCall, NewYield, NewRegister, NewSubscribe, NewPublish, NewCancel,
    NewInterrupt and NewGoodBye default their map the same way. *)
Definition new_abort (d : gomap) (reason : string) (a : goslice) (k : gomap) : abort :=
  Abort (or_empty d) reason a k.
Definition new_error (ty rid : N) (d : gomap) (uri : string) (a : goslice) (k : gomap) : error :=
  Error ty rid (or_empty d) uri a k.
Definition new_event (sub pub : N) (d : gomap) (a : goslice) (k : gomap) : event :=
  Event sub pub (or_empty d) a k.
Definition new_result (rid : N) (d : gomap) (a : goslice) (k : gomap) : result :=
  Result rid (or_empty d) a k no_bin.
Definition new_invocation (rid reg : N) (d : gomap) (a : goslice) (k : gomap) : invocation :=
  Invocation rid reg (or_empty d) a k no_bin.
(** options["x_payload_serializer"] = serializer on a defaulted map. *)
Definition set_x_payload (m : gomap) (ser : N) : gomap :=
  match or_empty m with
  | Some l => Some (assoc_set "x_payload_serializer" (VInt KUint64 (Z.of_N ser)) l)
  | None => None
  end.
Definition new_result_binary (rid : N) (d : gomap) (payload : string) (ser : N) : result :=
  Result rid (set_x_payload d ser) None None (BinPay true ser payload).
Definition new_invocation_binary (rid reg : N) (d : gomap) (payload : string) (ser : N)
  : invocation :=
  Invocation rid reg (set_x_payload d ser) None None (BinPay true ser payload).
Definition new_call (rid : N) (o : gomap) (p : string) (a : goslice) (k : gomap) : call :=
  Call rid (or_empty o) p a k no_bin.
Definition new_call_binary (rid : N) (o : gomap) (p payload : string) (ser : N) : call :=
  Call rid (set_x_payload o ser) p None None (BinPay true ser payload).
Definition new_yield (rid : N) (o : gomap) (a : goslice) (k : gomap) : yield :=
  Yield rid (or_empty o) a k no_bin.
Definition new_yield_binary (rid : N) (o : gomap) (payload : string) (ser : N) : yield :=
  Yield rid (set_x_payload o ser) None None (BinPay true ser payload).
Definition new_register (rid : N) (o : gomap) (p : string) : register :=
  Register rid (or_empty o) p.
Definition new_subscribe (rid : N) (o : gomap) (t : string) : subscribe :=
  Subscribe rid (or_empty o) t.
Definition new_publish (rid : N) (o : gomap) (t : string) (a : goslice) (k : gomap) : publish :=
  Publish rid (or_empty o) t a k.

(** * Marshal *)

Definition vid (n : N) : value := VInt KUint64 (Z.of_N n).

(** The args/kwargs suffix of Marshal in error.go:125-135, publish.go:115-125,
    event.go:115-125, call.go:137-147, result.go:123-133, invocation.go:144-154
    and yield.go:123-133. *)
Definition tail_args (a : goslice) (k : gomap) : list value :=
  (match a with Some l => [VSlice (Some l)] | None => [] end) ++
  (match k with
   | Some kw => (match a with None => [VSlice (Some [])] | Some _ => [] end) ++ [VMap (Some kw)]
   | None => []
   end).

(** The suffix of Abort.Marshal, abort.go:92-102: here a missing args slot is
    filled with the nil slice itself. *)
Definition tail_args_abort (a : goslice) (k : gomap) : list value :=
  (match a with Some l => [VSlice (Some l)] | None => [] end) ++
  (match k with
   | Some kw => (match a with None => [VSlice None] | Some _ => [] end) ++ [VMap (Some kw)]
   | None => []
   end).

(** The 24 Marshal methods. *)
Definition marshal (m : message) : list value :=
  match m with
  | MHello h =>  (* hello.go:115-129 *)
      [vid tHello; VStr (he_realm h);
       VMap (Some [("authid", VStr (he_authid h)); ("authmethods", VStrs (he_authmethods h));
                   ("authextra", VMap (or_empty (he_authextra h)));
                   ("roles", VMap (he_roles h))])]
  | MWelcome w => [vid tWelcome; vid (we_session w); VMap (we_details w)]  (* welcome.go:61-63 *)
  | MAbort a =>  (* abort.go:89-105 *)
      [vid tAbort; VMap (ab_details a); VStr (ab_reason a)]
        ++ tail_args_abort (ab_args a) (ab_kwargs a)
  | MChallenge c =>  (* challenge.go:63-65 *)
      [vid tChallenge; VStr (ch_method c); VMap (ch_extra c)]
  | MAuthenticate a =>  (* authenticate.go:68-75 *)
      [vid tAuthenticate; VStr (au_signature a); VMap (or_empty (au_extra a))]
  | MGoodbye g => [vid tGoodbye; VMap (gb_details g); VStr (gb_reason g)]  (* goodbye.go:65-67 *)
  | MError e =>  (* error.go:122-138 *)
      [vid tError; vid (er_type e); vid (er_request e); VMap (er_details e); VStr (er_uri e)]
        ++ tail_args (er_args e) (er_kwargs e)
  | MPublish p =>  (* publish.go:112-128 *)
      [vid tPublish; vid (pu_request p); VMap (pu_options p); VStr (pu_topic p)]
        ++ tail_args (pu_args p) (pu_kwargs p)
  | MPublished p => [vid tPublished; vid (pd_request p); vid (pd_publication p)]  (* published.go:66-68 *)
  | MSubscribe s =>  (* subscribe.go:78-80 *)
      [vid tSubscribe; vid (su_request s); VMap (su_options s); VStr (su_topic s)]
  | MSubscribed s => [vid tSubscribed; vid (sd_request s); vid (sd_subscription s)]  (* subscribed.go:63-65 *)
  | MUnsubscribe u => [vid tUnsubscribe; vid (us_request u); vid (us_subscription u)]  (* unsubscribe.go:63-65 *)
  | MUnsubscribed u => [vid tUnsubscribed; vid (ud_request u)]  (* unsubscribed.go:56-58 *)
  | MEvent e =>  (* event.go:112-128 *)
      [vid tEvent; vid (ev_subscription e); vid (ev_publication e); VMap (ev_details e)]
        ++ tail_args (ev_args e) (ev_kwargs e)
  | MCall c =>  (* call.go:134-150 *)
      [vid tCall; vid (ca_request c); VMap (ca_options c); VStr (ca_procedure c)]
        ++ tail_args (ca_args c) (ca_kwargs c)
  | MCancel c => [vid tCancel; vid (cn_request c); VMap (cn_options c)]  (* cancel.go:70-72 *)
  | MResult r =>  (* result.go:120-136 *)
      [vid tResult; vid (re_request r); VMap (re_details r)]
        ++ tail_args (re_args r) (re_kwargs r)
  | MRegister r =>  (* register.go:74-76 *)
      [vid tRegister; vid (rg_request r); VMap (rg_options r); VStr (rg_procedure r)]
  | MRegistered r => [vid tRegistered; vid (rd_request r); vid (rd_registration r)]  (* registered.go:63-65 *)
  | MUnregister u => [vid tUnregister; vid (ur_request u); vid (ur_registration u)]  (* unregister.go:63-65 *)
  | MUnregistered u => [vid tUnregistered; vid (un_request u)]  (* unregistered.go:56-58 *)
  | MInvocation i =>  (* invocation.go:141-157 *)
      [vid tInvocation; vid (in_request i); vid (in_registration i); VMap (in_details i)]
        ++ tail_args (in_args i) (in_kwargs i)
  | MInterrupt i => [vid tInterrupt; vid (it_request i); VMap (it_options i)]  (* interrupt.go:67-69 *)
  | MYield y =>  (* yield.go:120-136 *)
      [vid tYield; vid (yi_request y); VMap (yi_options y)]
        ++ tail_args (yi_args y) (yi_kwargs y)
  end.

(** * Validation: messages/validator.go *)

(** The validator functions, validator.go:101-269. *)
Inductive vkind : Type :=
| VkArgs | VkSessionID | VkMessageType | VkRequestID | VkRegistrationID
| VkPublicationID | VkSubscriptionID | VkSignature | VkURI | VkRealm | VkAuthMethod
| VkReason | VkExtra | VkOptions | VkDetails | VkKwArgs.

(** messages.Fields, validator.go:23-51; the members no validator ever sets
    (AuthID, AuthRole, AuthMethods, AuthExtra, Roles) are left out. *)
Record fields : Type := MkFields {
  f_request : N; f_uri : string; f_args : goslice; f_kwargs : gomap;
  f_session : N; f_realm : string; f_authmethod : string; f_msgtype : N;
  f_signature : string; f_reason : string; f_extra : gomap; f_options : gomap;
  f_details : gomap; f_subscription : N; f_publication : N; f_registration : N }.

Definition empty_fields : fields :=
  MkFields 0 "" None None 0 "" "" 0 "" "" None None None 0 0 0.

Definition set_request x f := MkFields x (f_uri f) (f_args f) (f_kwargs f) (f_session f) (f_realm f) (f_authmethod f) (f_msgtype f) (f_signature f) (f_reason f) (f_extra f) (f_options f) (f_details f) (f_subscription f) (f_publication f) (f_registration f).
Definition set_uri x f := MkFields (f_request f) x (f_args f) (f_kwargs f) (f_session f) (f_realm f) (f_authmethod f) (f_msgtype f) (f_signature f) (f_reason f) (f_extra f) (f_options f) (f_details f) (f_subscription f) (f_publication f) (f_registration f).
Definition set_args x f := MkFields (f_request f) (f_uri f) x (f_kwargs f) (f_session f) (f_realm f) (f_authmethod f) (f_msgtype f) (f_signature f) (f_reason f) (f_extra f) (f_options f) (f_details f) (f_subscription f) (f_publication f) (f_registration f).
Definition set_kwargs x f := MkFields (f_request f) (f_uri f) (f_args f) x (f_session f) (f_realm f) (f_authmethod f) (f_msgtype f) (f_signature f) (f_reason f) (f_extra f) (f_options f) (f_details f) (f_subscription f) (f_publication f) (f_registration f).
Definition set_session x f := MkFields (f_request f) (f_uri f) (f_args f) (f_kwargs f) x (f_realm f) (f_authmethod f) (f_msgtype f) (f_signature f) (f_reason f) (f_extra f) (f_options f) (f_details f) (f_subscription f) (f_publication f) (f_registration f).
Definition set_realm x f := MkFields (f_request f) (f_uri f) (f_args f) (f_kwargs f) (f_session f) x (f_authmethod f) (f_msgtype f) (f_signature f) (f_reason f) (f_extra f) (f_options f) (f_details f) (f_subscription f) (f_publication f) (f_registration f).
Definition set_authmethod x f := MkFields (f_request f) (f_uri f) (f_args f) (f_kwargs f) (f_session f) (f_realm f) x (f_msgtype f) (f_signature f) (f_reason f) (f_extra f) (f_options f) (f_details f) (f_subscription f) (f_publication f) (f_registration f).
Definition set_msgtype x f := MkFields (f_request f) (f_uri f) (f_args f) (f_kwargs f) (f_session f) (f_realm f) (f_authmethod f) x (f_signature f) (f_reason f) (f_extra f) (f_options f) (f_details f) (f_subscription f) (f_publication f) (f_registration f).
Definition set_signature x f := MkFields (f_request f) (f_uri f) (f_args f) (f_kwargs f) (f_session f) (f_realm f) (f_authmethod f) (f_msgtype f) x (f_reason f) (f_extra f) (f_options f) (f_details f) (f_subscription f) (f_publication f) (f_registration f).
Definition set_reason x f := MkFields (f_request f) (f_uri f) (f_args f) (f_kwargs f) (f_session f) (f_realm f) (f_authmethod f) (f_msgtype f) (f_signature f) x (f_extra f) (f_options f) (f_details f) (f_subscription f) (f_publication f) (f_registration f).
Definition set_extra x f := MkFields (f_request f) (f_uri f) (f_args f) (f_kwargs f) (f_session f) (f_realm f) (f_authmethod f) (f_msgtype f) (f_signature f) (f_reason f) x (f_options f) (f_details f) (f_subscription f) (f_publication f) (f_registration f).
Definition set_options x f := MkFields (f_request f) (f_uri f) (f_args f) (f_kwargs f) (f_session f) (f_realm f) (f_authmethod f) (f_msgtype f) (f_signature f) (f_reason f) (f_extra f) x (f_details f) (f_subscription f) (f_publication f) (f_registration f).
Definition set_details x f := MkFields (f_request f) (f_uri f) (f_args f) (f_kwargs f) (f_session f) (f_realm f) (f_authmethod f) (f_msgtype f) (f_signature f) (f_reason f) (f_extra f) (f_options f) x (f_subscription f) (f_publication f) (f_registration f).
Definition set_subscription x f := MkFields (f_request f) (f_uri f) (f_args f) (f_kwargs f) (f_session f) (f_realm f) (f_authmethod f) (f_msgtype f) (f_signature f) (f_reason f) (f_extra f) (f_options f) (f_details f) x (f_publication f) (f_registration f).
Definition set_publication x f := MkFields (f_request f) (f_uri f) (f_args f) (f_kwargs f) (f_session f) (f_realm f) (f_authmethod f) (f_msgtype f) (f_signature f) (f_reason f) (f_extra f) (f_options f) (f_details f) (f_subscription f) x (f_registration f).
Definition set_registration x f := MkFields (f_request f) (f_uri f) (f_args f) (f_kwargs f) (f_session f) (f_realm f) (f_authmethod f) (f_msgtype f) (f_signature f) (f_reason f) (f_extra f) (f_options f) (f_details f) (f_subscription f) (f_publication f) x.

Section parsing.
Context {PL : Platform}.

(** validateID, validator.go:65-72; indexing past the end panics. *)
Definition validate_id (msg : list value) (i : nat) : res N :=
  match msg !! i with
  | None => Panic "index out of range"
  | Some v => let (n, ok) := as_uint64 v in if ok then Ok n else Err "must be uint64"
  end.
(** validateString, validator.go:74-81. *)
Definition validate_string (msg : list value) (i : nat) : res string :=
  match msg !! i with
  | None => Panic "index out of range"
  | Some (VStr s) => Ok s
  | Some _ => Err "must be string"
  end.
(** validateSlice, validator.go:83-90.  A nil []any passes the assertion. *)
Definition validate_slice (msg : list value) (i : nat) : res goslice :=
  match msg !! i with
  | None => Panic "index out of range"
  | Some (VSlice l) => Ok l
  | Some _ => Err "must be []any"
  end.
(** validateMap, validator.go:92-99. *)
Definition validate_map (msg : list value) (i : nat) : res gomap :=
  match msg !! i with
  | None => Panic "index out of range"
  | Some (VMap m) => Ok m
  | Some _ => Err "must be map[string]any"
  end.

Definition setf {A} (r : res A) (set : A -> fields -> fields) (f : fields) : res fields :=
  match r with Ok a => Ok (set a f) | Err e => Err e | Panic w => Panic w end.

(** ValidateArgs (validator.go:101-114) ... ValidateKwArgs (256-269). *)
Definition run_validator (k : vkind) (msg : list value) (i : nat) (f : fields) : res fields :=
  match k with
  | VkArgs => if (length msg <=? i)%nat then Ok f else setf (validate_slice msg i) set_args f
  | VkKwArgs => if (length msg <=? i)%nat then Ok f else setf (validate_map msg i) set_kwargs f
  | VkSessionID => setf (validate_id msg i) set_session f
  | VkMessageType => setf (validate_id msg i) set_msgtype f
  | VkRequestID => setf (validate_id msg i) set_request f
  | VkRegistrationID => setf (validate_id msg i) set_registration f
  | VkPublicationID => setf (validate_id msg i) set_publication f
  | VkSubscriptionID => setf (validate_id msg i) set_subscription f
  | VkSignature => setf (validate_string msg i) set_signature f
  | VkURI => setf (validate_string msg i) set_uri f
  | VkRealm => setf (validate_string msg i) set_realm f
  | VkAuthMethod => setf (validate_string msg i) set_authmethod f
  | VkReason => setf (validate_string msg i) set_reason f
  | VkExtra => setf (validate_map msg i) set_extra f
  | VkOptions => setf (validate_map msg i) set_options f
  | VkDetails => setf (validate_map msg i) set_details f
  end.

(** ValidationSpec, validator.go:16-21. *)
Record vspec : Type := VSpec { vs_min : nat; vs_max : nat; vs_spec : list (nat * vkind) }.

(** The loop of ValidateMessage, validator.go:278-283: errors are collected
    and do not stop the loop; a panic does. *)
Fixpoint run_spec (sp : list (nat * vkind)) (msg : list value) (f : fields) (errs : bool)
  : res (fields * bool) :=
  match sp with
  | [] => Ok (f, errs)
  | (i, k) :: sp' =>
      match run_validator k msg i f with
      | Ok f' => run_spec sp' msg f' errs
      | Err _ => run_spec sp' msg f true
      | Panic w => Panic w
      end
  end.

(** ValidateMessage (validator.go:271-290) with sanityCheck (53-63); [sh] is
    the iteration order of the Spec map. *)
Definition validate_message (sh : shuffle) (msg : list value) (sp : vspec) : res fields :=
  if (length msg <? vs_min sp)%nat then Err "too short"
  else if (vs_max sp <? length msg)%nat then Err "too long"
  else match run_spec (shuf sh (vs_spec sp)) msg empty_fields false with
       | Ok (f, false) => Ok f
       | Ok (_, true) => Err "invalid fields"
       | Err e => Err e
       | Panic w => Panic w
       end.

(** The validation specs, one per file of /repo/messages. *)
Definition spec_of (t : N) : option vspec :=
  if t =? tHello then Some (VSpec 2 3 [(1%nat, VkRealm); (2%nat, VkDetails)])  (* hello.go:12-20 *)
  else if t =? tWelcome then Some (VSpec 3 3 [(1%nat, VkSessionID); (2%nat, VkDetails)])  (* welcome.go:8-16 *)
  else if t =? tAbort then Some (VSpec 3 5 [(1%nat, VkDetails); (2%nat, VkReason); (3%nat, VkArgs); (4%nat, VkKwArgs)])  (* abort.go:8-18 *)
  else if t =? tChallenge then Some (VSpec 3 3 [(1%nat, VkAuthMethod); (2%nat, VkExtra)])  (* challenge.go:8-16 *)
  else if t =? tAuthenticate then Some (VSpec 2 3 [(1%nat, VkSignature); (2%nat, VkExtra)])  (* authenticate.go:10-18 *)
  else if t =? tGoodbye then Some (VSpec 3 3 [(1%nat, VkDetails); (2%nat, VkReason)])  (* goodbye.go:8-16 *)
  else if t =? tError then Some (VSpec 5 7 [(1%nat, VkMessageType); (2%nat, VkRequestID); (3%nat, VkDetails); (4%nat, VkURI); (5%nat, VkArgs); (6%nat, VkKwArgs)])  (* error.go:8-20 *)
  else if t =? tPublish then Some (VSpec 4 6 [(1%nat, VkRequestID); (2%nat, VkOptions); (3%nat, VkURI); (4%nat, VkArgs); (5%nat, VkKwArgs)])  (* publish.go:8-19 *)
  else if t =? tPublished then Some (VSpec 3 3 [(1%nat, VkRequestID); (2%nat, VkPublicationID)])  (* published.go:8-16 *)
  else if t =? tSubscribe then Some (VSpec 4 4 [(1%nat, VkRequestID); (2%nat, VkOptions); (3%nat, VkURI)])  (* subscribe.go:8-17 *)
  else if t =? tSubscribed then Some (VSpec 3 3 [(1%nat, VkRequestID); (2%nat, VkSubscriptionID)])  (* subscribed.go:8-16 *)
  else if t =? tUnsubscribe then Some (VSpec 3 3 [(1%nat, VkRequestID); (2%nat, VkSubscriptionID)])  (* unsubscribe.go:8-16 *)
  else if t =? tUnsubscribed then Some (VSpec 2 2 [(1%nat, VkRequestID)])  (* unsubscribed.go:8-15 *)
  else if t =? tEvent then Some (VSpec 4 6 [(1%nat, VkSubscriptionID); (2%nat, VkPublicationID); (3%nat, VkDetails); (4%nat, VkArgs); (5%nat, VkKwArgs)])  (* event.go:8-19 *)
  else if t =? tCall then Some (VSpec 4 6 [(1%nat, VkRequestID); (2%nat, VkOptions); (3%nat, VkURI); (4%nat, VkArgs); (5%nat, VkKwArgs)])  (* call.go:8-19 *)
  else if t =? tCancel then Some (VSpec 3 3 [(1%nat, VkRequestID); (2%nat, VkOptions)])  (* cancel.go:8-16 *)
  else if t =? tResult then Some (VSpec 3 5 [(1%nat, VkRequestID); (2%nat, VkDetails); (3%nat, VkArgs); (4%nat, VkKwArgs)])  (* result.go:8-18 *)
  else if t =? tRegister then Some (VSpec 4 4 [(1%nat, VkRequestID); (2%nat, VkOptions); (3%nat, VkURI)])  (* register.go:8-17 *)
  else if t =? tRegistered then Some (VSpec 3 3 [(1%nat, VkRequestID); (2%nat, VkRegistrationID)])  (* registered.go:8-16 *)
  else if t =? tUnregister then Some (VSpec 3 3 [(1%nat, VkRequestID); (2%nat, VkRegistrationID)])  (* unregister.go:8-16 *)
  else if t =? tUnregistered then Some (VSpec 2 2 [(1%nat, VkRequestID)])  (* unregistered.go:8-15 *)
  else if t =? tInvocation then Some (VSpec 4 6 [(1%nat, VkRequestID); (2%nat, VkRegistrationID); (3%nat, VkDetails); (4%nat, VkArgs); (5%nat, VkKwArgs)])  (* invocation.go:10-21 *)
  else if t =? tInterrupt then Some (VSpec 3 3 [(1%nat, VkRequestID); (2%nat, VkOptions)])  (* interrupt.go:8-16 *)
  else if t =? tYield then Some (VSpec 3 5 [(1%nat, VkRequestID); (2%nat, VkOptions); (3%nat, VkArgs); (4%nat, VkKwArgs)])  (* yield.go:8-18 *)
  else None.

(** The second half of Hello.Parse, hello.go:84-112. *)
Definition build_hello (f : fields) : res hello :=
  let authid := to_string (mget (f_details f) "authid") in
  let methods := match mget (f_details f) "authmethods" with
                 | VSlice (Some l) => l | _ => [] end in
  let extra := match mget (f_details f) "authextra" with VMap m => m | _ => Some [] end in
  let roles := match mget (f_details f) "roles" with VMap m => m | _ => Some [] end in
  match anys_to_strings methods with
  | Ok ms => Ok (Hello (f_realm f) authid (Some ms) extra roles)
  | Err e => Err e
  | Panic w => Panic w
  end.

(** The second halves of the other Parse methods: copying fields. *)
Definition build (t : N) (f : fields) : res message :=
  if t =? tHello then match build_hello f with Ok h => Ok (MHello h) | Err e => Err e | Panic w => Panic w end
  else if t =? tWelcome then Ok (MWelcome (Welcome (f_session f) (f_details f)))  (* welcome.go:56 *)
  else if t =? tAbort then Ok (MAbort (Abort (f_details f) (f_reason f) (f_args f) (f_kwargs f)))  (* abort.go:79-84 *)
  else if t =? tChallenge then Ok (MChallenge (Challenge (f_authmethod f) (f_extra f)))  (* challenge.go:58 *)
  else if t =? tAuthenticate then Ok (MAuthenticate (Authenticate (f_signature f) (f_extra f)))  (* authenticate.go:60-63 *)
  else if t =? tGoodbye then Ok (MGoodbye (Goodbye (f_details f) (f_reason f)))  (* goodbye.go:60 *)
  else if t =? tError then Ok (MError (Error (f_msgtype f) (f_request f) (f_details f) (f_uri f) (f_args f) (f_kwargs f)))  (* error.go:110-117 *)
  else if t =? tPublish then Ok (MPublish (Publish (f_request f) (f_options f) (f_uri f) (f_args f) (f_kwargs f)))  (* publish.go:101-107 *)
  else if t =? tPublished then Ok (MPublished (Published (f_request f) (f_publication f)))  (* published.go:58-61 *)
  else if t =? tSubscribe then Ok (MSubscribe (Subscribe (f_request f) (f_options f) (f_uri f)))  (* subscribe.go:73 *)
  else if t =? tSubscribed then Ok (MSubscribed (Subscribed (f_request f) (f_subscription f)))  (* subscribed.go:58 *)
  else if t =? tUnsubscribe then Ok (MUnsubscribe (Unsubscribe (f_request f) (f_subscription f)))  (* unsubscribe.go:58 *)
  else if t =? tUnsubscribed then Ok (MUnsubscribed (Unsubscribed (f_request f)))  (* unsubscribed.go:51 *)
  else if t =? tEvent then Ok (MEvent (Event (f_subscription f) (f_publication f) (f_details f) (f_args f) (f_kwargs f)))  (* event.go:101-107 *)
  else if t =? tCall then Ok (MCall (Call (f_request f) (f_options f) (f_uri f) (f_args f) (f_kwargs f) no_bin))  (* call.go:123-129 *)
  else if t =? tCancel then Ok (MCancel (Cancel (f_request f) (f_options f)))  (* cancel.go:62-65 *)
  else if t =? tResult then Ok (MResult (Result (f_request f) (f_details f) (f_args f) (f_kwargs f) no_bin))  (* result.go:110-115 *)
  else if t =? tRegister then Ok (MRegister (Register (f_request f) (f_options f) (f_uri f)))  (* register.go:69 *)
  else if t =? tRegistered then Ok (MRegistered (Registered (f_request f) (f_registration f)))  (* registered.go:58 *)
  else if t =? tUnregister then Ok (MUnregister (Unregister (f_request f) (f_registration f)))  (* unregister.go:58 *)
  else if t =? tUnregistered then Ok (MUnregistered (Unregistered (f_request f)))  (* unregistered.go:51 *)
  else if t =? tInvocation then Ok (MInvocation (Invocation (f_request f) (f_registration f) (f_details f) (f_args f) (f_kwargs f) no_bin))  (* invocation.go:130-136 *)
  else if t =? tInterrupt then Ok (MInterrupt (Interrupt (f_request f) (f_options f)))  (* interrupt.go:62 *)
  else if t =? tYield then Ok (MYield (Yield (f_request f) (f_options f) (f_args f) (f_kwargs f) no_bin))  (* yield.go:110-115 *)
  else Err "unknown message".

(** The Parse method of the type with code [t]. *)
Definition parse (sh : shuffle) (t : N) (msg : list value) : res message :=
  match spec_of t with
  | None => Err "unknown message"
  | Some sp =>
      match validate_message sh msg sp with
      | Ok f => build t f
      | Err e => Err e
      | Panic w => Panic w
      end
  end.

(** serializers.ToMessage, serializers/helpers.go:10-71: the type is read
    ignoring the ok flag; wampMsg[0] panics on an empty list. *)
Definition to_message (sh : shuffle) (msg : list value) : res message :=
  match msg with
  | [] => Panic "index out of range"
  | v :: _ => parse sh (fst (as_uint64 v)) msg
  end.

(** XxxSerializer.Deserialize after decoding (json.go:17-33, msgpack.go:17-33,
    cbor.go:27-43): ToMessage, then the message parses the list once more. *)
Definition deserialize_decoded (sh sh' : shuffle) (msg : list value) : res message :=
  match to_message sh msg with
  | Ok m => parse sh' (mtype m) msg
  | Err e => Err e
  | Panic w => Panic w
  end.

End parsing.
