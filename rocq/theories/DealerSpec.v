(** What a dealer is supposed to do, written without the dealer's data
    structures: predicates on traces (the calls made and the results
    returned), and a table with one row per registered procedure. *)
From Verif Require Import Prelude Value Msg IdGen Types PathMatch Dealer.
From Verif Require Export MatchSpec.

(** * Traces: calls paired with their results, latest first *)

Notation dtrace := (list (dop * dout)).
Definition dtrace_of (h : dhist) (outs : list dout) : dtrace := rev (zip (map snd h) outs).

(** The options of a message that are the boolean [true]. *)
Definition says (options : gomap) (key : string) : bool :=
  match mget options key with VBool b => b | _ => false end.
Definition invoke_policy (m : register) : string :=
  match mget (rg_options m) "invoke" with VStr s => s | _ => "" end.

(** [sid] is attached: added and not removed since. *)
Fixpoint present (tr : dtrace) (sid : N) : Prop :=
  match tr with
  | [] => False
  | (DAdd s, DOk) :: tr' => se_id s = sid \/ present tr' sid
  | (DRemove x, DOk) :: tr' => x <> sid /\ present tr' sid
  | _ :: tr' => present tr' sid
  end.
(** [s] are the details [sid] was added with. *)
Fixpoint present_as (tr : dtrace) (sid : N) (s : session_details) : Prop :=
  match tr with
  | [] => False
  | (DAdd s', DOk) :: tr' =>
      (se_id s' = sid /\ s' = s) \/ (se_id s' <> sid /\ present_as tr' sid s)
  | (DRemove x, DOk) :: tr' => x <> sid /\ present_as tr' sid s
  | _ :: tr' => present_as tr' sid s
  end.

(** The last AutoDiscloseCaller. *)
Fixpoint disclosing_caller (tr : dtrace) : bool :=
  match tr with
  | [] => false
  | (DDisclose x, _) :: _ => x
  | _ :: tr' => disclosing_caller tr'
  end.

(** ** Registrations *)

(** A REGISTER of [sid] for procedure [p] with match policy [pol], answered
    with registration id [g]. *)
Definition is_registered (e : dop * dout) (sid : N) (p : string) (pol : policy) (g : N) : Prop :=
  match e with
  | (DReceive s (MRegister m), DMsg (MRegistered a) to) =>
      s = sid /\ rg_procedure m = p /\ requested_policy (rg_options m) = pol
      /\ rd_registration a = g /\ to = sid
  | _ => False
  end.
(** Somewhere in the trace. *)
Definition once_registered (tr : dtrace) (sid : N) (p : string) (pol : policy) (g : N) : Prop :=
  exists e, e ∈ tr /\ is_registered e sid p pol g.
(** The call ends [sid]'s registration [g]: UNREGISTER answered, or removal. *)
Definition is_unregistered (e : dop * dout) (sid g : N) : Prop :=
  match e with
  | (DReceive s (MUnregister m), DMsg (MUnregistered _) _) => s = sid /\ ur_registration m = g
  | (DRemove s, DOk) => s = sid
  | _ => False
  end.
(** [sid] holds registration [g] of procedure [p]. *)
Fixpoint owns (tr : dtrace) (sid : N) (p : string) (g : N) : Prop :=
  match tr with
  | [] => False
  | e :: tr' => (exists pol, is_registered e sid p pol g)
                \/ (owns tr' sid p g /\ ~ is_unregistered e sid g)
  end.
(** The procedure registered as [p] with policy [pol] covers [proc]. *)
Definition covers (p : string) (pol : policy) (proc : string) : Prop :=
  match pol with
  | PExact => p = proc
  | PPrefix => is_prefix p proc
  | PWildcard => wildcard_match proc p = true
  end.

(** [m] was answered with registration id [g]. *)
Definition registered_under (tr : dtrace) (g : N) (m : register) : Prop :=
  exists s a to, (DReceive s (MRegister m), DMsg (MRegistered a) to) ∈ tr /\ rd_registration a = g.
(** Registration [g] of procedure [p] serves calls of [proc]: it is that
    procedure, or [g] was registered with a policy under which [p] covers it. *)
Definition reaches (tr : dtrace) (g : N) (p proc : string) : Prop :=
  p = proc \/ exists c pol, once_registered tr c p pol g /\ covers p pol proc.

(** ** Calls and invocations *)

(** The dealer took on a CALL of [caller] with request id [r] earlier: it was
    answered by an INVOCATION, or failed with an error because the chosen
    callee was gone. *)
Fixpoint called (tr : dtrace) (caller r : N) : bool :=
  match tr with
  | [] => false
  | (DReceive s (MCall c), DMsg (MInvocation _) _) :: tr'
  | (DReceive s (MCall c), DErr _) :: tr' =>
      ((s =? caller) && (ca_request c =? r)) || called tr' caller r
  | _ :: tr' => called tr' caller r
  end.
(** A CALL continues an earlier one: a further chunk of a progressive call. *)
Definition continues (tr : dtrace) (caller : N) (c : call) : bool :=
  says (ca_options c) "progress" && called tr caller (ca_request c).

(** How many ids the dealer has handed out: the highest one seen in a
    REGISTERED or INVOCATION, plus one for each new call that failed. *)
Fixpoint used (tr : dtrace) : N :=
  match tr with
  | [] => 0
  | (_, DMsg (MRegistered a) _) :: tr' => N.max (used tr') (rd_registration a)
  | (_, DMsg (MInvocation v) _) :: tr' => N.max (used tr') (in_request v)
  | (DReceive s (MCall c), DErr _) :: tr' =>
      if continues tr' s c then used tr' else used tr' + 1
  | _ :: tr' => used tr'
  end.

(** The invocation id last given to the calls of [caller] with request id [r]. *)
Fixpoint invocation_of (tr : dtrace) (caller r : N) : option N :=
  match tr with
  | [] => None
  | (DReceive s (MCall c), DMsg (MInvocation v) _) :: tr' =>
      if (s =? caller) && (ca_request c =? r) then Some (in_request v)
      else invocation_of tr' caller r
  | (DReceive s (MCall c), DErr _) :: tr' =>
      if (s =? caller) && (ca_request c =? r) && negb (continues tr' s c)
      then Some (used tr' + 1) else invocation_of tr' caller r
  | _ :: tr' => invocation_of tr' caller r
  end.

(** Call [e] opens invocation [i] on behalf of request [r] of [caller], [rp]
    telling whether that caller wants progressive results. *)
Definition opens (e : dop * dout) (tr : dtrace) (i caller r : N) (rp : bool) : Prop :=
  match e with
  | (DReceive s (MCall c), DMsg (MInvocation v) _) =>
      s = caller /\ ca_request c = r /\ says (ca_options c) "receive_progress" = rp
      /\ continues tr s c = false /\ in_request v = i
  | (DReceive s (MCall c), DErr _) =>
      s = caller /\ ca_request c = r /\ says (ca_options c) "receive_progress" = rp
      /\ continues tr s c = false /\ used tr + 1 = i
  | _ => False
  end.
(** Call [e] closes it: any YIELD that is not a progressive one the caller
    asked for, and any ERROR. *)
Definition closes (e : dop * dout) (i : N) (rp : bool) : Prop :=
  match e with
  | (DReceive _ (MYield y), _) => yi_request y = i /\ rp && says (yi_options y) "progress" = false
  | (DReceive _ (MError x), _) => er_request x = i /\ er_type x = tInvocation
  | _ => False
  end.
Fixpoint open_inv (tr : dtrace) (i caller r : N) (rp : bool) : Prop :=
  match tr with
  | [] => False
  | e :: tr' => opens e tr' i caller r rp \/ (open_inv tr' i caller r rp /\ ~ closes e i rp)
  end.

(** The messages a callee answers invocation [i] with. *)
Definition answer_to (m : message) (i : N) : Prop :=
  match m with
  | MYield y => yi_request y = i
  | MError x => er_request x = i /\ er_type x = tInvocation
  | _ => False
  end.
(** The last word on a call: an ERROR, or a RESULT that is not progressive. *)
Definition last_word (m : message) : Prop :=
  match m with
  | MError _ => True
  | MResult r => says (re_details r) "progress" = false
  | _ => False
  end.

(** The sessions invoked through registration [g], in order. *)
Fixpoint invoked (g : N) (outs : list dout) : list N :=
  match outs with
  | [] => []
  | DMsg (MInvocation v) to :: outs' =>
      if in_registration v =? g then to :: invoked g outs' else invoked g outs'
  | _ :: outs' => invoked g outs'
  end.

(** The sessions [l], one after the other, register [p] with invocation policy
    [inv]. *)
Definition register_all (p inv : string) (l : list N) (h : dhist) : Prop :=
  Forall2 (fun sid x => exists m, snd x = DReceive sid (MRegister m)
                        /\ rg_procedure m = p /\ invoke_policy m = inv) l h.
(** Nobody registers [p] and no session of [l] is removed. *)
Definition leaves_alone (p : string) (l : list N) (op : dop) : Prop :=
  match op with
  | DReceive _ (MRegister m) => rg_procedure m <> p
  | DRemove x => x ∉ l
  | _ => True
  end.

(** What a RESULT for a YIELD must look like. *)
Definition result_for (y : yield) (r : N) (progressive : bool) (to : session_details) : result :=
  let details := if progressive then [("progress"%string, VBool true)] else [] in
  if bp_binary (yi_bin y) && se_static to
  then Result r (Some (details ++ [("x_payload_serializer"%string,
                                    VInt KUint64 (Z.of_N (bp_serializer (yi_bin y))))]))
         None None (BinPay true (bp_serializer (yi_bin y)) (bp_payload (yi_bin y)))
  else Result r (Some details) (yi_args y) (yi_kwargs y) no_bin.

(** The details of an INVOCATION. *)
Definition invocation_details (c : call) (caller : N) (who : option session_details)
  : list (string * value) :=
  (if says (ca_options c) "receive_progress" then [("receive_progress"%string, VBool true)] else []) ++
  (if says (ca_options c) "progress" then [("progress"%string, VBool true)] else []) ++
  match who with
  | None => []
  | Some s => [("procedure", VStr (ca_procedure c)); ("caller", VInt KUint64 (Z.of_N caller));
               ("caller_authid", VStr (se_authid s));
               ("caller_authrole", VStr (se_authrole s))]%string
  end.
(** What an INVOCATION for a CALL must look like. *)
Definition invocation_for (c : call) (i g : N) (details : list (string * value))
  (to : session_details) : invocation :=
  if bp_binary (ca_bin c) && se_static to
  then Invocation i g (Some (details ++ [("x_payload_serializer"%string,
                                          VInt KUint64 (Z.of_N (bp_serializer (ca_bin c))))]))
         None None (BinPay true (bp_serializer (ca_bin c)) (bp_payload (ca_bin c)))
  else Invocation i g (Some details) (ca_args c) (ca_kwargs c) no_bin.

(** The ERROR that refuses a request. *)
Definition refusal (type request : N) (uri : string) : message :=
  MError (Error type request (Some []) uri None None).

(** * Polite histories *)

(** The dealer's clients keep to the rules: nobody joins a shared procedure
    twice, nobody gives up a registration it does not hold or that others
    still share, and only attached sessions call while callers are disclosed. *)
Definition polite (tr : dtrace) (op : dop) : Prop :=
  match op with
  | DReceive sid (MRegister m) =>
      (exists g, owns tr sid (rg_procedure m) g) ->
      invoke_policy m = "" \/ invoke_policy m = "single"
  | DReceive sid (MUnregister u) =>
      (exists p, owns tr sid p (ur_registration u)
                 /\ forall x q, owns tr x q (ur_registration u) -> x = sid)
      \/ (forall p g, ~ owns tr sid p g)
  | DReceive sid (MCall _) => disclosing_caller tr = true -> present tr sid
  | _ => True
  end.
Definition polite_history (h : dhist) : Prop :=
  forall h1 o op h2 d outs,
    h = h1 ++ (o, op) :: h2 -> drun new_dealer h1 = Ret d outs -> polite (dtrace_of h1 outs) op.

(** The simplest use: exact procedures, not shared, given up by their holders
    (a session without any registration gets an error and is harmless). *)
Definition simple (tr : dtrace) (op : dop) : Prop :=
  match op with
  | DReceive sid (MRegister m) =>
      requested_policy (rg_options m) = PExact
      /\ (invoke_policy m = "" \/ invoke_policy m = "single")
  | DReceive sid (MUnregister u) =>
      (exists p, owns tr sid p (ur_registration u)) \/ (forall p g, ~ owns tr sid p g)
  | DReceive sid (MCall _) => disclosing_caller tr = true -> present tr sid
  | _ => True
  end.
Definition simple_history (h : dhist) : Prop :=
  forall h1 o op h2 d outs,
    h = h1 ++ (o, op) :: h2 -> drun new_dealer h1 = Ret d outs -> simple (dtrace_of h1 outs) op.

(** * The procedure table *)

(** One row per registered procedure.  [p_callees]: in order of registration;
    [p_turn]: next position under roundrobin; [p_indexed]: a wildcard row can
    be found through its pattern only while nobody who shared it was removed. *)
Record prow : Type := PRow {
  p_id : N; p_match : policy; p_invoke : string; p_callees : list N;
  p_turn : nat; p_indexed : bool }.

(** [pt_dead]: prefixes that were registered once and are no longer; the code
    still finds them, and they hide shorter prefixes and wildcards. *)
Record ptable : Type := PTable {
  pt_rows : gmap string prow;
  pt_dead : gset string;
  pt_sessions : gmap N session_details }.
Definition empty_ptable : ptable := PTable ∅ ∅ ∅.

(** A session leaves a row. *)
Definition row_leave (sid : N) (r : prow) : option prow :=
  if decide (sid ∈ p_callees r) then
    let cs := filter (fun x => x <> sid) (p_callees r) in
    if decide (cs = []) then None
    else Some (PRow (p_id r) (p_match r) (p_invoke r) cs (p_turn r) false)
  else Some r.

(** Prefixes the search considers, live ones and dead ones. *)
Definition prefix_known (s : ptable) (p : string) : Prop :=
  p ∈ pt_dead s \/ exists r, pt_rows s !! p = Some r /\ p_match r = PPrefix.
Definition longest_known (s : ptable) (proc p : string) : Prop :=
  prefix_known s p /\ is_prefix p proc
  /\ forall q, prefix_known s q -> is_prefix q proc -> (String.length q <= String.length p)%nat.

(** The row that serves a CALL of [proc]: the procedure itself, else the
    longest known prefix, else some wildcard. *)
Inductive routes (s : ptable) (proc : string) : string -> prow -> Prop :=
| routes_exact r : pt_rows s !! proc = Some r -> routes s proc proc r
| routes_prefix p r :
    pt_rows s !! proc = None -> longest_known s proc p -> p ∉ pt_dead s ->
    pt_rows s !! p = Some r -> routes s proc p r
| routes_wildcard p r :
    pt_rows s !! proc = None -> (forall q, prefix_known s q -> ~ is_prefix q proc) ->
    pt_rows s !! p = Some r -> p_match r = PWildcard -> p_indexed r = true ->
    wildcard_match proc p = true -> routes s proc p r.

(** The callee chosen in a row, and the row's next turn. *)
Inductive picks (r : prow) : N -> nat -> Prop :=
| picks_only c : p_callees r = [c] -> picks r c (p_turn r)
| picks_first c cs :
    p_callees r = c :: cs -> p_invoke r = "first" -> picks r c (p_turn r)
| picks_last c cs :
    p_callees r = cs ++ [c] -> p_invoke r = "last" -> picks r c (p_turn r)
| picks_roundrobin c k :
    (1 < length (p_callees r))%nat -> p_invoke r = "roundrobin" ->
    k = (if decide (p_turn r < length (p_callees r))%nat then p_turn r else 0%nat) ->
    p_callees r !! k = Some c -> picks r c (S k)
| picks_random c :
    c ∈ p_callees r -> p_invoke r = "random" -> picks r c (p_turn r)
| picks_other c cs :
    p_callees r = c :: cs -> p_invoke r ∉ ["first"; "last"; "roundrobin"; "random"]%string ->
    picks r c (p_turn r).

Definition with_rows (x : gmap string prow) (s : ptable) : ptable :=
  PTable x (pt_dead s) (pt_sessions s).

(** One call on the table.  Only what concerns registrations is said here;
    the invocation id, details and payload of an INVOCATION and the answers to
    YIELD and ERROR are the subject of the trace predicates above. *)
Inductive rstep (s : ptable) : dop -> dout -> ptable -> Prop :=
| rs_add a :
    pt_sessions s !! se_id a = None ->
    rstep s (DAdd a) DOk (PTable (pt_rows s) (pt_dead s) (<[se_id a := a]> (pt_sessions s)))
| rs_add_err a e : is_Some (pt_sessions s !! se_id a) -> rstep s (DAdd a) (DErr e) s
| rs_remove sid dead :
    is_Some (pt_sessions s !! sid) ->
    (forall p, p ∈ dead <-> p ∈ pt_dead s
       \/ exists r, pt_rows s !! p = Some r /\ p_match r = PPrefix /\ row_leave sid r = None) ->
    rstep s (DRemove sid) DOk
      (PTable (omap (row_leave sid) (pt_rows s)) dead (delete sid (pt_sessions s)))
| rs_remove_err sid e : pt_sessions s !! sid = None -> rstep s (DRemove sid) (DErr e) s
| rs_has p b : (b = true <-> is_Some (pt_rows s !! p)) -> rstep s (DHasProc p) (DHas b) s
| rs_disclose x : rstep s (DDisclose x) DOk s
| rs_register_new sid m g dead :
    is_Some (pt_sessions s !! sid) -> pt_rows s !! rg_procedure m = None ->
    (forall p r, pt_rows s !! p = Some r -> p_id r < g) ->
    dead = (if decide (requested_policy (rg_options m) = PPrefix)
            then pt_dead s ∖ {[rg_procedure m]} else pt_dead s) ->
    rstep s (DReceive sid (MRegister m)) (DMsg (MRegistered (Registered (rg_request m) g)) sid)
      (PTable (<[rg_procedure m := PRow g (requested_policy (rg_options m)) (invoke_policy m)
                                     [sid] 0 true]> (pt_rows s)) dead (pt_sessions s))
| rs_register_join sid m r :
    is_Some (pt_sessions s !! sid) -> pt_rows s !! rg_procedure m = Some r ->
    p_invoke r <> "" -> p_invoke r <> "single" -> invoke_policy m = p_invoke r ->
    rstep s (DReceive sid (MRegister m))
      (DMsg (MRegistered (Registered (rg_request m) (p_id r))) sid)
      (with_rows (<[rg_procedure m := PRow (p_id r) (p_match r) (p_invoke r)
                                        (p_callees r ++ [sid]) (p_turn r) (p_indexed r)]>
                    (pt_rows s)) s)
| rs_register_refused sid m r :
    is_Some (pt_sessions s !! sid) -> pt_rows s !! rg_procedure m = Some r ->
    p_invoke r = "" \/ p_invoke r = "single" \/ invoke_policy m <> p_invoke r ->
    rstep s (DReceive sid (MRegister m))
      (DMsg (refusal 64 (rg_request m) "wamp.error.procedure_already_exists") sid) s
| rs_register_err sid m e :
    pt_sessions s !! sid = None -> rstep s (DReceive sid (MRegister m)) (DErr e) s
| rs_unregister sid m p r dead :
    is_Some (pt_sessions s !! sid) -> pt_rows s !! p = Some r -> p_id r = ur_registration m ->
    p_callees r = [sid] ->
    dead = (if decide (p_match r = PPrefix) then {[p]} ∪ pt_dead s else pt_dead s) ->
    rstep s (DReceive sid (MUnregister m)) (DMsg (MUnregistered (Unregistered (ur_request m))) sid)
      (PTable (delete p (pt_rows s)) dead (pt_sessions s))
| rs_unregister_err sid m e :
    (forall p r, pt_rows s !! p = Some r -> sid ∉ p_callees r) ->
    rstep s (DReceive sid (MUnregister m)) (DErr e) s
| rs_call_refused sid c :
    (forall p r, ~ routes s (ca_procedure c) p r) ->
    rstep s (DReceive sid (MCall c))
      (DMsg (refusal 48 (ca_request c) "wamp.error.no_such_procedure") sid) s
| rs_call sid c p r callee turn v :
    routes s (ca_procedure c) p r -> picks r callee turn -> in_registration v = p_id r ->
    rstep s (DReceive sid (MCall c)) (DMsg (MInvocation v) callee)
      (with_rows (<[p := PRow (p_id r) (p_match r) (p_invoke r) (p_callees r) turn
                          (p_indexed r)]> (pt_rows s)) s)
| rs_other sid m out :
    (match m with MCall _ | MRegister _ | MUnregister _ => False | _ => True end) ->
    (match out with DMsg (MInvocation _ | MRegistered _ | MUnregistered _) _ => False | _ => True end) ->
    rstep s (DReceive sid m) out s.

Inductive rruns : ptable -> list dop -> list dout -> ptable -> Prop :=
| rruns_nil s : rruns s [] [] s
| rruns_cons s op out s' ops outs s'' :
    rstep s op out s' -> rruns s' ops outs s'' -> rruns s (op :: ops) (out :: outs) s''.
