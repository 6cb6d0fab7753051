(** /repo/dealer.go. *)
From Verif Require Import Prelude Value Msg IdGen Types PathMatch.

(** Option keys, match and invocation policies, dealer.go:15-30. *)
Definition o_receive_progress : string := "receive_progress".
Definition o_progress : string := "progress".
Definition o_match : string := "match".
Definition o_invoke : string := "invoke".
Definition m_exact : string := "exact".
Definition m_prefix : string := "prefix".
Definition m_wildcard : string := "wildcard".
Definition i_single : string := "single".
Definition i_first : string := "first".
Definition i_last : string := "last".
Definition i_roundrobin : string := "roundrobin".
Definition i_random : string := "random".

(** PendingInvocation, dealer.go:39-45. *)
Record pending : Type := Pending {
  pe_request : N; pe_caller : N; pe_callee : N; pe_progress : bool; pe_receive : bool }.

(** Registration, dealer.go:47-55.  [g_callees] is the contents of the slice;
    [g_next] is an int that starts at 0 and only grows or is reset to 0. *)
Record registration : Type := Registration {
  g_id : N; g_proc : string; g_regs : gmap N N; g_invoke : string;
  g_next : nat; g_callees : list N; g_match : string }.
Definition set_regs x g := Registration (g_id g) (g_proc g) x (g_invoke g) (g_next g) (g_callees g) (g_match g).
Definition set_next x g := Registration (g_id g) (g_proc g) (g_regs g) (g_invoke g) x (g_callees g) (g_match g).
Definition set_callees x g := Registration (g_id g) (g_proc g) (g_regs g) (g_invoke g) (g_next g) x (g_match g).

(** Dealer, dealer.go:62-74.  Registrations live in a heap and the maps hold
    their locations.  CallMap (dealer.go:57-60) is the pair (caller, request). *)
Record dealer : Type := Dealer {
  d_heap : gmap N registration;
  d_fresh : N;
  d_sessions : gmap N session_details;
  d_by_proc : gmap string N;
  d_by_session : gmap N (gmap N N);
  d_prefix : gmap string N;
  d_wild : gmap string N;
  d_pending : gmap N pending;
  d_inv : gmap (N * N) N;
  d_details : bool;
  d_idgen : N }.

(** NewDealer, dealer.go:76-87. *)
Definition new_dealer : dealer := Dealer ∅ 0 ∅ ∅ ∅ ∅ ∅ ∅ ∅ false 0.

Definition dset_heap x d := Dealer x (d_fresh d) (d_sessions d) (d_by_proc d) (d_by_session d) (d_prefix d) (d_wild d) (d_pending d) (d_inv d) (d_details d) (d_idgen d).
Definition dset_fresh x d := Dealer (d_heap d) x (d_sessions d) (d_by_proc d) (d_by_session d) (d_prefix d) (d_wild d) (d_pending d) (d_inv d) (d_details d) (d_idgen d).
Definition dset_sessions x d := Dealer (d_heap d) (d_fresh d) x (d_by_proc d) (d_by_session d) (d_prefix d) (d_wild d) (d_pending d) (d_inv d) (d_details d) (d_idgen d).
Definition dset_by_proc x d := Dealer (d_heap d) (d_fresh d) (d_sessions d) x (d_by_session d) (d_prefix d) (d_wild d) (d_pending d) (d_inv d) (d_details d) (d_idgen d).
Definition dset_by_session x d := Dealer (d_heap d) (d_fresh d) (d_sessions d) (d_by_proc d) x (d_prefix d) (d_wild d) (d_pending d) (d_inv d) (d_details d) (d_idgen d).
Definition dset_prefix x d := Dealer (d_heap d) (d_fresh d) (d_sessions d) (d_by_proc d) (d_by_session d) x (d_wild d) (d_pending d) (d_inv d) (d_details d) (d_idgen d).
Definition dset_wild x d := Dealer (d_heap d) (d_fresh d) (d_sessions d) (d_by_proc d) (d_by_session d) (d_prefix d) x (d_pending d) (d_inv d) (d_details d) (d_idgen d).
Definition dset_pending x d := Dealer (d_heap d) (d_fresh d) (d_sessions d) (d_by_proc d) (d_by_session d) (d_prefix d) (d_wild d) x (d_inv d) (d_details d) (d_idgen d).
Definition dset_inv x d := Dealer (d_heap d) (d_fresh d) (d_sessions d) (d_by_proc d) (d_by_session d) (d_prefix d) (d_wild d) (d_pending d) x (d_details d) (d_idgen d).
Definition dset_details x d := Dealer (d_heap d) (d_fresh d) (d_sessions d) (d_by_proc d) (d_by_session d) (d_prefix d) (d_wild d) (d_pending d) (d_inv d) x (d_idgen d).
Definition dset_idgen x d := Dealer (d_heap d) (d_fresh d) (d_sessions d) (d_by_proc d) (d_by_session d) (d_prefix d) (d_wild d) (d_pending d) (d_inv d) (d_details d) x.

(** The results of the methods. *)
Inductive dout : Type :=
| DErr (e : string)
| DOk
| DHas (b : bool)
| DMsg (m : message) (to : N).

(** AddSession, dealer.go:89-101. *)
Definition d_add_session (d : dealer) (s : session_details) : outcome dealer dout :=
  match d_sessions d !! se_id s with
  | Some _ => Ret d (DErr "already attached")
  | None =>
      let d := dset_by_session (<[se_id s := ∅]> (d_by_session d)) d in
      let d := dset_sessions (<[se_id s := s]> (d_sessions d)) d in
      Ret d DOk
  end.

(** The loop over registration.callees, dealer.go:130-138.  The range clause
    evaluates the slice header once and reads the elements of the array as it
    goes; append(s[:i], s[i+1:]...) shifts the tail of that array left and
    shortens the slice; s[i+1:] panics once i+1 exceeds its length.
    [arr] is the array, [len] the current length of registration.callees (0
    after make), [n] the elements still to be visited from index [i] on. *)
Definition shift_left (arr : list N) (i len : nat) : list N :=
  take i arr ++ take (len - (i + 1)) (drop (i + 1) arr) ++ drop (len - 1) arr.
Fixpoint callee_loop (id : N) (arr : list N) (len i n : nat) : option (list N * nat) :=
  match n with
  | O => Some (arr, len)
  | S n' =>
      match arr !! i with
      | None => None
      | Some c =>
          if c =? id then
            if (len =? 1)%nat then callee_loop id arr 0 (i + 1) n'
            else if (len <? i + 1)%nat then None
            else callee_loop id (shift_left arr i len) (len - 1) (i + 1) n'
          else callee_loop id arr len (i + 1) n'
      end
  end.
Definition drop_callee (id : N) (l : list N) : option (list N) :=
  match callee_loop id l (length l) 0 (length l) with
  | None => None
  | Some (arr, len) => Some (take len arr)
  end.

(** The body of the loop of RemoveSession, dealer.go:113-139.  The result of
    d.prefixTree.Delete (line 123) is thrown away: the tree is immutable and
    stays as it was. *)
Definition d_remove_body (id : N) (d : dealer) (l : N) : outcome dealer unit :=
  match d_heap d !! l with
  | None => Crash "nil dereference"
  | Some reg =>
      match d_by_proc d !! g_proc reg with
      | None => Ret d ()
      | Some l' =>
          match d_heap d !! l' with
          | None => Crash "nil dereference"
          | Some g =>
              let g := set_regs (delete id (g_regs g)) g in
              let d := if decide (g_regs g = ∅)
                       then dset_by_proc (delete (g_proc g) (d_by_proc d)) d else d in
              let d := if String.eqb (g_match g) m_wildcard
                       then dset_wild (delete (g_proc g) (d_wild d)) d else d in
              match drop_callee id (g_callees g) with
              | None => Crash "slice bounds out of range"
              | Some cs => Ret (dset_heap (<[l' := set_callees cs g]> (d_heap d)) d) ()
              end
          end
      end
  end.
Fixpoint d_remove_loop (id : N) (d : dealer) (ls : list N) : outcome dealer unit :=
  match ls with
  | [] => Ret d ()
  | l :: ls' =>
      match d_remove_body id d l with
      | Ret d' _ => d_remove_loop id d' ls'
      | Crash w => Crash w
      end
  end.

(** RemoveSession, dealer.go:103-145; a missing map ranges as empty. *)
Definition d_remove_session (o : oracle) (d : dealer) (id : N) : outcome dealer dout :=
  match d_sessions d !! id with
  | None => Ret d (DErr "not attached")
  | Some _ =>
      let regs := default ∅ (d_by_session d !! id) in
      match d_remove_loop id d (map snd (shuf (o_first o) (map_to_list regs))) with
      | Crash w => Crash w
      | Ret d _ =>
          let d := dset_by_session (delete id (d_by_session d)) d in
          Ret (dset_sessions (delete id (d_sessions d)) d) DOk
      end
  end.

(** HasProcedure, dealer.go:147-153. *)
Definition d_has_procedure (d : dealer) (p : string) : outcome dealer dout :=
  match d_by_proc d !! p with
  | None => Ret d (DHas false)
  | Some l =>
      match d_heap d !! l with
      | None => Crash "nil dereference"
      | Some g => Ret d (DHas (negb (bool_decide (g_regs g = ∅))))
      end
  end.

(** AutoDiscloseCaller, dealer.go:155-159. *)
Definition d_auto_disclose (d : dealer) (x : bool) : outcome dealer dout :=
  Ret (dset_details x d) DOk.

(** The search of the CALL case, dealer.go:168-190. *)
Definition d_find (o : oracle) (d : dealer) (p : string) : option N :=
  let exact := d_by_proc d !! p in
  let usable := match exact with
                | Some l => match d_heap d !! l with
                            | Some g => negb (bool_decide (g_regs g = ∅)) | None => false end
                | None => false
                end in
  if usable then exact
  else
    let pref := if (0 <? size (d_prefix d))%nat then longest_prefix (d_prefix d) p else None in
    match pref with
    | Some l => Some l
    | None =>
        match exact with
        | Some l => Some l
        | None => snd <$> List.find (fun x => wildcard_match p (fst x))
                                    (shuf (o_first o) (map_to_list (d_wild d)))
        end
    end.

(** The choice of the callee, dealer.go:198-219: the callee and the new value
    of nextCallee; indexing an empty slice panics. *)
Definition d_pick (o : oracle) (g : registration) : option (N * nat) :=
  let cs := g_callees g in
  let n := length cs in
  if (1 <? n)%nat then
    if String.eqb (g_invoke g) i_first then (fun c => (c, g_next g)) <$> cs !! 0%nat
    else if String.eqb (g_invoke g) i_last then (fun c => (c, g_next g)) <$> cs !! (n - 1)%nat
    else if String.eqb (g_invoke g) i_roundrobin then
      let k := if (n <=? g_next g)%nat then 0%nat else g_next g in
      (fun c => (c, S k)) <$> cs !! k
    else if String.eqb (g_invoke g) i_random then
      (fun c => (c, g_next g)) <$> cs !! (o_rand o mod n)%nat
    else (fun c => (c, g_next g)) <$> cs !! 0%nat
  else (fun c => (c, g_next g)) <$> cs !! 0%nat.

(** v, _ := options[key].(bool). *)
Definition bool_opt (m : gomap) (key : string) : bool := to_bool (mget m key).

(** Allocation of the invocation id, dealer.go:224-235. *)
Definition d_allocate (d : dealer) (sid : N) (c : call) (callee : N) : dealer * N :=
  let progress := bool_opt (ca_options c) o_progress in
  let fresh :=
    let i := next_id (d_idgen d) in
    let p := Pending (ca_request c) sid callee progress
               (bool_opt (ca_options c) o_receive_progress) in
    let d := dset_idgen i d in
    let d := dset_pending (<[i := p]> (d_pending d)) d in
    (dset_inv (<[(sid, ca_request c) := i]> (d_inv d)) d, i) in
  match d_inv d !! (sid, ca_request c) with
  | Some i => if progress then (d, i) else fresh
  | None => fresh
  end.

(** The details map, dealer.go:237-252; [who] is the caller when it is to be
    disclosed.  The six keys are distinct, so their order does not matter. *)
Definition d_details_map (sid : N) (c : call) (who : option session_details)
  : list (string * value) :=
  (if bool_opt (ca_options c) o_receive_progress then [(o_receive_progress, VBool true)] else []) ++
  (if bool_opt (ca_options c) o_progress then [(o_progress, VBool true)] else []) ++
  match who with
  | None => []
  | Some s => [("procedure"%string, VStr (ca_procedure c)); ("caller"%string, vid sid);
               ("caller_authid"%string, VStr (se_authid s));
               ("caller_authrole"%string, VStr (se_authrole s))]
  end.

(** Sending the INVOCATION, dealer.go:254-266. *)
Definition d_send (d : dealer) (c : call) (inv reg : N) (details : list (string * value))
  (callee : N) : outcome dealer dout :=
  match d_sessions d !! callee with
  | None => Ret d (DErr "callee gone")
  | Some s =>
      let m := if bp_binary (ca_bin c) && se_static s
               then new_invocation_binary inv reg (Some details)
                      (bp_payload (ca_bin c)) (bp_serializer (ca_bin c))
               else new_invocation inv reg (Some details) (ca_args c) (ca_kwargs c) in
      Ret d (DMsg (MInvocation m) callee)
  end.

(** ReceiveMessage, case CALL, dealer.go:166-266. *)
Definition d_call (o : oracle) (d : dealer) (sid : N) (c : call) : outcome dealer dout :=
  let refused := Ret d (DMsg (MError (new_error tCall (ca_request c) (Some [])
                                        "wamp.error.no_such_procedure" None None)) sid) in
  match d_find o d (ca_procedure c) with
  | None => refused
  | Some l =>
      match d_heap d !! l with
      | None => Crash "nil dereference"
      | Some g =>
          if decide (g_regs g = ∅) then refused
          else
            match d_pick o g with
            | None => Crash "index out of range"
            | Some (callee, nx) =>
                let d := dset_heap (<[l := set_next nx g]> (d_heap d)) d in
                let (d, inv) := d_allocate d sid c callee in
                if d_details d then
                  match d_sessions d !! sid with
                  | None => Crash "nil dereference"  (* caller.AuthID() *)
                  | Some s => d_send d c inv (g_id g) (d_details_map sid c (Some s)) callee
                  end
                else d_send d c inv (g_id g) (d_details_map sid c None) callee
            end
      end
  end.

(** ReceiveMessage, case YIELD, dealer.go:267-294.  Who sent it is not
    looked at. *)
Definition d_yield (d : dealer) (y : yield) : outcome dealer dout :=
  match d_pending d !! yi_request y with
  | None => Ret d (DErr "not pending")
  | Some p =>
      let more := pe_receive p && bool_opt (yi_options y) o_progress in
      let details : gomap := if more then Some [(o_progress, VBool true)] else None in
      let d := if more then d else dset_pending (delete (yi_request y) (d_pending d)) d in
      match d_sessions d !! pe_caller p with
      | None => Ret d (DErr "caller gone")
      | Some s =>
          let m := if bp_binary (yi_bin y) && se_static s
                   then new_result_binary (pe_request p) details
                          (bp_payload (yi_bin y)) (bp_serializer (yi_bin y))
                   else new_result (pe_request p) details (yi_args y) (yi_kwargs y) in
          Ret d (DMsg (MResult m) (pe_caller p))
      end
  end.

(** ReceiveMessage, case REGISTER, dealer.go:295-340. *)
Definition d_register (d : dealer) (sid : N) (m : register) : outcome dealer dout :=
  match d_by_session d !! sid with
  | None => Ret d (DErr "non-existent session")
  | Some mine =>
      let policy := to_string (mget (rg_options m) o_invoke) in
      match d_by_proc d !! rg_procedure m with
      | Some l =>
          match d_heap d !! l with
          | None => Crash "nil dereference"
          | Some g =>
              if String.eqb (g_invoke g) "" || String.eqb (g_invoke g) i_single
                 || negb (String.eqb (g_invoke g) policy)
              then Ret d (DMsg (MError (new_error tRegister (rg_request m) (Some [])
                                          "wamp.error.procedure_already_exists" None None)) sid)
              else
                let g := set_regs (<[sid := sid]> (g_regs g)) g in
                let g := set_callees (g_callees g ++ [sid]) g in
                let d := dset_heap (<[l := g]> (d_heap d)) d in
                let d := dset_by_proc (<[rg_procedure m := l]> (d_by_proc d)) d in
                let d := dset_by_session (<[sid := <[g_id g := l]> mine]> (d_by_session d)) d in
                Ret d (DMsg (MRegistered (Registered (rg_request m) (g_id g))) sid)
          end
      | None =>
          let id := next_id (d_idgen d) in
          let d := dset_idgen id d in
          let l := d_fresh d in
          let mt := to_string (mget (rg_options m) o_match) in
          let mt' := if String.eqb mt m_prefix then mt
                     else if String.eqb mt m_wildcard then mt else m_exact in
          let g := Registration id (rg_procedure m) {[sid := sid]} policy 0 [sid] mt' in
          let d := dset_heap (<[l := g]> (d_heap d)) (dset_fresh (l + 1) d) in
          let d := if String.eqb mt m_prefix
                   then dset_prefix (<[rg_procedure m := l]> (d_prefix d)) d
                   else if String.eqb mt m_wildcard
                   then dset_wild (<[rg_procedure m := l]> (d_wild d)) d else d in
          let d := dset_by_proc (<[rg_procedure m := l]> (d_by_proc d)) d in
          let d := dset_by_session (<[sid := <[id := l]> mine]> (d_by_session d)) d in
          Ret d (DMsg (MRegistered (Registered (rg_request m) id)) sid)
      end
  end.

(** ReceiveMessage, case UNREGISTER, dealer.go:341-364.  A registration id the
    session does not have gives a nil pointer, dereferenced at line 350; the
    result of prefixTree.Delete (line 356) is again thrown away. *)
Definition d_unregister (d : dealer) (sid : N) (m : unregister) : outcome dealer dout :=
  match d_by_session d !! sid with
  | None => Ret d (DErr "no registration")
  | Some mine =>
      if decide (mine = ∅) then Ret d (DErr "no registration")
      else
        match mine !! ur_registration m with
        | None => Crash "nil dereference"
        | Some l =>
            match d_heap d !! l with
            | None => Crash "nil dereference"
            | Some g =>
                let g := set_regs (delete sid (g_regs g)) g in
                let d := dset_heap (<[l := g]> (d_heap d)) d in
                let d :=
                  if decide (g_regs g = ∅) then
                    let d := dset_by_session
                               (<[sid := delete (ur_registration m) mine]> (d_by_session d)) d in
                    let d := dset_by_proc (delete (g_proc g) (d_by_proc d)) d in
                    if String.eqb (g_match g) m_wildcard
                    then dset_wild (delete (g_proc g) (d_wild d)) d else d
                  else d in
                Ret d (DMsg (MUnregistered (Unregistered (ur_request m))) sid)
            end
        end
  end.

(** ReceiveMessage, case ERROR, dealer.go:365-380. *)
Definition d_error (d : dealer) (e : error) : outcome dealer dout :=
  if negb (er_type e =? tInvocation) then Ret d (DErr "only in response to invocation")
  else
    match d_pending d !! er_request e with
    | None => Ret d (DErr "no pending invocation")
    | Some p =>
        let d := dset_pending (delete (er_request e) (d_pending d)) d in
        Ret d (DMsg (MError (new_error tCall (pe_request p) (er_details e) (er_uri e)
                               (er_args e) (er_kwargs e))) (pe_caller p))
    end.

(** ReceiveMessage, dealer.go:161-384. *)
Definition d_receive_message (o : oracle) (d : dealer) (sid : N) (m : message)
  : outcome dealer dout :=
  match m with
  | MCall c => d_call o d sid c
  | MYield y => d_yield d y
  | MRegister r => d_register d sid r
  | MUnregister u => d_unregister d sid u
  | MError e => d_error d e
  | _ => Ret d (DErr "unexpected message")
  end.

(** The methods as operations on a history. *)
Inductive dop : Type :=
| DAdd (s : session_details)
| DRemove (id : N)
| DHasProc (p : string)
| DDisclose (x : bool)
| DReceive (sid : N) (m : message).

Definition dstep (o : oracle) (d : dealer) (op : dop) : outcome dealer dout :=
  match op with
  | DAdd s => d_add_session d s
  | DRemove id => d_remove_session o d id
  | DHasProc p => d_has_procedure d p
  | DDisclose x => d_auto_disclose d x
  | DReceive sid m => d_receive_message o d sid m
  end.

(** A history: operations with the runtime's choices; the run stops at a panic. *)
Notation dhist := (list (oracle * dop)).
Fixpoint drun (d : dealer) (h : dhist) : outcome dealer (list dout) :=
  match h with
  | [] => Ret d []
  | (o, op) :: h' =>
      match dstep o d op with
      | Crash w => Crash w
      | Ret d' r =>
          match drun d' h' with
          | Crash w => Crash w
          | Ret d'' rs => Ret d'' (r :: rs)
          end
      end
  end.
