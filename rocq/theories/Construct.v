(** The constructors of /repo/messages with Go's maps as what they are:
    references.  A map is an address in a heap; [None] is the nil map.
    Slices and the values inside maps are kept as values: no constructor
    writes to them. *)
From Verif Require Import Prelude Value Msg.

Local Open Scope string_scope.

Definition ptr : Type := option N.
Record mapheap : Type := MapHeap { mh_next : N; mh_maps : gmap N (list (string * value)) }.
Definition no_maps : mapheap := MapHeap 0 ∅.

(** make(map[string]any), filled with [l]. *)
Definition make_map (h : mapheap) (l : list (string * value)) : mapheap * ptr :=
  (MapHeap (N.succ (mh_next h)) (<[mh_next h := l]> (mh_maps h)), Some (mh_next h)).
(** What is seen through a reference. *)
Definition read_map (h : mapheap) (p : ptr) : gomap :=
  match p with None => None | Some a => mh_maps h !! a end.
(** [m[k] = v]. *)
Definition write_map (h : mapheap) (p : ptr) (k : string) (v : value) : mapheap :=
  match p with
  | None => h
  | Some a => MapHeap (mh_next h) (alter (assoc_set k v) a (mh_maps h))
  end.

(** [if options == nil { options = make(map[string]any) }], e.g. call.go:80-82. *)
Definition default_map (h : mapheap) (p : ptr) : mapheap * ptr :=
  match p with None => make_map h [] | Some _ => (h, p) end.

(** A message holds references to at most two maps. *)
Record object : Type := Object {
  ob_dict : ptr; ob_other : ptr; ob_make : gomap -> gomap -> message }.
(** What its getters, and so Marshal, show. *)
Definition view (h : mapheap) (o : object) : message :=
  ob_make o (read_map h (ob_dict o)) (read_map h (ob_other o)).

(** The constructors and their arguments. *)
Inductive build : Type :=
| NewHello (realm authid : string) (authextra roles : ptr) (methods : option (list string))
| NewWelcome (session : N) (details : ptr)
| NewAbort (details : ptr) (reason : string) (args : goslice) (kwargs : ptr)
| NewChallenge (method : string) (extra : ptr)
| NewAuthenticate (signature : string) (extra : ptr)
| NewGoodBye (reason : string) (details : ptr)
| NewError (type request : N) (details : ptr) (uri : string) (args : goslice) (kwargs : ptr)
| NewPublish (request : N) (options : ptr) (uri : string) (args : goslice) (kwargs : ptr)
| NewPublished (request publication : N)
| NewSubscribe (request : N) (options : ptr) (uri : string)
| NewSubscribed (request subscription : N)
| NewUnsubscribe (request subscription : N)
| NewUnsubscribed (request : N)
| NewEvent (subscription publication : N) (details : ptr) (args : goslice) (kwargs : ptr)
| NewCall (request : N) (options : ptr) (procedure : string) (args : goslice) (kwargs : ptr)
| NewCallBinary (request : N) (options : ptr) (procedure payload : string) (serializer : N)
| NewCancel (request : N) (options : ptr)
| NewResult (request : N) (details : ptr) (args : goslice) (kwargs : ptr)
| NewResultBinary (request : N) (details : ptr) (payload : string) (serializer : N)
| NewRegister (request : N) (options : ptr) (uri : string)
| NewRegistered (request registration : N)
| NewUnregister (request registration : N)
| NewUnregistered (request : N)
| NewInvocation (request registration : N) (details : ptr) (args : goslice) (kwargs : ptr)
| NewInvocationBinary (request registration : N) (details : ptr) (payload : string) (serializer : N)
| NewInterrupt (request : N) (options : ptr)
| NewYield (request : N) (options : ptr) (args : goslice) (kwargs : ptr)
| NewYieldBinary (request : N) (options : ptr) (payload : string) (serializer : N).

(** A constructor that replaces a nil map by a new one. *)
Definition defaulted (h : mapheap) (d other : ptr) (make : gomap -> gomap -> message)
  : mapheap * object :=
  let '(h', d') := default_map h d in (h', Object d' other make).
(** One that then writes the number of the serializer into it, e.g. call.go:97-101. *)
Definition marked (h : mapheap) (d : ptr) (ser : N) (make : gomap -> gomap -> message)
  : mapheap * object :=
  let '(h', d') := default_map h d in
  (write_map h' d' "x_payload_serializer" (VInt KUint64 (Z.of_N ser)), Object d' None make).

Definition construct (h : mapheap) (b : build) : mapheap * object :=
  match b with
  | NewHello r i e ro ms =>  (* hello.go:64-72 *)
      (h, Object e ro (fun e ro => MHello (Hello r i ms e ro)))
  | NewWelcome s d =>  (* welcome.go:40-42 *)
      (h, Object d None (fun d _ => MWelcome (Welcome s d)))
  | NewAbort d r a k =>  (* abort.go:54-65 *)
      defaulted h d k (fun d k => MAbort (Abort d r a k))
  | NewChallenge m e =>  (* challenge.go:44-46 *)
      (h, Object e None (fun e _ => MChallenge (Challenge m e)))
  | NewAuthenticate s e =>  (* authenticate.go:46-48 *)
      (h, Object e None (fun e _ => MAuthenticate (Authenticate s e)))
  | NewGoodBye r d =>  (* goodbye.go:42-48 *)
      defaulted h d None (fun d _ => MGoodbye (Goodbye d r))
  | NewError t r d u a k =>  (* error.go:84-98 *)
      defaulted h d k (fun d k => MError (Error t r d u a k))
  | NewPublish r o u a k =>  (* publish.go:75-87 *)
      defaulted h o k (fun o k => MPublish (Publish r o u a k))
  | NewPublished r p =>  (* published.go:40-42 *)
      (h, Object None None (fun _ _ => MPublished (Published r p)))
  | NewSubscribe r o u =>  (* subscribe.go:51-61 *)
      defaulted h o None (fun o _ => MSubscribe (Subscribe r o u))
  | NewSubscribed r s =>  (* subscribed.go:40-42 *)
      (h, Object None None (fun _ _ => MSubscribed (Subscribed r s)))
  | NewUnsubscribe r s =>  (* unsubscribe.go:40-42 *)
      (h, Object None None (fun _ _ => MUnsubscribe (Unsubscribe r s)))
  | NewUnsubscribed r =>  (* unsubscribed.go:33-35 *)
      (h, Object None None (fun _ _ => MUnsubscribed (Unsubscribed r)))
  | NewEvent s p d a k =>  (* event.go:77-89 *)
      defaulted h d k (fun d k => MEvent (Event s p d a k))
  | NewCall r o p a k =>  (* call.go:79-91 *)
      defaulted h o k (fun o k => MCall (Call r o p a k no_bin))
  | NewCallBinary r o p pl ser =>  (* call.go:95-112 *)
      marked h o ser (fun o _ => MCall (Call r o p None None (BinPay true ser pl)))
  | NewCancel r o =>  (* cancel.go:40-46 *)
      defaulted h o None (fun o _ => MCancel (Cancel r o))
  | NewResult r d a k =>  (* result.go:72-80 *)
      defaulted h d k (fun d k => MResult (Result r d a k no_bin))
  | NewResultBinary r d pl ser =>  (* result.go:84-98 *)
      marked h d ser (fun d _ => MResult (Result r d None None (BinPay true ser pl)))
  | NewRegister r o u =>  (* register.go:47-57 *)
      defaulted h o None (fun o _ => MRegister (Register r o u))
  | NewRegistered r g =>  (* registered.go:40-42 *)
      (h, Object None None (fun _ _ => MRegistered (Registered r g)))
  | NewUnregister r g =>  (* unregister.go:40-42 *)
      (h, Object None None (fun _ _ => MUnregister (Unregister r g)))
  | NewUnregistered r =>  (* unregistered.go:33-35 *)
      (h, Object None None (fun _ _ => MUnregistered (Unregistered r)))
  | NewInvocation r g d a k =>  (* invocation.go:81-97 *)
      defaulted h d k (fun d k => MInvocation (Invocation r g d a k no_bin))
  | NewInvocationBinary r g d pl ser =>  (* invocation.go:101-118 *)
      marked h d ser (fun d _ => MInvocation (Invocation r g d None None (BinPay true ser pl)))
  | NewInterrupt r o =>  (* interrupt.go:44-50 *)
      defaulted h o None (fun o _ => MInterrupt (Interrupt r o))
  | NewYield r o a k =>  (* yield.go:72-80 *)
      defaulted h o k (fun o k => MYield (Yield r o a k no_bin))
  | NewYieldBinary r o pl ser =>  (* yield.go:84-98 *)
      marked h o ser (fun o _ => MYield (Yield r o None None (BinPay true ser pl)))
  end.

(** The references a call passes. *)
Definition passed (b : build) : list ptr :=
  match b with
  | NewHello _ _ e ro _ => [e; ro]
  | NewWelcome _ d | NewChallenge _ d | NewAuthenticate _ d | NewGoodBye _ d | NewSubscribe _ d _
  | NewCallBinary _ d _ _ _ | NewCancel _ d | NewResultBinary _ d _ _ | NewRegister _ d _
  | NewInvocationBinary _ _ d _ _ | NewInterrupt _ d | NewYieldBinary _ d _ _ => [d]
  | NewAbort d _ _ k | NewError _ _ d _ _ k | NewPublish _ d _ _ k | NewEvent _ _ d _ k
  | NewCall _ d _ _ k | NewResult _ d _ k | NewInvocation _ _ d _ k | NewYield _ d _ k => [d; k]
  | NewPublished _ _ | NewSubscribed _ _ | NewUnsubscribe _ _ | NewUnsubscribed _
  | NewRegistered _ _ | NewUnregister _ _ | NewUnregistered _ => []
  end.

(** A program that makes maps and messages; a reference can only be passed
    when the map is there. *)
Inductive uop : Type := UMap (l : list (string * value)) | UBuild (b : build).
Definition ustep (st : mapheap * list object) (op : uop) : option (mapheap * list object) :=
  let '(h, os) := st in
  match op with
  | UMap l => Some (fst (make_map h l), os)
  | UBuild b =>
      if forallb (fun p => match p with None => true | Some a => bool_decide (is_Some (mh_maps h !! a)) end) (passed b)
      then let '(h', o) := construct h b in Some (h', o :: os)
      else None
  end.
Fixpoint urun (st : mapheap * list object) (ops : list uop) : option (mapheap * list object) :=
  match ops with
  | [] => Some st
  | op :: ops' => match ustep st op with Some st' => urun st' ops' | None => None end
  end.
