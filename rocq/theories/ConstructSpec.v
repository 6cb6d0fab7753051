(** What a program may expect of the message constructors. *)
From Verif Require Import Prelude Value Msg MsgSpec Construct.

Local Open Scope string_scope.

(** The message the arguments describe: the values the maps have at the call,
    an empty dictionary for nil where the constructor replaces it. *)
Definition described (h : mapheap) (b : build) : message :=
  let m := read_map h in
  let d p := match read_map h p with None => Some [] | x => x end in
  let x p ser := match read_map h p with
                 | None => Some [("x_payload_serializer", VInt KUint64 (Z.of_N ser))]
                 | Some l => Some (assoc_set "x_payload_serializer" (VInt KUint64 (Z.of_N ser)) l)
                 end in
  match b with
  | NewHello r i e ro ms => MHello (Hello r i ms (m e) (m ro))
  | NewWelcome s e => MWelcome (Welcome s (m e))
  | NewAbort e r a k => MAbort (Abort (d e) r a (m k))
  | NewChallenge n e => MChallenge (Challenge n (m e))
  | NewAuthenticate s e => MAuthenticate (Authenticate s (m e))
  | NewGoodBye r e => MGoodbye (Goodbye (d e) r)
  | NewError t r e u a k => MError (Error t r (d e) u a (m k))
  | NewPublish r o u a k => MPublish (Publish r (d o) u a (m k))
  | NewPublished r p => MPublished (Published r p)
  | NewSubscribe r o u => MSubscribe (Subscribe r (d o) u)
  | NewSubscribed r s => MSubscribed (Subscribed r s)
  | NewUnsubscribe r s => MUnsubscribe (Unsubscribe r s)
  | NewUnsubscribed r => MUnsubscribed (Unsubscribed r)
  | NewEvent s p e a k => MEvent (Event s p (d e) a (m k))
  | NewCall r o p a k => MCall (Call r (d o) p a (m k) no_bin)
  | NewCallBinary r o p pl ser => MCall (Call r (x o ser) p None None (BinPay true ser pl))
  | NewCancel r o => MCancel (Cancel r (d o))
  | NewResult r e a k => MResult (Result r (d e) a (m k) no_bin)
  | NewResultBinary r e pl ser => MResult (Result r (x e ser) None None (BinPay true ser pl))
  | NewRegister r o u => MRegister (Register r (d o) u)
  | NewRegistered r g => MRegistered (Registered r g)
  | NewUnregister r g => MUnregister (Unregister r g)
  | NewUnregistered r => MUnregistered (Unregistered r)
  | NewInvocation r g e a k => MInvocation (Invocation r g (d e) a (m k) no_bin)
  | NewInvocationBinary r g e pl ser => MInvocation (Invocation r g (x e ser) None None (BinPay true ser pl))
  | NewInterrupt r o => MInterrupt (Interrupt r (d o))
  | NewYield r o a k => MYield (Yield r (d o) a (m k) no_bin)
  | NewYieldBinary r o pl ser => MYield (Yield r (x o ser) None None (BinPay true ser pl))
  end.

(** The map a constructor for pre-encoded payload is given. *)
Definition marks (b : build) : ptr :=
  match b with
  | NewCallBinary _ o _ _ _ | NewYieldBinary _ o _ _ => o
  | NewResultBinary _ d _ _ | NewInvocationBinary _ _ d _ _ => d
  | _ => None
  end.
(** None of [ops] passes one of the message's maps to such a constructor. *)
Definition spares (o : object) (op : uop) : Prop :=
  match op with
  | UMap _ => True
  | UBuild b => marks b = None \/ (marks b <> ob_dict o /\ marks b <> ob_other o)
  end.

(** Built with a nil dictionary where the constructor does not replace it, or
    an ABORT with keyword arguments only. *)
Definition unreadable (b : build) : Prop :=
  match b with
  | NewWelcome _ None | NewChallenge _ None => True
  | NewAbort _ _ None (Some _) => True
  | _ => False
  end.
Definition ids_small (m : message) : Prop :=
  Forall (fun f => match f with FId n => (Z.of_N n < two64)%Z | _ => True end) (msg_fields m).
