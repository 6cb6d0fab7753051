(** What becomes of a pre-encoded payload. *)
From Verif Require Import Prelude Value Msg IdGen Types BaseSpec WireSpec MsgSpec MsgParse Dealer DealerSpec
  DealerFacts DealerProofs DealerStep DealerEx DealerFinal Construct ConstructSpec ConstructProofs.

Local Open Scope string_scope.
Local Open Scope N_scope.

Lemma mget_app_last l k v : assoc k l = None -> mget (Some (l ++ [(k, v)])%list) k = v.
Proof.
  intros H. unfold mget. induction l as [|[k0 v0] l IH]; cbn [app assoc] in *.
  - by rewrite String.eqb_refl.
  - destruct (String.eqb k k0); [discriminate H|]. by apply IH.
Qed.
Lemma details_no_mark c sid who : assoc "x_payload_serializer" (invocation_details c sid who) = None.
Proof.
  unfold invocation_details. by destruct (says (ca_options c) "receive_progress"), (says (ca_options c) "progress"), who.
Qed.

Lemma invocation_passes h o sid c d0 d outs v callee : N.of_nat (length h) < two53 ->
  drun new_dealer h = Ret d0 outs -> dstep o d0 (DReceive sid (MCall c)) = Ret d (DMsg (MInvocation v) callee) ->
  bp_binary (ca_bin c) = true ->
  exists s, present_as (dtrace_of h outs) callee s
    /\ if se_static s
       then in_bin v = ca_bin c
            /\ mget (in_details v) "x_payload_serializer" = VInt KUint64 (Z.of_N (bp_serializer (ca_bin c)))
       else in_bin v = no_bin /\ in_args v = ca_args c /\ in_kwargs v = ca_kwargs c
            /\ mget (in_details v) "x_payload_serializer" = VNil.
Proof.
  intros Hl HR HS Hb. destruct (invocation_form _ _ _ _ _ _ _ _ _ Hl HR HS) as (s & who & Hs & _ & Hv).
  exists s. split; [exact Hs|]. unfold invocation_for in Hv. rewrite Hb in Hv. rewrite Hv. clear Hv HS.
  destruct (se_static s); cbn [andb in_bin in_details in_args in_kwargs].
  - split; [destruct (ca_bin c); cbn in *; by subst|]. apply mget_app_last, details_no_mark.
  - repeat split. unfold mget. by rewrite details_no_mark.
Qed.

Lemma result_passes h o sid y d0 d outs r to : N.of_nat (length h) <= two53 ->
  drun new_dealer h = Ret d0 outs -> dstep o d0 (DReceive sid (MYield y)) = Ret d (DMsg (MResult r) to) ->
  bp_binary (yi_bin y) = true ->
  exists s, present_as (dtrace_of h outs) to s
    /\ if se_static s
       then re_bin r = yi_bin y
            /\ mget (re_details r) "x_payload_serializer" = VInt KUint64 (Z.of_N (bp_serializer (yi_bin y)))
       else re_bin r = no_bin /\ re_args r = yi_args y /\ re_kwargs r = yi_kwargs y
            /\ mget (re_details r) "x_payload_serializer" = VNil.
Proof.
  intros Hl HR HS Hb. destruct (result_origin _ _ _ _ _ _ _ _ _ Hl HR HS) as (c & out & s & _ & _ & Hs & Hv).
  exists s. split; [exact Hs|]. injection Hv as Hv. unfold result_for in Hv. rewrite Hb in Hv. rewrite Hv. clear Hv HS.
  destruct (_ && says (yi_options y) "progress"), (se_static s); cbn [andb re_bin re_details re_args re_kwargs];
    try (repeat split; fail); (split; [destruct (yi_bin y); cbn in *; by subst|reflexivity]).
Qed.

(** The same message with another payload. *)
Definition with_bin (m : message) (b : binpay) : message :=
  match m with
  | MCall (Call r o p a k _) => MCall (Call r o p a k b)
  | MResult (Result r d a k _) => MResult (Result r d a k b)
  | MInvocation (Invocation r g d a k _) => MInvocation (Invocation r g d a k b)
  | MYield (Yield r o a k _) => MYield (Yield r o a k b)
  | _ => m
  end.
Lemma marshal_drops {PL : Platform} m b sh l m' : marshal (with_bin m b) = marshal m
  /\ (Forall2 wire (marshal (with_bin m b)) l -> to_message sh l = Ok m' -> msg_bin m' = no_bin).
Proof.
  split; [by destruct m as [ | | | | | | | | | | | | | |[]| |[]| | | | |[]| |[]]|].
  intros _ H. apply to_message_accepts in H as (v & vs & lo & hi & ss & _ & _ & _ & _ & H & _). exact H.
Qed.

(** ** Examples *)

(** Sessions 1 and 2 serve "dynamic" and "static"; 3 calls both with the bytes
    "xyz" of serializer 3. *)
Definition static_peer (n : N) : session_details :=
  new_session_details n "realm1" "john" "user" "ticket" true None None.
Definition bin_call (req : N) (p : string) : dop :=
  DReceive 3 (MCall (new_call_binary req None p "xyz" 3)).
Definition h_bin : dhist := hist
  [DAdd (peer 1); DAdd (static_peer 2); DAdd (static_peer 3); dreg 1 10 "dynamic" []; dreg 2 10 "static" []].
Definition bin_yield (i : N) : dop := DReceive 2 (MYield (new_yield_binary i None "abc" 2)).

(** A program that calls twice with one options map. *)
Definition two_calls : list uop :=
  [UMap [("timeout", VInt KInt 5)]; UBuild (NewCallBinary 1 (Some 0) "p" "xyz" 1)].
Definition second_call : list uop := [UBuild (NewCallBinary 2 (Some 0) "p" "xyz" 2)].
Definition views (ops : list uop) : list message :=
  match urun (no_maps, []) ops with Some (h, os) => map (view h) os | None => [] end.
