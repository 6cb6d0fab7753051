(** Going through a serializer twice is like going through it once; what the
    parts look at in a message is not changed by it. *)
From Verif Require Import Prelude Value Msg IdGen Types PathMatch Broker Dealer Session Network.
From Verif Require Import WireSpec MsgSpec NetworkSpec NetworkWire MsgWire FloatSame.

Local Open Scope string_scope.
Local Open Scope list_scope.
Local Open Scope N_scope.

Fixpoint vsize (v : value) : nat :=
  match v with
  | VSlice (Some l) => S (list_sum (map vsize l))
  | VMap (Some m) => S (list_sum (map (fun x => vsize (snd x)) m))
  | _ => 1
  end.
Lemma vsize_in x l : x ∈ l -> (vsize x <= list_sum (map vsize l))%nat.
Proof. induction 1; cbn [map list_sum foldr]; unfold list_sum in *; cbn; lia. Qed.
Lemma vsize_assoc k x m : assoc k m = Some x -> (vsize x <= list_sum (map (fun y => vsize (snd y)) m))%nat.
Proof.
  induction m as [|[k' y] m IH]; cbn; [done|]. destruct (String.eqb k k').
  - intros [= ->]. unfold list_sum. cbn. lia.
  - intros H. apply IH in H. unfold list_sum in *. cbn. lia.
Qed.

Lemma Forall2_trans_in {A} (R : A -> A -> Prop) l1 l2 l3 : Forall2 R l1 l2 -> Forall2 R l2 l3 ->
  (forall x y z, y ∈ l2 -> R x y -> R y z -> R x z) -> Forall2 R l1 l3.
Proof.
  intros H. revert l3. induction H as [|a b la lb Hab HA IH]; intros l3 HB Ht.
  - by apply Forall2_nil_inv_l in HB as ->.
  - apply Forall2_cons_inv_l in HB as (c & lc & Hbc & HB & ->). constructor.
    + eapply (Ht a b); [left|exact Hab|assumption].
    + apply IH; [assumption|]. intros u v w Hv. apply Ht. by right.
Qed.

Lemma wire_trans v1 v2 v3 : wire v1 v2 -> wire v2 v3 -> wire v1 v3.
Proof.
  remember (vsize v2) as n eqn:Hn. revert v1 v2 v3 Hn.
  induction (lt_wf n) as [n _ IH]. intros v1 v2 v3 -> H12 H23.
  inversion H12; subst; inversion H23; subst; try (by constructor); try assumption;
    try (constructor; [assumption|by eapply float_is_same_is]); try (constructor; by eapply float_same_trans).
  - (* slices *)
    constructor. eapply Forall2_trans_in; [eassumption..|].
    intros x y z Hy. apply (IH (vsize y)); [|reflexivity]. cbn. apply vsize_in in Hy. lia.
  - (* maps *)
    constructor. rename H into HA, H1 into HB. intros k. specialize (HA k). specialize (HB k).
    destruct (assoc k m') as [y|] eqn:Ek; inversion HA; subst; inversion HB; subst; constructor.
    eapply (IH (vsize y)); [|reflexivity|eassumption..]. cbn. apply vsize_assoc in Ek. lia.
  - (* lists of strings *)
    enough (l' = map VStr l) as -> by constructor.
    match goal with H : Forall2 wire _ _ |- _ => revert H end. clear. revert l'.
    induction l as [|s l IHl]; intros l' HB; cbn [map] in HB.
    + by apply Forall2_nil_inv_l in HB.
    + apply Forall2_cons_inv_l in HB as (c & lc & Hbc & HB & ->). cbn. f_equal; [by inversion Hbc|by apply IHl].
Qed.

(** What came out of a serializer goes through unchanged. *)
Lemma wire_image v v' : wire v v' -> wire v' v'.
Proof.
  remember (vsize v') as n eqn:Hn. revert v v' Hn.
  induction (lt_wf n) as [n _ IH]. intros v v' -> H.
  inversion H; subst; try (by constructor); try assumption; try (constructor; apply float_same_refl).
  - constructor. assert (forall x, x ∈ l' -> wire x x) as Hx.
    { intros x Hx. apply elem_of_list_lookup in Hx as (i & Hx).
      destruct (Forall2_lookup_r _ _ _ _ _ H0 Hx) as (y & _ & Hy). apply elem_of_list_lookup_2 in Hx.
      eapply IH; [|reflexivity|exact Hy]. cbn. apply vsize_in in Hx. lia. }
    clear -Hx. induction l' as [|x l IHl]; constructor; [apply Hx; left|]. apply IHl. intros. apply Hx. by right.
  - constructor. intros k. specialize (H0 k). destruct (assoc k m') as [y|] eqn:Ek; inversion H0; subst; constructor.
    eapply (IH (vsize y)); [|reflexivity|eassumption]. cbn. apply vsize_assoc in Ek. lia.
  - constructor. clear. induction l; constructor; [constructor|done].
Qed.

(** * Likeness *)
Lemma like_refl v : like v v. Proof. by left. Qed.
Lemma like_trans v1 v2 v3 : like v1 v2 -> like v2 v3 -> like v1 v3.
Proof. intros [->|H] [->|H']; [by left|by right|by right|right; by eapply wire_trans]. Qed.
Lemma map_like_refl m : map_like m m.
Proof. intros k. destruct (assoc k m); constructor. apply like_refl. Qed.
Lemma map_like_trans m1 m2 m3 : map_like m1 m2 -> map_like m2 m3 -> map_like m1 m3.
Proof.
  intros H H' k. specialize (H k). specialize (H' k).
  inversion H as [? ? ? E1 E2|E1 E2]; rewrite <- E2 in H'; inversion H'; subst; constructor.
  by eapply like_trans.
Qed.
Lemma wire_map_like m m' : wire_map m m' -> map_like m m'.
Proof. intros H k. destruct (H k); constructor. by right. Qed.
Lemma Forall2_like_refl l : Forall2 like l l.
Proof. induction l; constructor; [apply like_refl|done]. Qed.
Lemma fld_like_refl f : fld_like f f.
Proof.
  destruct f as [| |[m|]|[l|]|[m|]]; cbn; try done; [apply map_like_refl|apply Forall2_like_refl|apply map_like_refl].
Qed.
Lemma fld_like_trans f1 f2 f3 : fld_like f1 f2 -> fld_like f2 f3 -> fld_like f1 f3.
Proof.
  destruct f1 as [| |[m1|]|[l1|]|[m1|]], f2 as [| |[m2|]|[l2|]|[m2|]]; cbn [fld_like]; try done; intros H H';
    try (injection H as <-); try exact H';
    destruct f3 as [| |[m3|]|[l3|]|[m3|]]; cbn [fld_like] in *; try done; try congruence.
  - by eapply map_like_trans.
  - eapply Forall2_trans_in; [eassumption..|]. intros x y z _. apply like_trans.
  - subst. by inversion H'.
  - by eapply map_like_trans.
Qed.
Lemma msg_like_refl m : msg_like m m.
Proof. split; [done|]. induction (msg_fields m); constructor; [apply fld_like_refl|done]. Qed.
Lemma msg_like_trans m1 m2 m3 : msg_like m1 m2 -> msg_like m2 m3 -> msg_like m1 m3.
Proof.
  intros [? H] [? H']. split; [congruence|]. eapply Forall2_trans_in; [eassumption..|].
  intros x y z _. apply fld_like_trans.
Qed.

Definition wireable (m : message) : Prop :=
  match m with MHello _ | MAuthenticate _ | MAbort _ => False | _ => True end.
Lemma same_like m m' : wireable m -> msg_same m m' -> msg_like m m'.
Proof.
  intros Hw H. assert (mtype m = mtype m' /\ Forall2 fld_same (msg_fields m) (msg_fields m')) as [Ht Hf].
  { destruct m; try (destruct Hw; fail); exact (conj (proj1 H) (proj1 (proj2 H))). }
  split; [done|]. eapply Forall2_impl; [exact Hf|]. intros f f'.
  destruct f as [| |[m1|]|[l1|]|[m1|]], f' as [| |[m2|]|[l2|]|[m2|]]; cbn; try done; try congruence.
  - apply wire_map_like.
  - intros HF. eapply Forall2_impl; [exact HF|]. intros. by right.
  - apply wire_map_like.
Qed.

(** * What is looked at *)
Lemma like_bool v v' : like v v' -> to_bool v = to_bool v'.
Proof. intros [->|H]; [done|]. by destruct H. Qed.
Lemma like_string v v' : (forall s, v <> VMethod s) -> like v v' -> to_string v = to_string v'.
Proof. intros Hn [->|H]; [done|]. destruct H; try done. by destruct (Hn s). Qed.
Lemma like_get (o o' : gomap) k : fld_like (FDict o) (FDict o') -> like (mget o k) (mget o' k).
Proof.
  destruct o as [m|], o' as [m'|]; cbn; try done; [|intros _; apply like_refl].
  intros H. destruct (H k); [assumption|apply like_refl].
Qed.
Lemma like_flag (o o' : gomap) k : fld_like (FDict o) (FDict o') -> to_bool (mget o k) = to_bool (mget o' k).
Proof. intros H. by apply like_bool, like_get. Qed.
