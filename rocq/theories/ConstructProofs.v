From Verif Require Import Prelude Value Msg BaseSpec WireSpec MsgSpec BaseFacts MsgFacts MsgParse MsgProof MsgWire Construct ConstructSpec.

Local Open Scope string_scope.

Definition wf (h : mapheap) : Prop := forall a, is_Some (mh_maps h !! a) -> (a < mh_next h)%N.
Definition valid (h : mapheap) (p : ptr) : Prop :=
  match p with None => True | Some a => is_Some (mh_maps h !! a) end.

Lemma wf_none : wf no_maps.
Proof. intros a [x H]. unfold no_maps in H. cbn [mh_maps] in H. by rewrite lookup_empty in H. Qed.

Lemma fresh_none h : wf h -> mh_maps h !! mh_next h = None.
Proof.
  intros H. destruct (mh_maps h !! mh_next h) eqn:E; [|done].
  assert (mh_next h < mh_next h)%N by (apply H; eauto). lia.
Qed.
Lemma make_wf h l : wf h -> wf (fst (make_map h l)).
Proof.
  intros H a. cbn. destruct (decide (a = mh_next h)) as [->|Hn]; [lia|].
  rewrite lookup_insert_ne by done. intros Ha. specialize (H a Ha). lia.
Qed.
Lemma make_old h l a : wf h -> is_Some (mh_maps h !! a) -> mh_maps (fst (make_map h l)) !! a = mh_maps h !! a.
Proof. intros H Ha. cbn. apply lookup_insert_ne. specialize (H a Ha). lia. Qed.
Lemma write_wf h p k v : wf h -> wf (write_map h p k v).
Proof.
  intros H. destruct p as [b|]; [|exact H]. intros a. cbn.
  intros Ha. apply H. destruct (decide (a = b)) as [->|Hn].
  - rewrite lookup_alter in Ha. by apply fmap_is_Some in Ha.
  - by rewrite lookup_alter_ne in Ha by congruence.
Qed.

Lemma default_wf h p h' p' : wf h -> default_map h p = (h', p') -> wf h'.
Proof.
  intros H. destruct p; cbn [default_map]; [by intros [= <- <-]|]. intros E.
  change h' with (fst (h', p')). rewrite <- E. by apply make_wf.
Qed.
Lemma default_old h p h' p' a : wf h -> default_map h p = (h', p') -> is_Some (mh_maps h !! a) ->
  mh_maps h' !! a = mh_maps h !! a.
Proof.
  intros H. destruct p; cbn [default_map]; [by intros [= <- <-]|]. intros E Ha.
  change h' with (fst (h', p')). rewrite <- E. by apply make_old.
Qed.
Lemma default_read h p h' p' : wf h -> valid h p -> default_map h p = (h', p') ->
  read_map h' p' = match read_map h p with None => Some [] | x => x end.
Proof.
  intros H Hv. destruct p as [a|]; cbn [default_map].
  - intros [= <- <-]. cbn in Hv |- *. by destruct Hv as [x ->].
  - intros [= <- <-]. cbn. apply lookup_insert.
Qed.
Lemma default_other h p h' p' q : wf h -> valid h q -> default_map h p = (h', p') ->
  read_map h' q = read_map h q.
Proof.
  intros H Hv E. destruct q as [a|]; [|done]. cbn. by eapply default_old.
Qed.

Lemma defaulted_ok h d q make h' o : wf h -> valid h d -> valid h q -> defaulted h d q make = (h', o) ->
  wf h' /\ view h' o = make (match read_map h d with None => Some [] | x => x end) (read_map h q)
  /\ (forall a, is_Some (mh_maps h !! a) -> mh_maps h' !! a = mh_maps h !! a)
  /\ valid h' (ob_dict o) /\ valid h' (ob_other o).
Proof.
  intros H Hd Hq E. unfold defaulted in E. destruct (default_map h d) as [h1 d1] eqn:E1. injection E as <- <-.
  split; [by eapply default_wf|]. split.
  { unfold view. cbn. f_equal; [by eapply default_read|by eapply default_other]. }
  split; [intros a Ha; by eapply default_old|]. cbn [ob_dict ob_other]. split.
  - pose proof (default_read _ _ _ _ H Hd E1) as Hr. destruct d1 as [a|]; [|done]. cbn in *. rewrite Hr.
    destruct (read_map h d); eauto.
  - destruct q as [a|]; [|done]. cbn in *. rewrite (default_old _ _ _ _ _ H E1 Hq). done.
Qed.

Lemma write_read h a k v l : mh_maps h !! a = Some l -> read_map (write_map h (Some a) k v) (Some a) = Some (assoc_set k v l).
Proof. intros H. cbn. by rewrite lookup_alter, H. Qed.
Lemma write_other h p k v a : p <> Some a -> mh_maps (write_map h p k v) !! a = mh_maps h !! a.
Proof. intros H. destruct p as [b|]; [|done]. cbn. apply lookup_alter_ne. congruence. Qed.
Lemma write_some h p k v a : is_Some (mh_maps h !! a) -> is_Some (mh_maps (write_map h p k v) !! a).
Proof.
  intros H. destruct p as [b|]; [|done]. cbn. destruct (decide (a = b)) as [->|Hn].
  - rewrite lookup_alter. by apply fmap_is_Some.
  - by rewrite lookup_alter_ne by congruence.
Qed.

Lemma marked_ok h d ser make h' o : wf h -> valid h d -> marked h d ser make = (h', o) ->
  wf h' /\ view h' o = make (match read_map h d with
                 | None => Some [("x_payload_serializer", VInt KUint64 (Z.of_N ser))]
                 | Some l => Some (assoc_set "x_payload_serializer" (VInt KUint64 (Z.of_N ser)) l)
                 end) None
  /\ (forall a, is_Some (mh_maps h !! a) -> d <> Some a -> mh_maps h' !! a = mh_maps h !! a)
  /\ (forall a l, mh_maps h !! a = Some l -> exists l', mh_maps h' !! a = Some l'
        /\ (l' = l \/ l' = assoc_set "x_payload_serializer" (VInt KUint64 (Z.of_N ser)) l))
  /\ valid h' (ob_dict o) /\ valid h' (ob_other o).
Proof.
  intros H Hd E. unfold marked in E. destruct (default_map h d) as [h1 d1] eqn:E1. injection E as <- <-.
  pose proof (default_read _ _ _ _ H Hd E1) as Hr.
  assert (exists a l, d1 = Some a /\ mh_maps h1 !! a = Some l) as (a1 & l1 & -> & Hl1).
  { destruct d1 as [a|]; [|by destruct (read_map h d)]. cbn in Hr. destruct (read_map h d); eauto. }
  split; [apply write_wf; by eapply default_wf|]. split.
  { unfold view. cbn [ob_dict ob_other ob_make]. rewrite (write_read _ _ _ _ _ Hl1).
    cbn in Hr. rewrite Hl1 in Hr. f_equal. destruct (read_map h d); injection Hr as ->; reflexivity. }
  split.
  { intros a Ha Hn. rewrite write_other.
    - by eapply default_old.
    - intros [= ->]. destruct d as [b|]; cbn in E1.
      + injection E1 as _ ->. done.
      + injection E1 as <- <-. rewrite (fresh_none h H) in Ha. by destruct Ha. }
  split.
  { intros a l Hl. destruct (decide (a1 = a)) as [->|Hn].
    - eexists. split; [cbn; rewrite lookup_alter, Hl1; reflexivity|]. right.
      rewrite (default_old _ _ _ _ _ H E1) in Hl1 by eauto. congruence.
    - exists l. split; [|by left]. rewrite write_other by congruence.
      by rewrite (default_old _ _ _ _ _ H E1) by eauto. }
  cbn [ob_dict ob_other]. split; [|done]. cbn [valid]. apply write_some. eauto.
Qed.

Definition pre (h : mapheap) (b : build) : Prop := Forall (valid h) (passed b).

(** Everything about one call. *)
Lemma construct_ok h b h' o : wf h -> pre h b -> construct h b = (h', o) ->
  wf h' /\ view h' o = described h b
  /\ (forall a, is_Some (mh_maps h !! a) -> marks b <> Some a -> mh_maps h' !! a = mh_maps h !! a)
  /\ (forall a l, mh_maps h !! a = Some l -> exists l', mh_maps h' !! a = Some l'
        /\ (l' = l \/ exists v, l' = assoc_set "x_payload_serializer" v l))
  /\ valid h' (ob_dict o) /\ valid h' (ob_other o).
Proof.
  intros H Hp E. unfold pre in Hp.
  assert (Hsame : forall o' m, h' = h -> o = o' -> view h o' = m -> described h b = m ->
    valid h (ob_dict o') -> valid h (ob_other o') ->
    wf h' /\ view h' o = described h b
    /\ (forall a, is_Some (mh_maps h !! a) -> marks b <> Some a -> mh_maps h' !! a = mh_maps h !! a)
    /\ (forall a l, mh_maps h !! a = Some l -> exists l', mh_maps h' !! a = Some l'
          /\ (l' = l \/ exists v, l' = assoc_set "x_payload_serializer" v l))
    /\ valid h' (ob_dict o) /\ valid h' (ob_other o)).
  { intros o' m -> -> Hv Hd H1 H2. split; [done|]. split; [congruence|]. split; [done|]. split; [eauto|done]. }
  assert (Hdef : forall d q make, marks b = None -> defaulted h d q make = (h', o) -> valid h d -> valid h q ->
    described h b = make (match read_map h d with None => Some [] | x => x end) (read_map h q) ->
    wf h' /\ view h' o = described h b
    /\ (forall a, is_Some (mh_maps h !! a) -> marks b <> Some a -> mh_maps h' !! a = mh_maps h !! a)
    /\ (forall a l, mh_maps h !! a = Some l -> exists l', mh_maps h' !! a = Some l'
          /\ (l' = l \/ exists v, l' = assoc_set "x_payload_serializer" v l))
    /\ valid h' (ob_dict o) /\ valid h' (ob_other o)).
  { intros d q make Hm E' Hd Hq Hx. destruct (defaulted_ok _ _ _ _ _ _ H Hd Hq E') as (H1 & H2 & H3 & H4 & H5).
    split; [done|]. split; [congruence|]. split; [auto|]. split; [|done].
    intros a l Hl. exists l. split; [|by left]. rewrite H3; eauto. }
  assert (Hmark : forall d ser make, marks b = d -> marked h d ser make = (h', o) -> valid h d ->
    described h b = make (match read_map h d with
                 | None => Some [("x_payload_serializer", VInt KUint64 (Z.of_N ser))]
                 | Some l => Some (assoc_set "x_payload_serializer" (VInt KUint64 (Z.of_N ser)) l)
                 end) None ->
    wf h' /\ view h' o = described h b
    /\ (forall a, is_Some (mh_maps h !! a) -> marks b <> Some a -> mh_maps h' !! a = mh_maps h !! a)
    /\ (forall a l, mh_maps h !! a = Some l -> exists l', mh_maps h' !! a = Some l'
          /\ (l' = l \/ exists v, l' = assoc_set "x_payload_serializer" v l))
    /\ valid h' (ob_dict o) /\ valid h' (ob_other o)).
  { intros d ser make Hm E' Hd Hx. destruct (marked_ok _ _ _ _ _ _ H Hd E') as (H1 & H2 & H3 & H4 & H5).
    split; [done|]. split; [congruence|]. split; [rewrite Hm; auto|]. split; [|done].
    intros a l Hl. destruct (H4 a l Hl) as (l' & Hl' & Hc). exists l'. split; [done|]. destruct Hc; eauto. }
  destruct b; cbn [construct passed] in E, Hp;
    repeat match goal with Hp : Forall _ (_ :: _) |- _ => apply Forall_cons in Hp as [? Hp] end;
    first [ injection E as <- <-; eapply Hsame; [reflexivity|reflexivity|reflexivity|reflexivity|done|done]
          | eapply Hdef; [reflexivity|exact E|done|done|reflexivity]
          | eapply Hmark; [reflexivity|exact E|done|reflexivity] ].
Qed.

(** * Runs *)

Definition uinv (st : mapheap * list object) : Prop :=
  wf (fst st) /\ Forall (fun o => valid (fst st) (ob_dict o) /\ valid (fst st) (ob_other o)) (snd st).

Lemma forallb_pre h b :
  forallb (fun p => match p with None => true | Some a => bool_decide (is_Some (mh_maps h !! a)) end) (passed b) = true
  -> pre h b.
Proof.
  intros H. apply Forall_forall. intros p Hp. apply elem_of_list_In in Hp. rewrite forallb_forall in H.
  specialize (H p Hp). destruct p; [|done]. by apply bool_decide_eq_true in H.
Qed.

Lemma ustep_cases st op st' : ustep st op = Some st' ->
  match op with
  | UMap l => st' = (fst (make_map (fst st) l), snd st)
  | UBuild b => pre (fst st) b /\ exists h' o, construct (fst st) b = (h', o) /\ st' = (h', o :: snd st)
  end.
Proof.
  destruct st as [h os]. destruct op as [l|b]; cbn [ustep fst snd]; [by intros [= <-]|].
  destruct (forallb _ _) eqn:E; [|discriminate]. apply forallb_pre in E.
  destruct (construct h b) as [h' o]. intros [= <-]. eauto.
Qed.

Lemma valid_mono h h' p : (forall a, is_Some (mh_maps h !! a) -> is_Some (mh_maps h' !! a)) -> valid h p -> valid h' p.
Proof. intros H. destruct p; [apply H|done]. Qed.

Lemma ustep_keeps st op st' a : uinv st -> ustep st op = Some st' -> is_Some (mh_maps (fst st) !! a) ->
  is_Some (mh_maps (fst st') !! a).
Proof.
  intros [Hw _] H Ha. apply ustep_cases in H. destruct op as [l|b].
  - subst st'. cbn [fst]. by rewrite make_old.
  - destruct H as (Hp & h' & o & E & ->). destruct (construct_ok _ _ _ _ Hw Hp E) as (_ & _ & _ & H4 & _).
    destruct Ha as [l Hl]. cbn [fst]. destruct (H4 a l Hl) as (l' & -> & _). eauto.
Qed.
Lemma ustep_inv st op st' : uinv st -> ustep st op = Some st' -> uinv st'.
Proof.
  intros Hi H. pose proof (fun a => ustep_keeps st op st' a Hi H) as Hk. destruct Hi as [Hw Ho].
  apply ustep_cases in H. destruct op as [l|b].
  - subst st'. split; cbn [fst snd] in *; [by apply make_wf|]. eapply Forall_impl; [exact Ho|].
    intros o [H1 H2]. split; eapply valid_mono; eauto.
  - destruct H as (Hp & h' & o & E & ->). destruct (construct_ok _ _ _ _ Hw Hp E) as (H1 & _ & _ & _ & H5).
    split; cbn [fst snd] in *; [done|]. apply Forall_cons. split; [done|]. eapply Forall_impl; [exact Ho|].
    intros o' [H6 H7]. split; eapply valid_mono; eauto.
Qed.
Lemma urun_inv ops : forall st st', uinv st -> urun st ops = Some st' -> uinv st'.
Proof.
  induction ops as [|op ops IH]; intros st st' Hi H; cbn [urun] in H; [by injection H as <-|].
  destruct (ustep st op) as [st1|] eqn:E; [|discriminate H]. eapply IH; [|exact H]. by eapply ustep_inv.
Qed.
Lemma reached ops st : urun (no_maps, []) ops = Some st -> uinv st.
Proof. apply urun_inv. split; [apply wf_none|constructor]. Qed.

(** What a message just built shows. *)
Lemma built_as_described ops h os b h' os' : urun (no_maps, []) ops = Some (h, os) ->
  ustep (h, os) (UBuild b) = Some (h', os') -> exists o, os' = o :: os /\ view h' o = described h b.
Proof.
  intros HR HS. apply reached in HR as [Hw _]. apply ustep_cases in HS as (Hp & h1 & o & E & E2).
  cbn [fst snd] in *. injection E2 as -> ->. exists o. split; [done|]. by eapply construct_ok.
Qed.

Lemma view_same h h' o : read_map h' (ob_dict o) = read_map h (ob_dict o) ->
  read_map h' (ob_other o) = read_map h (ob_other o) -> view h' o = view h o.
Proof. intros H1 H2. unfold view. by rewrite H1, H2. Qed.

Lemma stays ops : forall h os h' os' o, uinv (h, os) -> urun (h, os) ops = Some (h', os') -> o ∈ os ->
  Forall (spares o) ops -> view h' o = view h o.
Proof.
  induction ops as [|op ops IH]; intros h os h' os' o Hi H Hin Hs; cbn [urun] in H; [by injection H as <- <-|].
  destruct (ustep (h, os) op) as [[h1 os1]|] eqn:E; [|discriminate H].
  apply Forall_cons in Hs as [Hop Hs]. pose proof (ustep_inv _ _ _ Hi E) as Hi1.
  destruct Hi as [Hw Ho]. cbn [fst snd] in *. rewrite Forall_forall in Ho. destruct (Ho o Hin) as [Hv1 Hv2].
  assert (Hin1 : o ∈ os1).
  { apply ustep_cases in E. destruct op as [l|b]; [by injection E as -> ->|].
    destruct E as (_ & h2 & o2 & _ & E2). injection E2 as _ ->. by right. }
  rewrite (IH h1 os1 h' os' o Hi1 H Hin1 Hs). apply ustep_cases in E. destruct op as [l|b].
  - injection E as -> ->. apply view_same.
    + destruct (ob_dict o); [|done]. cbn. by apply (make_old h l).
    + destruct (ob_other o); [|done]. cbn. by apply (make_old h l).
  - destruct E as (Hp & h2 & o2 & E & E2). injection E2 as -> ->. cbn [fst] in *.
    destruct (construct_ok _ _ _ _ Hw Hp E) as (_ & _ & H3 & _). cbn [spares] in Hop. apply view_same.
    + destruct (ob_dict o) as [a|]; [|done]. cbn. apply H3; [done|]. destruct Hop as [->|[Hop _]]; [done|congruence].
    + destruct (ob_other o) as [a|]; [|done]. cbn. apply H3; [done|]. destruct Hop as [->|[_ Hop]]; [done|congruence].
Qed.

Lemma built_stays ops1 ops2 h os h' os' o : urun (no_maps, []) ops1 = Some (h, os) ->
  urun (h, os) ops2 = Some (h', os') -> o ∈ os -> Forall (spares o) ops2 -> view h' o = view h o.
Proof. intros H1. apply stays. by apply reached in H1. Qed.

Lemma assoc_set_other k k' (v : value) l : k <> k' -> assoc k (assoc_set k' v l) = assoc k l.
Proof.
  intros Hn. induction l as [|[k0 v0] l IH]; cbn [assoc_set assoc].
  - destruct (String.eqb_spec k k'); [done|reflexivity].
  - destruct (String.eqb_spec k' k0) as [->|Hn0]; cbn [assoc].
    + by destruct (String.eqb_spec k k0).
    + by rewrite IH.
Qed.

(** A program's own maps: only that key can change, and only through such a
    constructor. *)
Lemma maps_keep ops : forall h os h' os' a l, uinv (h, os) -> urun (h, os) ops = Some (h', os') ->
  mh_maps h !! a = Some l ->
  exists l', mh_maps h' !! a = Some l'
    /\ (forall k, k <> "x_payload_serializer" -> assoc k l' = assoc k l)
    /\ ((forall b, UBuild b ∈ ops -> marks b <> Some a) -> l' = l).
Proof.
  induction ops as [|op ops IH]; intros h os h' os' a l Hi H Hl; cbn [urun] in H.
  { injection H as <- <-. eauto. }
  destruct (ustep (h, os) op) as [[h1 os1]|] eqn:E; [|discriminate H].
  pose proof (ustep_inv _ _ _ Hi E) as Hi1. destruct Hi as [Hw _]. cbn [fst snd] in Hw.
  apply ustep_cases in E. destruct op as [l0|b].
  - injection E as -> ->. cbn [fst snd] in *. rewrite <- (make_old h l0 a Hw) in Hl by eauto.
    destruct (IH _ _ _ _ _ _ Hi1 H Hl) as (l' & H1 & H2 & H3). exists l'. split; [done|]. split; [done|].
    intros Hb. apply H3. intros b Hin. apply Hb. by right.
  - destruct E as (Hp & h2 & o2 & E & E2). injection E2 as -> ->. cbn [fst] in *.
    destruct (construct_ok _ _ _ _ Hw Hp E) as (_ & _ & H3 & H4 & _).
    destruct (H4 a l Hl) as (l1 & Hl1 & Hc). destruct (IH _ _ _ _ _ _ Hi1 H Hl1) as (l' & H5 & H6 & H7).
    exists l'. split; [done|]. split.
    + intros k Hk. rewrite (H6 k Hk). destruct Hc as [->|[v ->]]; [done|]. by apply assoc_set_other.
    + intros Hb. rewrite H7 by (intros b' Hin; apply Hb; by right).
      assert (mh_maps h2 !! a = mh_maps h !! a) as Eq by (apply H3; [eauto|apply Hb; left]). congruence.
Qed.
Lemma own_maps_keep ops1 ops2 h os h' os' a l : urun (no_maps, []) ops1 = Some (h, os) ->
  urun (h, os) ops2 = Some (h', os') -> mh_maps h !! a = Some l ->
  exists l', mh_maps h' !! a = Some l'
    /\ (forall k, k <> "x_payload_serializer" -> assoc k l' = assoc k l)
    /\ ((forall b, UBuild b ∈ ops2 -> marks b <> Some a) -> l' = l).
Proof. intros H1. apply maps_keep. by apply reached in H1. Qed.

(** * Readable *)

Lemma defaults h p : (match read_map h p with None => Some [] | x => x end) <> None.
Proof. by destruct (read_map h p). Qed.
Lemma marked_some h p ser : (match read_map h p with
  | None => Some [("x_payload_serializer", VInt KUint64 (Z.of_N ser))]
  | Some l => Some (assoc_set "x_payload_serializer" (VInt KUint64 (Z.of_N ser)) l)
  end) <> None.
Proof. by destruct (read_map h p). Qed.
Lemma valid_read h p : valid h p -> read_map h p = None <-> p = None.
Proof. destruct p; [|done]. intros [x H]. cbn in *. rewrite H. done. Qed.

Ltac all_ok := repeat (apply Forall_cons; split); try apply Forall_nil;
  first [exact I | assumption | apply defaults | apply marked_some].

Lemma described_ok h b : pre h b -> ids_small (described h b) -> msg_ok (described h b) <-> ~ unreadable b.
Proof.
  intros Hp Hids. unfold pre in Hp. unfold ids_small in Hids.
  destruct b; cbn [described msg_ok unreadable msg_fields passed] in *; cbn in Hids;
    repeat match goal with
    | Hids : Forall _ (_ :: _) |- _ => apply Forall_cons in Hids as [? Hids]
    | Hp : Forall _ (_ :: _) |- _ => apply Forall_cons in Hp as [? Hp]
    end; try (split; [intros _ []|intros _]; all_ok; fail).
  - split.
    + intros Hf. apply Forall_cons in Hf as [_ Hf]. apply Forall_cons in Hf as [Hf _]. cbn in Hf.
      destruct details; [intros []|by destruct Hf].
    + intros Hn. repeat (apply Forall_cons; split); try apply Forall_nil; try done; [cbn].
      rewrite valid_read by done. intros ->. by apply Hn.
  - split.
    + intros [_ Hk]. destruct args; [intros []|]. destruct kwargs as [a|]; [|intros []]. intros _.
      apply Hk; [|reflexivity]. cbn [ab_kwargs]. rewrite valid_read by done. discriminate.
    + intros Hn. split; [all_ok|]. cbn [ab_kwargs ab_args]. rewrite valid_read by done.
      intros Hk. destruct args; [discriminate|]. destruct kwargs; [|done]. intros _. by apply Hn.
  - split.
    + intros Hf. apply Forall_cons in Hf as [_ Hf]. apply Forall_cons in Hf as [Hf _]. cbn in Hf.
      destruct extra; [intros []|by destruct Hf].
    + intros Hn. repeat (apply Forall_cons; split); try apply Forall_nil; try done; [cbn].
      rewrite valid_read by done. intros ->. by apply Hn.
Qed.

(** What cannot be read is rejected by the peer however it is encoded. *)
Lemma unreadable_rejected {PL : Platform} sh h b l : pre h b -> unreadable b ->
  Forall2 wire (marshal (described h b)) l -> ids_small (described h b) -> exists e, to_message sh l = Err e.
Proof.
  intros Hp Hu H Hids. unfold pre in Hp.
  destruct b; try (destruct Hu; fail).
  - destruct details; [destruct Hu|]. cbn in H, Hids. apply Forall_cons in Hids as [Hid _].
    repeat match type of H with
    | Forall2 wire (_ :: _) _ => apply Forall2_cons_inv_l in H as (? & ? & ?Hw & H & ->)
    end.
    apply Forall2_nil_inv_l in H as ->.
    apply wire_id in Hw as [_ Hc]; [|reflexivity]. inversion Hw1; subst.
    apply wire_id in Hw0 as [Hn Hi]; [|exact Hid].
    rewrite to_message_order. cbn [to_message]. rewrite Hc. unfold parse. cbn.
    unfold validate_id. cbn. rewrite as_uint64_is_number, Hn. eexists. reflexivity.
  - destruct args; [destruct Hu|]. destruct kwargs as [a|]; [|destruct Hu].
    cbn [passed] in Hp. apply Forall_cons in Hp as [_ Hp]. apply Forall_cons in Hp as [[kw Hk] _].
    apply (abort_kwargs_rejected sh (match read_map h details with None => Some [] | x => x end) reason kw l).
    cbn [described read_map] in H. rewrite Hk in H. unfold new_abort. by destruct (read_map h details).
  - destruct extra; [destruct Hu|]. cbn in H.
    repeat match type of H with
    | Forall2 wire (_ :: _) _ => apply Forall2_cons_inv_l in H as (? & ? & ?Hw & H & ->)
    end.
    apply Forall2_nil_inv_l in H as ->.
    apply wire_id in Hw as [_ Hc]; [|reflexivity]. inversion Hw1; subst. apply wire_str in Hw0 as ->.
    rewrite to_message_order. cbn [to_message]. rewrite Hc. eexists. reflexivity.
Qed.
