(** Proofs: values whose JSON text is read as what they were. *)
From Coq Require Import Ascii.
From stdpp Require Import pretty.
From Verif Require Import Prelude Value BaseSpec WireSpec FloatSame PathMatch PathMatchSpec PathUtf8 Encoding EncodingFacts AuthSpec
  JsonSpec JsonFacts JsonSafe Payload Json JsonRound JsonGrammar JsonNumber JsonRead JsonFloat.

Local Open Scope string_scope.
Local Open Scope N_scope.

Lemma stops_ends s : stops s -> ends s.
Proof. intros [->|(c & r & -> & H)]; [by left|]. right. exists c, r. split; [done|]. by right. Qed.
Lemma jnumber_first s neg n x : jnumber s neg n x -> exists c r, s = String c r /\ (byte c = 45 \/ 48 <= byte c <= 57).
Proof.
  intros [ng w f d e y Hw Hne _ _ _]. destruct ng.
  - eexists _, _. split; [reflexivity|]. by left.
  - destruct w as [|c w]; [done|]. apply Forall_cons in Hw as [Hc _]. exists c, (w ++ f ++ e). split; [done|]. right.
    unfold between in Hc. apply andb_true_iff in Hc as [H1%N.leb_le H2%N.leb_le]. by split.
Qed.
Lemma number_text_jreads d t neg n x g : jnumber t neg n x -> value_of n x = Some g -> starts t /\ jreads d t (VF64 (negate neg g)).
Proof.
  intros J V.
  destruct (jnumber_first t neg n x J) as (c & r & Et & Hc). assert (St : starts t).
  { exists c, r. split; [done|]. unfold is_space.
    destruct (N.eqb_spec (byte c) 32), (N.eqb_spec (byte c) 9), (N.eqb_spec (byte c) 10), (N.eqb_spec (byte c) 13); lia. }
  split; [done|]. intros fuel rest Hf Hs. pose proof (starts_length _ St).
  destruct fuel as [|fu]; [lia|]. cbn [Json.read_value]. rewrite starts_skip by done.
  pose proof (number_run t neg n x rest J (stops_ends _ Hs)) as R. rewrite V in R. rewrite Et in R |- *.
  change (String c r ++ rest) with (String c (r ++ rest)) in *. cbv beta iota.
  destruct (N.eqb_spec (byte c) 34); [lia|]. destruct (N.eqb_spec (byte c) 91); [lia|].
  destruct (N.eqb_spec (byte c) 123); [lia|]. destruct (N.eqb_spec (byte c) 110); [lia|].
  destruct (N.eqb_spec (byte c) 116); [lia|]. destruct (N.eqb_spec (byte c) 102); [lia|]. by rewrite R.
Qed.

Theorem value_reads v : json_safe v ->
  starts (json_text v) /\ exists v', wire v v' /\ forall d, nesting v <= d -> jreads d (json_text v) v'.
Proof.
  remember (nesting v) as n eqn:En. revert v En. induction (N.lt_wf_0 n) as [n _ IH]. intros v -> Sv.
  destruct Sv as [|b|k z Hz|f Hf|s Hs|s Hs|l Hl|m Hm|l Hl].
  - split; [eapply (word_jreads 0 _ VNil); by left|]. exists VNil. split; [constructor|]. intros d _.
    eapply word_jreads. by left.
  - split; [eapply (word_jreads 0 _ (VBool b)); destruct b; naive_solver|]. exists (VBool b). split; [constructor|].
    intros d _. eapply word_jreads. destruct b; naive_solver.
  - split; [by apply (number_jreads 0)|]. exists (VF64 (FFin z 0)). split; [|intros d _; by apply number_jreads].
    apply w_int_float; [exact Hz|]. unfold float_is. cbn. lia.
  - destruct (float_has_text f Hf) as [t E]. cbn [json_text]. rewrite E. cbn [default from_option id].
    destruct (float_text_read f t E) as (neg & n' & x & g & J & V & S).
    split; [by apply (number_text_jreads 0 t neg n' x g)|]. exists (VF64 (negate neg g)). split; [by constructor|]. intros d _.
    by apply (number_text_jreads d t neg n' x g).
  - split; [apply starts_string|]. exists (VStr s). split; [constructor|]. intros d _. by apply string_jreads.
  - rewrite method_name_method. split; [apply starts_string|]. exists (VStr s). split; [constructor|].
    intros d _. by apply string_jreads.
  - destruct l as [l|].
    2: { split; [eapply (word_jreads 0 _ VNil); by left|]. exists VNil. split; [constructor|]. intros d _.
         eapply word_jreads. by left. }
    cbn [default from_option id] in Hl. split; [eexists _, _; split; [reflexivity|by vm_compute]|].
    assert (K : forall x, x ∈ l -> starts (json_text x) /\ exists x', wire x x' /\
              forall d, nesting x <= d -> jreads d (json_text x) x').
    { intros x Hx. apply (IH (nesting x)); [|done|by eapply Forall_forall in Hl].
      cbn [nesting]. pose proof (max_in nesting x l Hx). lia. }
    destruct (Forall2_exists (fun x x' => wire x x' /\ forall d, nesting x <= d -> jreads d (json_text x) x') l)
      as [l' Hl']; [intros x Hx; by apply K|].
    exists (VSlice (Some l')). split; [constructor; eapply Forall2_impl; [exact Hl'|]; by intros ?? []|].
    intros d Hd. cbn [nesting] in Hd. replace d with (1 + (d - 1)) by lia. apply list_reads.
    apply Forall2_fmap_l. assert (Hm : forall x, x ∈ l -> nesting x <= d - 1).
    { intros x Hx. pose proof (max_in nesting x l Hx). lia. }
    clear IH Hl Hd. induction Hl' as [|x x' l l' [_ Hx] H IH2]; constructor.
    + split; [apply K; left|]. apply Hx, Hm. left.
    + apply IH2; intros y Hy; [apply K|apply Hm]; by right.
  - destruct m as [m|].
    2: { split; [eapply (word_jreads 0 _ VNil); by left|]. exists VNil. split; [constructor|]. intros d _.
         eapply word_jreads. by left. }
    cbn [default from_option id] in Hm. split; [eexists _, _; split; [reflexivity|by vm_compute]|].
    assert (K : forall x, x ∈ sort_keys m -> text (fst x) /\ starts (json_text (snd x)) /\ nesting (snd x) < nesting (VMap (Some m))
              /\ exists x', wire (snd x) x' /\ forall d, nesting (snd x) <= d -> jreads d (json_text (snd x)) x').
    { intros x Hx%sort_keys_in. pose proof (max_in (fun kv => nesting (snd kv)) x m Hx) as Hn.
      eapply Forall_forall in Hm as [Ht Hx']; [|exact Hx]. assert (L : nesting (snd x) < nesting (VMap (Some m))).
      { cbn [nesting]. lia. }
      destruct (IH _ L (snd x) eq_refl Hx') as [H1 H2]. done. }
    destruct (Forall2_exists (fun (x x' : string * value) => fst x = fst x' /\ wire (snd x) (snd x') /\
        forall d, nesting (snd x) <= d -> jreads d (json_text (snd x)) (snd x')) (sort_keys m)) as [m' Hm'].
    { intros x Hx. destruct (K x Hx) as (_ & _ & _ & x' & H1 & H2). by exists (fst x, x'). }
    exists (VMap (Some m')). split.
    { constructor. intros k. rewrite <- (assoc_sort_keys k m). apply Forall2_assoc.
      eapply Forall2_impl; [exact Hm'|]. naive_solver. }
    intros d Hd. cbn [json_text]. rewrite sort_keys_map, map_map. cbn [nesting] in Hd.
    assert (Hfst : map fst m' = map fst (sort_keys m)).
    { clear -Hm'. induction Hm' as [|x x' l l' [E _] H IH]; [done|]. cbn [map]. by rewrite E, IH. }
    replace d with (1 + (d - 1)) by lia.
    assert (R : jreads (1 + (d - 1)) ("{" ++ String.concat "," (map member
        (map (fun kv => (fst kv, json_text (snd kv))) (sort_keys m))) ++ "}") (VMap (Some m'))).
    { apply dict_reads.
      - apply Forall2_fmap_l. cbn [fst snd]. assert (Hn : forall x, x ∈ sort_keys m -> nesting (snd x) <= d - 1).
        { intros x Hx. apply K in Hx as (_ & _ & Hx & _). cbn [nesting] in Hx. lia. }
        clear -Hm' K Hn. induction Hm' as [|x x' l l' (E & _ & Hx) H IH2]; constructor.
        + cbn [fst snd]. split; [done|]. split; [apply K; left|]. split; [apply K; left|]. apply Hx, Hn. left.
        + apply IH2; intros y Hy; [apply K|apply Hn]; by right.
      - rewrite Hfst. apply ordered_NoDup, ordered_sort_keys. }
    rewrite map_map in R. exact R.
  - destruct l as [l|].
    2: { split; [eapply (word_jreads 0 _ VNil); by left|]. exists VNil. split; [constructor|]. intros d _.
         eapply word_jreads. by left. }
    cbn [default from_option id] in Hl. split; [eexists _, _; split; [reflexivity|by vm_compute]|].
    exists (VSlice (Some (map VStr l))). split; [constructor|]. intros d Hd. cbn [nesting] in Hd.
    replace d with (1 + (d - 1)) by lia. apply list_reads. clear IH Hd.
    induction Hl as [|s l Hs Hl IH2]; constructor; [|exact IH2]. split; [apply starts_string|by apply string_jreads].
Qed.

Lemma safe_has_text v : json_safe v -> has_text v = true.
Proof.
  remember (nesting v) as n eqn:En. revert v En. induction (N.lt_wf_0 n) as [n _ IH]. intros v -> Sv.
  destruct Sv as [|b|k z Hz|f Hf|s Hs|s Hs|l Hl|m Hm|l Hl]; try done.
  - cbn [has_text]. by destruct (float_has_text f Hf) as [t ->].
  - destruct l as [l|]; [|done]. cbn [has_text]. apply forallb_forall. intros x Hx%elem_of_list_In.
    apply (IH (nesting x)); [|done|by eapply Forall_forall in Hl].
    cbn [nesting]. pose proof (max_in nesting x l Hx). lia.
  - destruct m as [m|]; [|done]. cbn [has_text]. apply forallb_forall. intros x Hx%elem_of_list_In.
    apply (IH (nesting (snd x))); [|done|by eapply Forall_forall in Hm as [_ ?]].
    cbn [nesting]. pose proof (max_in (fun kv => nesting (snd kv)) x m Hx). cbn beta in *. lia.
Qed.

Theorem json_list_reads l : Forall json_safe l -> Forall (fun v => nesting v < 10000) l ->
  exists s l', json_marshal l = Ok s /\ json_unmarshal s = Ok (Some l') /\ Forall2 wire l l'.
Proof.
  intros Hs Hn. assert (S : json_safe (VSlice (Some l))) by by constructor.
  destruct (value_reads _ S) as (_ & v' & Hw & R). inversion Hw as [| | | | | | | | | | |l0 l' H2| | | |]; subst.
  eexists _, l'. split; [|split; [|done]].
  - unfold json_marshal. pose proof (safe_has_text _ S) as H. cbn [has_text] in H. by rewrite H.
  - unfold json_unmarshal. 
    specialize (R 10000). rewrite <- (sapp_nil (json_text (VSlice (Some l)))) at 2. rewrite R; [done| |lia|by left].
    cbn [nesting]. assert (foldr N.max 0 (map nesting l) < 10000); [|lia].
    clear -Hn. induction Hn as [|x l Hx H IH]; cbn [map foldr]; lia.
Qed.


(** * One float *)

Lemma float_arrives f : float64 f -> exists s g,
  json_marshal [VF64 f] = Ok s /\ json_unmarshal s = Ok (Some [VF64 g]) /\ float_same f g.
Proof.
  intros H. destruct (json_list_reads [VF64 f]) as (s & l' & M & U & W); [by repeat constructor|by repeat constructor|].
  apply Forall2_cons_inv_l in W as (v' & l0 & W & W0 & ->). apply Forall2_nil_inv_l in W0 as ->.
  inversion W; subst. eauto.
Qed.
Lemma infinite_refused f : (exists neg, f = FInf neg) \/ f = FNaN -> exists e, json_marshal [VF64 f] = Err e.
Proof. intros [[neg ->]| ->]; eexists; reflexivity. Qed.
