(** Proofs: items are read, values are written as items, and what is cut off is
    not read, for any format with the laws below. *)
From Coq Require Import Ascii.
From Verif Require Import Prelude Value Msg BaseSpec WireSpec MsgSpec PathUtf8 JsonFacts JsonSafe JsonRound Payload PayloadFacts Binary BinarySpec.

Local Open Scope string_scope.
Local Open Scope N_scope.

Lemma concat_cons_nil x l : String.concat "" (x :: l) = x ++ String.concat "" l.
Proof. destruct l; [cbn [String.concat]; by rewrite sapp_nil|reflexivity]. Qed.

(** Levels left. *)
Definition room (n : N) (d : option N) : Prop := match d with None => True | Some d => n <= d end.
Lemma room_deeper n d : room (1 + n) d -> exists d', deeper d = Some d' /\ room n d'.
Proof.
  destruct d as [d|]; cbn; intros H; [|by exists None]. destruct (N.eqb_spec d 0); [lia|].
  exists (Some (d - 1)). split; [done|]. cbn. lia.
Qed.
Lemma room_le n n' d : n <= n' -> room n' d -> room n d.
Proof. destruct d; cbn; lia. Qed.

Section READ.
  Context (F : format) (L : layout) (limit : N).
  (** Reading laws. *)
  Definition reads_atom : Prop := forall s v, la_atom L s v ->
    s <> "" /\ forall r, fm_token F (s ++ r) = Some (TVal v, r).
  Definition reads_list : Prop := forall n h, la_list L n h -> n <= limit ->
    h <> "" /\ forall r, fm_token F (h ++ r) = Some (TList (Exactly n), r).
  Definition reads_dict : Prop := forall n h, la_dict L n h -> n <= limit ->
    h <> "" /\ forall r, fm_token F (h ++ r) = Some (TDict (Exactly n), r).
  Definition reads_key : Prop := forall k t, la_key L k t ->
    t <> "" /\ forall r, fm_read_key F (t ++ r) = Some (k, r).
  Context (RA : reads_atom) (RL : reads_list) (RD : reads_dict) (RK : reads_key).

  Definition breads (d : option N) (t : string) (v : value) : Prop :=
    forall fuel rest, (2 * String.length t <= fuel)%nat -> read_item F fuel d (t ++ rest) = Some (v, rest).

  Lemma some_length (s : string) : s <> "" -> (1 <= String.length s)%nat.
  Proof. destruct s; cbn; [done|lia]. Qed.

  Lemma read_items_ok d ts vs : Forall2 (fun t v => t <> "" /\ breads d t v) ts vs ->
    forall fuel rest, (2 * String.length (String.concat "" ts) + 1 <= fuel)%nat ->
      read_items F fuel d (Exactly (N.of_nat (length ts))) (String.concat "" ts ++ rest) = Some (vs, rest).
  Proof.
    induction 1 as [|t v ts vs [Nt Rt] H IH]; intros fuel rest Hf; (destruct fuel as [|f]; [lia|]).
    - reflexivity.
    - rewrite concat_cons_nil in Hf |- *. rewrite slength_app in Hf. pose proof (some_length t Nt).
      cbn [read_items length next_part]. destruct (N.eqb_spec (N.of_nat (S (length ts))) 0); [lia|].
      rewrite sapp_assoc, Rt by lia. replace (N.of_nat (S (length ts)) - 1) with (N.of_nat (length ts)) by lia.
      rewrite IH by lia. done.
  Qed.

  Definition entry (kt : string * string) : string := fst kt ++ snd kt.
  Lemma assoc_set_new k (u : value) acc : k ∉ map fst acc -> assoc_set k u acc = (acc ++ [(k, u)])%list.
  Proof.
    intros Ka. induction acc as [|[k0 v0] acc IH]; [done|]. cbn [assoc_set map fst] in *.
    rewrite elem_of_cons in Ka. destruct (String.eqb_spec k k0) as [->|]; [naive_solver|].
    rewrite IH by naive_solver. done.
  Qed.
  Lemma read_entries_ok d kts kvs :
    Forall2 (fun kt kv => la_key L (fst kv) (fst kt) /\ snd kt <> "" /\ breads d (snd kt) (snd kv)) kts kvs ->
    NoDup (map fst kvs) ->
    forall fuel acc rest, (2 * String.length (String.concat "" (map entry kts)) + 1 <= fuel)%nat ->
      (forall k, k ∈ map fst kvs -> k ∉ map fst acc) ->
      read_entries F fuel d (Exactly (N.of_nat (length kts))) acc (String.concat "" (map entry kts) ++ rest)
      = Some ((acc ++ kvs)%list, rest).
  Proof.
    induction 1 as [|[kt t] [k v] kts kvs (Hk & Nt & Rt) H IH]; intros Hd fuel acc rest Hf Hacc;
      (destruct fuel as [|f]; [lia|]).
    - cbn. by rewrite app_nil_r.
    - cbn [map fst snd] in *. apply NoDup_cons in Hd as [Hk' Hd]. rewrite concat_cons_nil in Hf |- *.
      unfold entry at 1 in Hf. unfold entry at 1. cbn [fst snd] in *. rewrite !slength_app in Hf.
      destruct (RK _ _ Hk) as [Nk Rk]. pose proof (some_length t Nt). pose proof (some_length kt Nk).
      cbn [read_entries length next_part]. destruct (N.eqb_spec (N.of_nat (S (length kts))) 0); [lia|].
      rewrite !sapp_assoc, Rk, Rt by lia. rewrite assoc_set_new by (apply Hacc; left).
      replace (N.of_nat (S (length kts)) - 1) with (N.of_nat (length kts)) by lia.
      rewrite IH; [by rewrite <- app_assoc|done|lia|].
      intros j Hj. rewrite map_app, elem_of_app. cbn [map fst]. rewrite elem_of_list_singleton.
      intros [Hj'| ->]; [|done]. apply (Hacc j); [by right|done].
  Qed.

  Lemma list_item_reads d n h ts vs : n = N.of_nat (length ts) -> la_list L n h -> n <= limit ->
    Forall2 (fun t v => t <> "" /\ breads d t v) ts vs -> forall d', deeper d' = Some d ->
    breads d' (h ++ String.concat "" ts) (VSlice (Some vs)).
  Proof.
    intros -> Hh Hl H d' Hd fuel rest Hf. destruct (RL _ _ Hh Hl) as [Nh Rh]. pose proof (some_length h Nh).
    rewrite slength_app in Hf. destruct fuel as [|f]; [lia|]. cbn [read_item].
    rewrite sapp_assoc, Rh, Hd. rewrite (read_items_ok d ts vs) by (done || lia). done.
  Qed.
  Lemma dict_item_reads d n h kts kvs : n = N.of_nat (length kts) -> la_dict L n h -> n <= limit ->
    Forall2 (fun kt kv => la_key L (fst kv) (fst kt) /\ snd kt <> "" /\ breads d (snd kt) (snd kv)) kts kvs ->
    NoDup (map fst kvs) -> forall d', deeper d' = Some d ->
    breads d' (h ++ String.concat "" (map entry kts)) (VMap (Some kvs)).
  Proof.
    intros -> Hh Hl H Hn d' Hd fuel rest Hf. destruct (RD _ _ Hh Hl) as [Nh Rh]. pose proof (some_length h Nh).
    rewrite slength_app in Hf. destruct fuel as [|f]; [lia|]. cbn [read_item].
    rewrite sapp_assoc, Rh, Hd. rewrite (read_entries_ok d kts kvs); [done|done|done|lia|].
    intros k _. apply not_elem_of_nil.
  Qed.

  Lemma app_some (a b : string) : a <> "" -> a ++ b <> "".
  Proof. destruct a; [done|]. discriminate. Qed.

  (** Every item is read, whatever follows it. *)
  Theorem item_reads s v : item L s v -> widest v <= limit ->
    s <> "" /\ forall d, room (nesting v) d -> breads d s v.
  Proof.
    remember (nesting v) as n eqn:En. revert s v En. induction (N.lt_wf_0 n) as [n _ IH]. intros s v -> I Hw.
    destruct I as [s v Ha|h ts vs Hh H|h kts kvs Hh H Hd].
    - destruct (RA _ _ Ha) as [Ns Rs]. split; [done|]. intros d _ fuel rest Hf. pose proof (some_length s Ns).
      destruct fuel as [|f]; [lia|]. cbn [read_item]. by rewrite Rs.
    - cbn [widest nesting] in *. pose proof (Forall2_length _ _ _ H) as El. rewrite <- El in Hw.
      destruct (RL _ _ Hh ltac:(lia)) as [Nh _]. split; [by apply app_some|]. intros d Hr.
      apply room_deeper in Hr as (d' & Hd & Hr).
      eapply list_item_reads; [reflexivity|done|lia| |done].
      assert (K : forall t x, item L t x -> x ∈ vs -> t <> "" /\ breads d' t x).
      { intros t x Hx Hin. pose proof (max_in nesting x vs Hin). pose proof (max_in widest x vs Hin).
        destruct (IH (nesting x) ltac:(lia) t x eq_refl Hx ltac:(lia)) as [? R]. split; [done|].
        apply R. eapply room_le; [|exact Hr]. done. }
      clear -H K. induction H as [|t x ts vs Hx H IH]; constructor; [apply K; [done|left]|].
      apply IH. intros t' x' ??. apply K; [done|by right].
    - cbn [widest nesting] in *. pose proof (Forall2_length _ _ _ H) as El. rewrite <- El in Hw.
      destruct (RD _ _ Hh ltac:(lia)) as [Nh _]. split; [by apply app_some|]. intros d Hr.
      apply room_deeper in Hr as (d' & Hd' & Hr).
      eapply dict_item_reads; [reflexivity|done|lia| |done|done].
      assert (K : forall t x, item L t (snd x) -> x ∈ kvs -> t <> "" /\ breads d' t (snd x)).
      { intros t x Hx Hin. pose proof (max_in (fun kv => nesting (snd kv)) x kvs Hin) as A.
        pose proof (max_in (fun kv => widest (snd kv)) x kvs Hin) as B. cbn beta in A, B.
        destruct (IH (nesting (snd x)) ltac:(lia) t (snd x) eq_refl Hx ltac:(lia)) as [? R]. split; [done|].
        apply R. eapply room_le; [|exact Hr]. done. }
      clear -H K. induction H as [|t x ts vs [Hk Hx] H IH]; constructor.
      + split; [done|]. apply K; [done|left].
      + apply IH. intros t' x' ??. apply K; [done|by right].
  Qed.

  Lemma item_list_unmarshal s l : item L s (VSlice (Some l)) -> widest (VSlice (Some l)) <= limit ->
    room (nesting (VSlice (Some l))) (fm_levels F) -> bin_unmarshal F s = Ok (Some l).
  Proof.
    intros I W N. destruct (item_reads s _ I W) as [_ R]. unfold bin_unmarshal.
    rewrite <- (sapp_nil s) at 2. rewrite R by (done || lia). by rewrite andb_false_r.
  Qed.
End READ.

Lemma assoc_permuted {A} k (l l' : list (string * A)) : Permutation l l' -> NoDup (map fst l) -> assoc k l = assoc k l'.
Proof.
  induction 1 as [|[k1 x] l l' P IH|[k1 x] [k2 y] l|l l' l'' P1 IH1 P2 IH2]; intros N.
  - done.
  - cbn [map fst] in N. apply NoDup_cons in N as [_ N]. cbn [assoc]. by rewrite IH.
  - cbn [map fst] in N. apply NoDup_cons in N as [N _]. rewrite not_elem_of_cons in N. destruct N as [N _].
    cbn [assoc]. destruct (String.eqb_spec k k1) as [->|]; [|done]. destruct (String.eqb_spec k1 k2); congruence.
  - rewrite IH1 by done. apply IH2. by rewrite <- P1.
Qed.
Lemma max_permuted l l' : Permutation l l' -> foldr N.max 0 l = foldr N.max 0 l'.
Proof. induction 1; cbn [foldr]; lia. Qed.

Section WRITE.
  Context (F : format) (L : layout) (limit : N).
  Context (ints : ikind -> Z -> Prop) (strs bins : string -> Prop).
  Notation safe := (made_of ints strs bins).
  Definition partless (v : value) : Prop :=
    match v with VSlice (Some _) | VMap (Some _) | VStrs (Some _) => False | _ => True end.
  Definition writes_atom : Prop := forall v, partless v -> safe v ->
    exists t v', fm_atom F v = Some t /\ la_atom L t v' /\ wire v v'.
  Definition writes_str : Prop := forall s, strs s -> exists t, fm_atom F (VStr s) = Some t /\ la_atom L t (VStr s).
  Definition writes_list : Prop := forall n, n <= limit -> la_list L n (fm_list F n).
  Definition writes_dict : Prop := forall n, n <= limit -> la_dict L n (fm_dict F n).
  Definition writes_key : Prop := forall k, strs k -> la_key L k (fm_key F k).
  Context (WA : writes_atom) (WS : writes_str) (WL : writes_list) (WD : writes_dict) (WK : writes_key).

  Lemma value_written sh v : safe v -> widest v <= limit ->
    bin_has F v = true /\ exists v', wire v v' /\ item L (bin_text F sh v) v'
      /\ nesting v' = nesting v /\ widest v' = widest v.
  Proof.
    remember (nesting v) as n eqn:En. revert v En. induction (N.lt_wf_0 n) as [n _ IH]. intros v -> Sv Hw.
    assert (At : partless v -> bin_has F v = true /\ exists v', wire v v' /\ item L (bin_text F sh v) v'
      /\ nesting v' = nesting v /\ widest v' = widest v).
    { intros P. destruct (WA v P Sv) as (t & v' & E & A & W).
      assert (bin_has F v = bool_decide (is_Some (fm_atom F v))) as -> by (destruct v as [| | | | | | |[]|[]|[]|]; done).
      assert (bin_text F sh v = default "" (fm_atom F v)) as -> by (destruct v as [| | | | | | |[]|[]|[]|]; done).
      rewrite E. split; [by apply bool_decide_eq_true, (mk_is_Some _ t)|].
      exists v'. split; [done|]. split; [by constructor|]. destruct W; done. }
    destruct Sv as [|b|k z Hz|f Hf|f Hf|s Hs|s Hs|s Hs|l Hl|m Hm Hn|l Hl]; try by apply At.
    - destruct l as [l|]; [|by apply At]. clear At. cbn [default from_option id] in Hl.
      cbn [nesting widest bin_has bin_text] in *.
      assert (K : forall x, x ∈ l -> bin_has F x = true /\ exists x', wire x x' /\ item L (bin_text F sh x) x'
          /\ nesting x' = nesting x /\ widest x' = widest x).
      { intros x Hx. pose proof (max_in nesting x l Hx). pose proof (max_in widest x l Hx).
        apply (IH (nesting x)); [lia|done|by eapply Forall_forall in Hl|lia]. }
      split. { apply forallb_forall. intros x Hx%elem_of_list_In. by apply K. }
      destruct (Forall2_exists (fun x x' => wire x x' /\ item L (bin_text F sh x) x'
          /\ nesting x' = nesting x /\ widest x' = widest x) l) as [l' Hl'].
      { intros x Hx. by apply K. }
      exists (VSlice (Some l')). cbn [nesting widest].
      pose proof (Forall2_length _ _ _ Hl') as El.
      split; [constructor; eapply Forall2_impl; [exact Hl'|]; by intros ?? []|]. split.
      { replace (N.of_nat (length l)) with (N.of_nat (length (map (bin_text F sh) l))) by (by rewrite map_length).
        apply it_list.
        - rewrite map_length. apply WL. lia.
        - apply Forall2_fmap_l. eapply Forall2_impl; [exact Hl'|]. by intros ?? (? & ? & ?). }
      rewrite <- El. clear -Hl'.
      assert (map nesting l' = map nesting l /\ map widest l' = map widest l) as [-> ->]; [|done].
      induction Hl' as [|x x' l l' (_ & _ & E1 & E2) H [IH1 IH2]]; [done|]. cbn [map]. by rewrite E1, E2, IH1, IH2.
    - destruct m as [m|]; [|by apply At]. clear At. cbn [default from_option id] in Hm, Hn.
      cbn [nesting widest bin_has bin_text] in *.
      assert (K : forall x, x ∈ m -> strs (fst x) /\ bin_has F (snd x) = true /\ exists x', wire (snd x) x' /\ item L (bin_text F sh (snd x)) x'
          /\ nesting x' = nesting (snd x) /\ widest x' = widest (snd x)).
      { intros x Hx. pose proof (max_in (fun kv => nesting (snd kv)) x m Hx) as A.
        pose proof (max_in (fun kv => widest (snd kv)) x m Hx) as B. cbn beta in A, B.
        eapply Forall_forall in Hm as [Hs Hv]; [|exact Hx]. split; [done|].
        apply (IH (nesting (snd x))); [lia|done|done|lia]. }
      split. { apply forallb_forall. intros x Hx%elem_of_list_In. by apply K. }
      set (tx := fun kv : string * value => (fst kv, bin_text F sh (snd kv))).
      destruct (Permutation_map_inv tx m (sh_perm sh _ (map tx m))) as (m2 & Em & Pm). fold (shuf sh (map tx m)) in Em.
      change (map (fun kv => (fst kv, bin_text F sh (snd kv))) m) with (map tx m). rewrite Em.
      assert (K2 : forall x, x ∈ m2 -> x ∈ m) by (intros x Hx; by rewrite Pm).
      destruct (Forall2_exists (fun (x x' : string * value) => fst x = fst x' /\ wire (snd x) (snd x') /\ item L (bin_text F sh (snd x)) (snd x')
          /\ nesting (snd x') = nesting (snd x) /\ widest (snd x') = widest (snd x)) m2) as [m' Hm'].
      { intros x Hx. destruct (K x (K2 x Hx)) as (_ & _ & x' & ?). by exists (fst x, x'). }
      pose proof (Forall2_length _ _ _ Hm') as El. pose proof (Permutation_length Pm) as Ep.
      assert (Hfst : map fst m' = map fst m2).
      { clear -Hm'. induction Hm' as [|x x' l l' [E _] H IH]; [done|]. cbn [map]. by rewrite E, IH. }
      exists (VMap (Some m')). cbn [nesting widest]. split.
      { constructor. intros k. rewrite (assoc_permuted k m m2 Pm Hn). apply Forall2_assoc.
        eapply Forall2_impl; [exact Hm'|]. naive_solver. }
      split.
      { set (kts := map (fun kv => (fm_key F (fst kv), bin_text F sh (snd kv))) m2).
        assert (map (fun kx => fm_key F (fst kx) ++ snd kx) (map tx m2) = map entry kts) as ->.
        { unfold kts. rewrite !map_map. done. }
        replace (N.of_nat (length m)) with (N.of_nat (length kts)) by (unfold kts; rewrite map_length; lia).
        apply it_dict.
        - unfold kts. rewrite map_length. apply WD. lia.
        - apply Forall2_fmap_l. cbn [fst snd]. clear -Hm' K K2 WK.
          induction Hm' as [|x x' l l' (E & _ & H & _) H' IH]; constructor.
          + split; [|done]. rewrite <- E. apply WK, K, K2. left.
          + apply IH. intros y Hy. apply K2. by right.
        - rewrite Hfst. by rewrite <- Pm. }
      rewrite <- El, <- Ep.
      rewrite (max_permuted (map (fun kv => nesting (snd kv)) m) (map (fun kv => nesting (snd kv)) m2)) by by apply Permutation_map.
      rewrite (max_permuted (map (fun kv => widest (snd kv)) m) (map (fun kv => widest (snd kv)) m2)) by by apply Permutation_map.
      assert (map (fun kv => nesting (snd kv)) m' = map (fun kv => nesting (snd kv)) m2
              /\ map (fun kv => widest (snd kv)) m' = map (fun kv => widest (snd kv)) m2) as [-> ->]; [|done].
      clear -Hm'. induction Hm' as [|x x' l l' (_ & _ & _ & E1 & E2) H [IH1 IH2]]; [done|]. cbn [map].
      by rewrite E1, E2, IH1, IH2.
    - destruct l as [l|]; [|by apply At]. clear At. cbn [default from_option id] in Hl.
      cbn [nesting widest bin_has bin_text] in *.
      split. { apply forallb_forall. intros x Hx%elem_of_list_In. eapply Forall_forall in Hl; [|exact Hx].
        destruct (WS x Hl) as (t & E & _). by apply bool_decide_eq_true, (mk_is_Some _ t). }
      exists (VSlice (Some (map VStr l))). cbn [nesting widest]. split; [constructor|]. split.
      { replace (N.of_nat (length l)) with (N.of_nat (length (map (fun s => default "" (fm_atom F (VStr s))) l))) by (by rewrite map_length).
        apply it_list.
        - rewrite map_length. apply WL. lia.
        - apply Forall2_fmap_l, Forall2_fmap_r. clear -Hl WS. induction Hl as [|s l Hs H IH]; constructor; [|done].
          destruct (WS s Hs) as (t & E & A). apply it_atom. cbn. cbn in E. rewrite E. exact A. }
      rewrite map_length, !map_map. cbn [nesting widest].
      assert (Z : foldr N.max 0 (map (fun _ : string => 0) l) = 0).
      { clear. induction l as [|x l IH]; cbn [map foldr]; [done|]. lia. }
      rewrite Z. split; lia.
  Qed.

  Theorem list_through (RA : reads_atom F L) (RL : reads_list F L limit) (RD : reads_dict F L limit) (RK : reads_key F L)
    sh l : Forall safe l -> widest (VSlice (Some l)) <= limit ->
    room (nesting (VSlice (Some l))) (fm_levels F) ->
    exists s l', bin_marshal F sh l = Ok s /\ item L s (VSlice (Some l'))
      /\ bin_unmarshal F s = Ok (Some l') /\ Forall2 wire l l'.
  Proof.
    intros Hs Hw Hn. assert (S : safe (VSlice (Some l))) by by apply mo_slice.
    destruct (value_written sh _ S Hw) as (Hb & v' & W & I & En & Ew).
    apply wire_slice_inv in W as (l' & -> & W). eexists _, l'. split; [|split; [exact I|split; [|exact W]]].
    - unfold bin_marshal. cbn [bin_has] in Hb. by rewrite Hb.
    - apply (item_list_unmarshal F L limit RA RL RD RK); [done| |]; by rewrite ?En, ?Ew.
  Qed.
End WRITE.

(** * Readers take no notice of what follows *)
Section LOCAL.
  Context (F : format).
  Definition local_token : Prop := forall s t r x, fm_token F s = Some (t, r) -> fm_token F (s ++ x) = Some (t, r ++ x).
  Definition local_key : Prop := forall s k r x, fm_read_key F s = Some (k, r) -> fm_read_key F (s ++ x) = Some (k, r ++ x).
  Definition local_break : Prop := forall s x, s <> "" ->
    fm_break F (s ++ x) = match fm_break F s with Some r => Some (r ++ x) | None => None end.
  Definition nothing : Prop := fm_token F "" = None /\ fm_read_key F "" = None /\ fm_break F "" = None.
  Context (LT : local_token) (LK : local_key) (LB : local_break) (LN : nothing).
  Lemma next_local n s x : s <> "" ->
    next_part F n (s ++ x) = match next_part F n s with Stop r => Stop (r ++ x) | Go n' => Go n' | Fail => Fail end.
  Proof.
    intros Hs. destruct n as [n|n]; cbn [next_part]; [by destruct (n =? 0)|]. rewrite LB by done. destruct (fm_break F s); [done|]. by destruct (n =? 0).
  Qed.
  Lemma next_stop n s r x : next_part F n s = Stop r -> next_part F n (s ++ x) = Stop (r ++ x).
  Proof.
    intros E. destruct s as [|c s]; [|by rewrite next_local, E by done]. destruct n as [n|n]; cbn [next_part] in *.
    - destruct (n =? 0); [|done]. by injection E as <-.
    - destruct LN as (_ & _ & B). rewrite B in E. by destruct (n =? 0).
  Qed.
  Lemma next_go n n' s x : next_part F n s = Go n' -> s <> "" -> next_part F n (s ++ x) = Go n'.
  Proof. intros E Hs. by rewrite next_local, E. Qed.

  Lemma read_item_S f d s : read_item F (S f) d s =
    match fm_token F s with
    | None => None
    | Some (TVal v, r) => Some (v, r)
    | Some (TList n, r) =>
        match deeper d with
        | None => None
        | Some d' => match read_items F f d' n r with Some (l, r') => Some (VSlice (Some l), r') | None => None end
        end
    | Some (TDict n, r) =>
        match deeper d with
        | None => None
        | Some d' => match read_entries F f d' n [] r with Some (m, r') => Some (VMap (Some m), r') | None => None end
        end
    end.
  Proof. reflexivity. Qed.
  Lemma read_items_S f d n s : read_items F (S f) d n s =
    match next_part F n s with
    | Stop r => Some ([], r)
    | Fail => None
    | Go n' =>
        match read_item F f d s with
        | None => None
        | Some (v, r) => match read_items F f d n' r with Some (l, r') => Some (v :: l, r') | None => None end
        end
    end.
  Proof. reflexivity. Qed.
  Lemma read_entries_S f d n m s : read_entries F (S f) d n m s =
    match next_part F n s with
    | Stop r => Some (m, r)
    | Fail => None
    | Go n' =>
        match fm_read_key F s with
        | None => None
        | Some (k, r) =>
            match read_item F f d r with
            | None => None
            | Some (v, r') => read_entries F f d n' (assoc_set k v m) r'
            end
        end
    end.
  Proof. reflexivity. Qed.

  Lemma read_local f : forall d,
    (forall s v r x f', read_item F f d s = Some (v, r) -> (f <= f')%nat -> read_item F f' d (s ++ x) = Some (v, r ++ x))
    /\ (forall n s l r x f', read_items F f d n s = Some (l, r) -> (f <= f')%nat -> read_items F f' d n (s ++ x) = Some (l, r ++ x))
    /\ (forall n m s l r x f', read_entries F f d n m s = Some (l, r) -> (f <= f')%nat ->
          read_entries F f' d n m (s ++ x) = Some (l, r ++ x)).
  Proof.
    induction f as [|f IH]; intros d; [done|]. split; [|split].
    - intros s v r x [|f'] H Hf; [lia|]. rewrite read_item_S in H |- *.
      destruct (fm_token F s) as [[t r1]|] eqn:E; [|done]. rewrite (LT _ _ _ x E).
      destruct t as [v1|n|n].
      + by injection H as -> ->.
      + destruct (deeper d) as [d'|]; [|done]. destruct (read_items F f d' n r1) as [[l r2]|] eqn:E1; [|done].
        destruct (IH d') as (_ & IHl & _). rewrite (IHl _ _ _ _ x f' E1) by lia. injection H as <- <-. reflexivity.
      + destruct (deeper d) as [d'|]; [|done]. destruct (read_entries F f d' n [] r1) as [[l r2]|] eqn:E1; [|done].
        destruct (IH d') as (_ & _ & IHl). rewrite (IHl _ _ _ _ _ x f' E1) by lia. injection H as <- <-. reflexivity.
    - intros n s l r x [|f'] H Hf; [lia|]. rewrite read_items_S in H |- *. destruct (next_part F n s) as [r0|n'|] eqn:Nx; [|
        |done]. { injection H as <- ->. by rewrite (next_stop _ _ _ _ Nx). }
      destruct (read_item F f d s) as [[v r1]|] eqn:E; [|done].
      rewrite (next_go _ _ _ _ Nx) by (intros ->; destruct f; [done|]; rewrite read_item_S, (proj1 LN) in E; done).
      destruct (read_items F f d n' r1) as [[l2 r2]|] eqn:E1; [|done]. injection H as <- ->.
      destruct (IH d) as (IHi & IHl & _). rewrite (IHi _ _ _ x f' E) by lia. by rewrite (IHl _ _ _ _ x f' E1) by lia.
    - intros n m s l r x [|f'] H Hf; [lia|]. rewrite read_entries_S in H |- *. destruct (next_part F n s) as [r'|n'|] eqn:Nx; [|
        |done]. { injection H as <- ->. by rewrite (next_stop _ _ _ _ Nx). }
      destruct (fm_read_key F s) as [[k r0]|] eqn:E0; [|done]. rewrite (LK _ _ _ x E0).
      rewrite (next_go _ _ _ _ Nx) by (intros ->; destruct LN as (_ & Nk & _); congruence).
      destruct (read_item F f d r0) as [[v r1]|] eqn:E; [|done].
      destruct (IH d) as (IHi & _ & IHl). rewrite (IHi _ _ _ x f' E) by lia. apply (IHl _ _ _ _ _ x f' H). lia.
  Qed.

  (** What reads as a list is not the beginning of a longer item. *)
  Lemma prefix_not_read (L : layout) limit (RA : reads_atom F L) (RL : reads_list F L limit)
    (RD : reads_dict F L limit) (RK : reads_key F L) s x v l :
    item L (s ++ x) v -> widest v <= limit -> room (nesting v) (fm_levels F) -> x <> "" ->
    bin_unmarshal F s <> Ok l.
  Proof.
    intros I W N Hx. unfold bin_unmarshal. destruct (read_item F _ _ s) as [[v' r]|] eqn:E; [|done]. intros _.
    destruct (read_local (2 * String.length s + 2) (fm_levels F)) as (H & _ & _).
    pose proof (H _ _ _ x (2 * String.length (s ++ x) + 2)%nat E) as E'. rewrite slength_app in E' at 1.
    destruct (item_reads F L limit RA RL RD RK _ _ I W) as [_ R].
    pose proof (R _ N (2 * String.length (s ++ x) + 2)%nat "" ltac:(lia)) as E2. rewrite sapp_nil in E2.
    rewrite E' in E2 by lia. injection E2 as _ E2. destruct r, x; done.
  Qed.
  (** Nor is it followed by anything, where that is not allowed. *)
  Lemma trailing_not_read (L : layout) limit (RA : reads_atom F L) (RL : reads_list F L limit)
    (RD : reads_dict F L limit) (RK : reads_key F L) s x v l :
    fm_trailing F = false ->
    item L s v -> widest v <= limit -> room (nesting v) (fm_levels F) -> x <> "" ->
    bin_unmarshal F (s ++ x) <> Ok l.
  Proof.
    intros T I W N Hx. unfold bin_unmarshal. destruct (item_reads F L limit RA RL RD RK _ _ I W) as [_ R].
    rewrite (R _ N) by (rewrite slength_app; lia). rewrite T. destruct (String.eqb_spec x ""); done.
  Qed.
  Lemma trailing_ignored (L : layout) limit (RA : reads_atom F L) (RL : reads_list F L limit)
    (RD : reads_dict F L limit) (RK : reads_key F L) s x l :
    fm_trailing F = true ->
    item L s (VSlice (Some l)) -> widest (VSlice (Some l)) <= limit -> room (nesting (VSlice (Some l))) (fm_levels F) ->
    bin_unmarshal F (s ++ x) = Ok (Some l).
  Proof.
    intros T I W N. unfold bin_unmarshal. destruct (item_reads F L limit RA RL RD RK _ _ I W) as [_ R].
    rewrite (R _ N) by (rewrite slength_app; lia). by rewrite T.
  Qed.
End LOCAL.

(** * The bound on the recursion of [read_item] is never reached *)
Section FUEL.
  Context (F : format).
  Definition shrinks_token : Prop := forall s t r, fm_token F s = Some (t, r) -> (String.length r < String.length s)%nat.
  Definition shrinks_key : Prop := forall s k r, fm_read_key F s = Some (k, r) -> (String.length r < String.length s)%nat.
  Definition shrinks_break : Prop := forall s r, fm_break F s = Some r -> (String.length r < String.length s)%nat.
  Context (ST : shrinks_token) (SK : shrinks_key) (SB : shrinks_break).
  Lemma next_shrinks n s r : next_part F n s = Stop r -> (String.length r <= String.length s)%nat.
  Proof.
    destruct n as [n|n]; cbn [next_part]; [destruct (n =? 0); [intros [= ->]; lia|done]|].
    destruct (fm_break F s) as [r'|] eqn:E; [|by destruct (n =? 0)]. intros [= ->]. apply SB in E. lia.
  Qed.
  Lemma rest_shrinks f : forall d,
    (forall s v r, read_item F f d s = Some (v, r) -> (String.length r < String.length s)%nat)
    /\ (forall n s l r, read_items F f d n s = Some (l, r) -> (String.length r <= String.length s)%nat)
    /\ (forall n m s l r, read_entries F f d n m s = Some (l, r) -> (String.length r <= String.length s)%nat).
  Proof.
    induction f as [|f IH]; intros d; [done|]. split; [|split].
    - intros s v r. rewrite read_item_S. destruct (fm_token F s) as [[[v1|n|n] r1]|] eqn:E; [| | |done]; apply ST in E.
      + by intros [= -> ->].
      + destruct (deeper d) as [d'|]; [|done]. destruct (read_items F f d' n r1) as [[l r2]|] eqn:E1; [|done].
        intros [= <- <-]. apply IH in E1. lia.
      + destruct (deeper d) as [d'|]; [|done]. destruct (read_entries F f d' n [] r1) as [[l r2]|] eqn:E1; [|done].
        intros [= <- <-]. apply IH in E1. lia.
    - intros n s l r. rewrite read_items_S. destruct (next_part F n s) as [r0|n'|] eqn:Nx; [intros [= <- <-]; by eapply next_shrinks| |done].
      destruct (read_item F f d s) as [[v r1]|] eqn:E; [|done].
      destruct (read_items F f d n' r1) as [[l2 r2]|] eqn:E1; [|done]. intros [= <- <-]. apply IH in E, E1. lia.
    - intros n m s l r. rewrite read_entries_S. destruct (next_part F n s) as [r'|n'|] eqn:Nx; [intros [= <- <-]; by eapply next_shrinks| |done].
      destruct (fm_read_key F s) as [[k r0]|] eqn:E0; [|done]. destruct (read_item F f d r0) as [[v r1]|] eqn:E; [|done].
      intros E1. apply SK in E0. apply IH in E, E1. lia.
  Qed.
  Lemma fuel_suffices f : forall d,
    (forall s f', (2 * String.length s + 1 <= f)%nat -> (2 * String.length s + 1 <= f')%nat ->
       read_item F f d s = read_item F f' d s)
    /\ (forall n s f', (2 * String.length s + 2 <= f)%nat -> (2 * String.length s + 2 <= f')%nat ->
       read_items F f d n s = read_items F f' d n s)
    /\ (forall n m s f', (2 * String.length s + 2 <= f)%nat -> (2 * String.length s + 2 <= f')%nat ->
       read_entries F f d n m s = read_entries F f' d n m s).
  Proof.
    induction f as [|f IH]; intros d; [split; [|split]; intros; lia|]. split; [|split].
    - intros s [|f'] H H'; [lia|]. rewrite !read_item_S. destruct (fm_token F s) as [[[v1|n|n] r1]|] eqn:E; [done| | |done];
        apply ST in E; (destruct (deeper d) as [d'|]; [|done]).
      + destruct (IH d') as (_ & IH' & _). by rewrite (IH' n r1 f') by lia.
      + destruct (IH d') as (_ & _ & IH'). by rewrite (IH' n [] r1 f') by lia.
    - intros n s [|f'] H H'; [lia|]. rewrite !read_items_S. destruct (next_part F n s) as [r'|n'|]; [done| |done]. destruct (IH d) as (I1 & I2 & _).
      rewrite (I1 s f') by lia. destruct (read_item F f' d s) as [[v r1]|] eqn:E; [|done].
      apply rest_shrinks in E. by rewrite (I2 _ r1 f') by lia.
    - intros n m s [|f'] H H'; [lia|]. rewrite !read_entries_S. destruct (next_part F n s) as [r'|n'|]; [done| |done]. destruct (IH d) as (I1 & _ & I2).
      destruct (fm_read_key F s) as [[k r0]|] eqn:E0; [|done]. apply SK in E0.
      rewrite (I1 r0 f') by lia. destruct (read_item F f' d r0) as [[v r1]|] eqn:E; [|done].
      apply rest_shrinks in E. by rewrite (I2 _ _ r1 f') by lia.
  Qed.
End FUEL.
