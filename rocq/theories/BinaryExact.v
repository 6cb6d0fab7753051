(** Proofs: the readers read the items of the grammar and nothing else, for any
    format with the laws below. *)
From Coq Require Import Ascii.
From Verif Require Import Prelude Value BaseSpec WireSpec PathMatchSpec JsonSpec JsonFacts JsonSafe JsonRound JsonGrammar JsonTree PathUtf8
  Payload Binary BinarySpec BinaryRound BinaryGrammar.

Local Open Scope string_scope.
Local Open Scope N_scope.

Lemma inside_deeper d d' : inside d d' <-> deeper d = Some d'.
Proof.
  destruct d as [n|], d' as [n'|]; cbn [inside deeper]; try done.
  - destruct (N.eqb_spec n 0); split; [lia|done|intros ->; by rewrite N.add_sub|intros [= <-]; lia].
  - by destruct (n =? 0).
Qed.
Lemma last_alike kvs kvs' m m' : Forall2 (fun a b : string * value => fst a = fst b /\ alike (snd a) (snd b)) kvs kvs' ->
  last_entries kvs m -> last_entries kvs' m' -> alike (VMap (Some m)) (VMap (Some m')).
Proof.
  intros F [_ L] [_ L']. assert (K : forall l l', Forall2 (fun a b : string * value => fst a = fst b /\ alike (snd a) (snd b)) l l' -> map fst l = map fst l').
  { induction 1 as [|a b l l' [E _] _ IH]; [done|]. cbn [map]. by rewrite E, IH. }
  apply al_dict.
  - intros k v (l1 & l2 & -> & N)%L. apply Forall2_app_inv_l in F as (l1' & l2' & _ & F & ->).
    apply Forall2_cons_inv_l in F as ([k' v'] & l2'' & [E A] & F & ->). cbn [fst snd] in E, A. subst k'. exists v'. split; [|done].
    apply L'. exists l1', l2''. split; [done|]. by rewrite <- (K _ _ F).
  - intros k v (l1 & l2 & -> & N)%L'. apply Forall2_app_inv_r in F as (l1' & l2' & _ & F & ->).
    apply Forall2_cons_inv_r in F as ([k' v'] & l2'' & [E A] & F & ->). cbn [fst snd] in E, A. subst k'. exists v'. split; [|done].
    apply L. exists l1', l2''. split; [done|]. by rewrite (K _ _ F).
Qed.

Section SOUND.
  Context (F : format) (D : dialect).
  Definition sound_token : Prop := forall s t r, fm_token F s = Some (t, r) -> exists h, s = h ++ r /\
    match t with
    | TVal v => di_atom D h v
    | TList (Exactly n) => di_list D n h
    | TList (AtMost n) => forall k, k <= n -> di_open_list D k h
    | TDict (Exactly n) => di_dict D n h
    | TDict (AtMost n) => forall k, k <= n -> di_open_dict D k h
    end.
  Definition sound_key : Prop := forall s k r, fm_read_key F s = Some (k, r) -> exists h, s = h ++ r /\ di_key D k h.
  Definition sound_break : Prop := forall s r, fm_break F s = Some r -> exists z, s = z ++ r /\ di_close D z.
  Context (ST : sound_token) (SK : sound_key) (SB : sound_break).

  Definition ends_well (n : count) (k : nat) (z : string) : Prop :=
    match n with Exactly n => z = "" /\ N.of_nat k = n | AtMost n => di_close D z /\ N.of_nat k <= n end.
  Lemma next_stops n s r : next_part F n s = Stop r -> exists z, s = z ++ r /\ ends_well n 0 z.
  Proof.
    destruct n as [n|n]; cbn [next_part].
    - destruct (N.eqb_spec n 0) as [->|]; [|done]. intros [= ->]. by exists "".
    - destruct (fm_break F s) as [r'|] eqn:E; [|by destruct (n =? 0)]. intros [= ->]. apply SB in E as (z & -> & Hz).
      exists z. split; [done|]. split; [done|]. lia.
  Qed.
  Lemma next_goes n n' s k z : next_part F n s = Go n' -> ends_well n' k z -> ends_well n (S k) z.
  Proof.
    destruct n as [n|n]; cbn [next_part].
    - destruct (N.eqb_spec n 0); [done|]. intros [= <-] [-> E]. split; [done|]. lia.
    - destruct (fm_break F s); [done|]. destruct (N.eqb_spec n 0); [done|]. intros [= <-] [C E]. split; [done|]. lia.
  Qed.
  Lemma set_all_cons k (v : value) l m : set_all ((k, v) :: l) m = set_all l (assoc_set k v m).
  Proof. done. Qed.

  Lemma read_sound f : forall d,
    (forall s v r, read_item F f d s = Some (v, r) -> exists t, s = t ++ r /\ stands D d t v)
    /\ (forall n s l r, read_items F f d n s = Some (l, r) ->
          exists ts z, s = String.concat "" ts ++ z ++ r /\ Forall2 (stands D d) ts l /\ ends_well n (length ts) z)
    /\ (forall n m s l r, read_entries F f d n m s = Some (l, r) ->
          exists kts kvs z, s = String.concat "" (map entry kts) ++ z ++ r
            /\ Forall2 (fun kt kv => di_key D (fst kv) (fst kt) /\ stands D d (snd kt) (snd kv)) kts kvs
            /\ ends_well n (length kts) z /\ l = set_all kvs m).
  Proof.
    induction f as [|f IH]; intros d; [done|]. split; [|split].
    - intros s v r. rewrite read_item_S. destruct (fm_token F s) as [[[v1|n|n] r1]|] eqn:E; [| | |done];
        apply ST in E as (h & -> & H).
      + intros [= -> ->]. exists h. split; [done|]. by constructor.
      + destruct (deeper d) as [d'|] eqn:Ed; [|done]. apply inside_deeper in Ed. destruct (IH d') as (_ & IHl & _).
        destruct (read_items F f d' n r1) as [[l r2]|] eqn:E1; [|done]. intros [= <- <-].
        apply IHl in E1 as (ts & z & -> & Hts & W). destruct n as [n|n]; destruct W as [Wz Wn].
        * subst z. exists (h ++ String.concat "" ts). split; [by rewrite !sapp_assoc|]. eapply st_list; [done|by rewrite Wn|done].
        * exists (h ++ String.concat "" ts ++ z). split; [by rewrite !sapp_assoc|]. eapply st_open_list; [done|by apply H|done|done].
      + destruct (deeper d) as [d'|] eqn:Ed; [|done]. apply inside_deeper in Ed. destruct (IH d') as (_ & _ & IHl).
        destruct (read_entries F f d' n [] r1) as [[l r2]|] eqn:E1; [|done]. intros [= <- <-].
        apply IHl in E1 as (kts & kvs & z & -> & Hts & W & ->). pose proof (set_all_last kvs). destruct n as [n|n]; destruct W as [Wz Wn].
        * subst z. exists (h ++ String.concat "" (map entry kts)). split; [by rewrite !sapp_assoc|].
          eapply st_dict; [done|by rewrite Wn|done|done].
        * exists (h ++ String.concat "" (map entry kts) ++ z). split; [by rewrite !sapp_assoc|].
          eapply st_open_dict; [done|by apply H|done|done|done].
    - intros n s l r. rewrite read_items_S. destruct (next_part F n s) as [r0|n'|] eqn:Nx; [| |done].
      { intros [= <- <-]. apply next_stops in Nx as (z & -> & W). exists [], z. split; [done|]. by split; [constructor|]. }
      destruct (read_item F f d s) as [[v r1]|] eqn:E; [|done].
      destruct (read_items F f d n' r1) as [[l2 r2]|] eqn:E1; [|done]. intros [= <- <-].
      destruct (IH d) as (IHi & IHl & _). apply IHi in E as (t & -> & Ht). apply IHl in E1 as (ts & z & -> & Hts & W).
      exists (t :: ts), z. split; [by rewrite concat_cons_nil, !sapp_assoc|]. split; [by constructor|]. by eapply next_goes.
    - intros n m s l r. rewrite read_entries_S. destruct (next_part F n s) as [r0|n'|] eqn:Nx; [| |done].
      { intros [= <- <-]. apply next_stops in Nx as (z & -> & W). exists [], [], z. split; [done|]. by split; [constructor|]. }
      destruct (fm_read_key F s) as [[k r0]|] eqn:E0; [|done]. destruct (read_item F f d r0) as [[v r1]|] eqn:E; [|done].
      intros E1. destruct (IH d) as (IHi & _ & IHl). apply SK in E0 as (h & -> & Hk). apply IHi in E as (t & -> & Ht).
      apply IHl in E1 as (kts & kvs & z & -> & Hts & W & ->). exists ((h, t) :: kts), ((k, v) :: kvs), z.
      split; [cbn [map]; rewrite concat_cons_nil; unfold entry at 2; cbn [fst snd]; by rewrite !sapp_assoc|].
      split; [by constructor|]. split; [by eapply next_goes|]. by rewrite set_all_cons.
  Qed.
End SOUND.

Section COMPLETE.
  Context (F : format) (D : dialect).
  Definition complete_atom : Prop := forall s v, di_atom D s v -> s <> "" /\ forall r, fm_token F (s ++ r) = Some (TVal v, r).
  Definition complete_list : Prop := forall n h, di_list D n h -> h <> "" /\ forall r, fm_token F (h ++ r) = Some (TList (Exactly n), r).
  Definition complete_dict : Prop := forall n h, di_dict D n h -> h <> "" /\ forall r, fm_token F (h ++ r) = Some (TDict (Exactly n), r).
  Definition complete_open_list : Prop := forall n h, di_open_list D n h ->
    h <> "" /\ exists k, n <= k /\ forall r, fm_token F (h ++ r) = Some (TList (AtMost k), r).
  Definition complete_open_dict : Prop := forall n h, di_open_dict D n h ->
    h <> "" /\ exists k, n <= k /\ forall r, fm_token F (h ++ r) = Some (TDict (AtMost k), r).
  Definition complete_close : Prop := forall z, di_close D z -> z <> "" /\ forall r, fm_break F (z ++ r) = Some r.
  Definition complete_key : Prop := forall k t, di_key D k t -> t <> "" /\ forall r, fm_read_key F (t ++ r) = Some (k, r).
  Definition break_alone : Prop := forall s r, fm_break F s = Some r -> fm_token F s = None /\ fm_read_key F s = None.
  Context (CA : complete_atom) (CL : complete_list) (CD : complete_dict) (COL : complete_open_list) (COD : complete_open_dict)
    (CC : complete_close) (CK : complete_key) (BA : break_alone).

  (** What is read, with enough fuel. *)
  Definition reads_to (d : option N) (t : string) (v : value) : Prop :=
    t <> "" /\ (forall r, fm_break F (t ++ r) = None)
    /\ forall fuel rest, (2 * String.length t <= fuel)%nat -> read_item F fuel d (t ++ rest) = Some (v, rest).
  Definition begins (n : count) (k : nat) (z : string) : Prop :=
    match n with
    | Exactly n => z = "" /\ n = N.of_nat k
    | AtMost n => N.of_nat k <= n /\ di_close D z
    end.
  Lemma begins_stop n z r : begins n 0 z -> next_part F n (z ++ r) = Stop r.
  Proof.
    destruct n as [n|n]; cbn [begins next_part]; [by intros [-> ->]|]. intros [_ Hz]. by rewrite (proj2 (CC z Hz)).
  Qed.
  Lemma begins_go n k z s : begins n (S k) z -> fm_break F s = None -> exists n', next_part F n s = Go n' /\ begins n' k z.
  Proof.
    destruct n as [n|n]; cbn [begins next_part].
    - intros [-> ->] _. destruct (N.eqb_spec (N.of_nat (S k)) 0); [lia|]. eexists. split; [done|]. split; [done|]. lia.
    - intros [H Hz] ->. destruct (N.eqb_spec n 0); [lia|]. eexists. split; [done|]. split; [lia|done].
  Qed.
  Lemma items_complete d ts vs : Forall2 (reads_to d) ts vs -> forall n z, begins n (length ts) z ->
    forall fuel rest, (2 * String.length (String.concat "" ts ++ z) + 1 <= fuel)%nat ->
      read_items F fuel d n (String.concat "" ts ++ z ++ rest) = Some (vs, rest).
  Proof.
    induction 1 as [|t v ts vs (Nt & Bt & Rt) H IH]; intros n z Hn fuel rest Hf; (destruct fuel as [|f]; [lia|]); rewrite read_items_S.
    - change (String.concat "" [] ++ z ++ rest) with (z ++ rest). by rewrite (begins_stop _ _ _ Hn).
    - rewrite concat_cons_nil in Hf |- *. rewrite !slength_app in Hf. pose proof (some_length t Nt).
      rewrite sapp_assoc. destruct (begins_go n (length ts) z (t ++ String.concat "" ts ++ z ++ rest) Hn (Bt _)) as (n' & -> & Hn').
      rewrite Rt by lia. rewrite (IH n' z Hn') by (rewrite slength_app; lia). done.
  Qed.
  Lemma key_no_break k t r : di_key D k t -> fm_break F (t ++ r) = None.
  Proof. intros H. destruct (fm_break F (t ++ r)) as [x|] eqn:E; [|done]. apply BA in E as [_ E]. rewrite (proj2 (CK _ _ H)) in E. done. Qed.
  Lemma entries_complete d kts kvs :
    Forall2 (fun kt kv => di_key D (fst kv) (fst kt) /\ reads_to d (snd kt) (snd kv)) kts kvs -> forall n z, begins n (length kts) z ->
    forall fuel acc rest, (2 * String.length (String.concat "" (map entry kts) ++ z) + 1 <= fuel)%nat ->
      read_entries F fuel d n acc (String.concat "" (map entry kts) ++ z ++ rest) = Some (set_all kvs acc, rest).
  Proof.
    induction 1 as [|[kt t] [k v] kts kvs (Hk & Nt & Bt & Rt) H IH]; intros n z Hn fuel acc rest Hf;
      (destruct fuel as [|f]; [lia|]); rewrite read_entries_S.
    - change (String.concat "" (map entry []) ++ z ++ rest) with (z ++ rest). by rewrite (begins_stop _ _ _ Hn).
    - cbn [map fst snd] in *. rewrite concat_cons_nil in Hf |- *. change (entry (kt, t)) with (kt ++ t) in *. cbn [fst snd] in *.
      rewrite !slength_app in Hf. destruct (CK _ _ Hk) as [Nk Rk]. pose proof (some_length t Nt). pose proof (some_length kt Nk).
      rewrite !sapp_assoc. destruct (begins_go n (length kts) z (kt ++ t ++ String.concat "" (map entry kts) ++ z ++ rest) Hn (key_no_break _ _ _ Hk)) as (n' & -> & Hn').
      rewrite Rk, Rt by lia. rewrite set_all_cons. apply (IH n' z Hn'). rewrite slength_app. lia.
  Qed.
  Lemma token_no_break s c : fm_token F s = Some c -> fm_break F s = None.
  Proof. intros H. destruct (fm_break F s) as [x|] eqn:E; [|done]. apply BA in E as [E _]. congruence. Qed.

  Lemma length_in (t : string) ts : t ∈ ts -> (String.length t <= String.length (String.concat "" ts))%nat.
  Proof. induction 1; rewrite concat_cons_nil, slength_app; lia. Qed.

  Theorem stands_reads d s v : stands D d s v -> exists v', alike v v' /\ reads_to d s v'.
  Proof.
    remember (String.length s) as n eqn:En. revert d s v En. induction (lt_wf n) as [n _ IH]. intros d s v -> I.
    assert (L : forall d' h ts vs w, h <> "" -> s = h ++ String.concat "" ts ++ w -> Forall2 (stands D d') ts vs ->
      exists vs', Forall2 alike vs vs' /\ Forall2 (reads_to d') ts vs').
    { intros d' h ts vs w Nh Es Hts. pose proof (some_length h Nh). assert (Hin : forall t, t ∈ ts -> (String.length t < String.length s)%nat).
      { intros t Ht. apply length_in in Ht. rewrite Es, !slength_app. lia. }
      clear Es. induction Hts as [|t v' ts vs Ht Hts IHl]; [by exists []; split; constructor|].
      destruct IHl as (vs' & A & R). { intros t' Ht'. apply Hin. by right. }
      destruct (IH (String.length t) (Hin t ltac:(left)) d' t v' eq_refl Ht) as (v'' & A' & R').
      exists (v'' :: vs'). split; by constructor. }
    assert (E : forall d' h kts kvs w, h <> "" -> s = h ++ String.concat "" (map entry kts) ++ w ->
      Forall2 (fun kt kv => di_key D (fst kv) (fst kt) /\ stands D d' (snd kt) (snd kv)) kts kvs ->
      exists kvs', Forall2 (fun a b : string * value => fst a = fst b /\ alike (snd a) (snd b)) kvs kvs'
        /\ Forall2 (fun kt kv => di_key D (fst kv) (fst kt) /\ reads_to d' (snd kt) (snd kv)) kts kvs').
    { intros d' h kts kvs w Nh Es Hts. pose proof (some_length h Nh).
      assert (Hin : forall kt, kt ∈ kts -> (String.length (snd kt) < String.length s)%nat).
      { intros kt Ht. apply (elem_of_list_fmap_1 entry), length_in in Ht. unfold entry at 1 in Ht. rewrite slength_app in Ht.
        rewrite Es, !slength_app. change (entry <$> kts) with (map entry kts) in Ht. lia. }
      clear Es. induction Hts as [|kt kv kts kvs [Hk Ht] Hts IHl]; [by exists []; split; constructor|].
      destruct IHl as (vs' & A & R). { intros t' Ht'. apply Hin. by right. }
      destruct (IH (String.length (snd kt)) (Hin kt ltac:(left)) d' (snd kt) (snd kv) eq_refl Ht) as (v'' & A' & R').
      exists ((fst kv, v'') :: vs'). split; by constructor. }
    destruct I as [d s v Ha|d d' h ts vs Hi Hh Hts|d d' h ts vs z Hi Hh Hts Hz|d d' h kts kvs m Hi Hh Hts Hm|d d' h kts kvs m z Hi Hh Hts Hm Hz].
    - destruct (CA _ _ Ha) as [Ns Rs]. exists v. split; [apply al_same|]. split; [done|].
      split; [intros r; eapply token_no_break, Rs|]. intros fuel rest Hf. pose proof (some_length s Ns).
      destruct fuel as [|f]; [lia|]. rewrite read_item_S. by rewrite Rs.
    - destruct (CL _ _ Hh) as [Nh Rh]. destruct (L d' h ts vs "" Nh ltac:(by rewrite sapp_nil) Hts) as (vs' & A & R).
      exists (VSlice (Some vs')). split; [by constructor|]. split; [by apply app_some|].
      split; [intros r; rewrite sapp_assoc; eapply token_no_break, Rh|]. intros fuel rest Hf. pose proof (some_length h Nh). rewrite slength_app in Hf.
      destruct fuel as [|f]; [lia|]. rewrite read_item_S, sapp_assoc, Rh. apply inside_deeper in Hi as ->.
      rewrite <- (sapp_nil (String.concat "" ts)), sapp_assoc.
      rewrite (items_complete d' ts vs' R (Exactly (N.of_nat (length ts))) ""); [done|done|]. rewrite sapp_nil. lia.
    - destruct (COL _ _ Hh) as (Nh & k & Hk & Rh). destruct (L d' h ts vs z Nh eq_refl Hts) as (vs' & A & R).
      exists (VSlice (Some vs')). split; [by constructor|]. split; [by apply app_some|].
      split; [intros r; rewrite sapp_assoc; eapply token_no_break, Rh|]. intros fuel rest Hf. pose proof (some_length h Nh). rewrite slength_app in Hf.
      destruct fuel as [|f]; [lia|]. rewrite read_item_S, !sapp_assoc, Rh. apply inside_deeper in Hi as ->.
      rewrite (items_complete d' ts vs' R (AtMost k) z); [done|done|]. lia.
    - destruct (CD _ _ Hh) as [Nh Rh]. destruct (E d' h kts kvs "" Nh ltac:(by rewrite sapp_nil) Hts) as (kvs' & A & R).
      exists (VMap (Some (set_all kvs' []))). split; [by eapply last_alike, set_all_last|].
      split; [by apply app_some|].
      split; [intros r; rewrite sapp_assoc; eapply token_no_break, Rh|]. intros fuel rest Hf. pose proof (some_length h Nh). rewrite slength_app in Hf.
      destruct fuel as [|f]; [lia|]. rewrite read_item_S, sapp_assoc, Rh. apply inside_deeper in Hi as ->.
      change (map (fun kt : string * string => fst kt ++ snd kt) kts) with (map entry kts) in *.
      rewrite <- (sapp_nil (String.concat "" (map entry kts))), sapp_assoc.
      rewrite (entries_complete d' kts kvs' R (Exactly (N.of_nat (length kts))) ""); [done|done|]. rewrite sapp_nil. lia.
    - destruct (COD _ _ Hh) as (Nh & k & Hk & Rh). destruct (E d' h kts kvs z Nh eq_refl Hts) as (kvs' & A & R).
      exists (VMap (Some (set_all kvs' []))). split; [by eapply last_alike, set_all_last|].
      split; [by apply app_some|].
      split; [intros r; rewrite sapp_assoc; eapply token_no_break, Rh|]. intros fuel rest Hf. pose proof (some_length h Nh). rewrite slength_app in Hf.
      destruct fuel as [|f]; [lia|]. rewrite read_item_S, !sapp_assoc, Rh. apply inside_deeper in Hi as ->.
      change (map (fun kt : string * string => fst kt ++ snd kt) kts) with (map entry kts) in *.
      rewrite (entries_complete d' kts kvs' R (AtMost k) z); [done|done|]. lia.
  Qed.
End COMPLETE.
