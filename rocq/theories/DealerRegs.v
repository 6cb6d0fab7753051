(** What the dealer's registration objects say is backed by the trace, in
    every history. *)
From Verif Require Import Prelude Value Msg IdGen Types PathMatch Dealer DealerSpec.
From Verif Require Import BaseSpec BaseFacts TypesFacts DealerFacts DealerCases DealerCalls.

(** A registration object and the trace. *)
Record backed (tr : dtrace) (g : registration) : Prop := Backed {
  bk_callee : forall c, c ∈ g_callees g -> exists pol, once_registered tr c (g_proc g) pol (g_id g);
  bk_regs : forall c x, g_regs g !! c = Some x -> exists pol, once_registered tr c (g_proc g) pol (g_id g);
  bk_made : exists c pol, g_match g = pol_name pol /\ once_registered tr c (g_proc g) pol (g_id g) }.

Record ginv (tr : dtrace) (d : dealer) : Prop := GInv {
  gi_heap : forall l g, d_heap d !! l = Some g -> backed tr g;
  gi_fresh : forall l g, d_heap d !! l = Some g -> l < d_fresh d;
  gi_proc : forall p l, d_by_proc d !! p = Some l -> exists g, d_heap d !! l = Some g /\ g_proc g = p;
  gi_prefix : forall p l, d_prefix d !! p = Some l ->
      exists g, d_heap d !! l = Some g /\ g_proc g = p /\ g_match g = pol_name PPrefix;
  gi_wild : forall p l, d_wild d !! p = Some l ->
      exists g, d_heap d !! l = Some g /\ g_proc g = p /\ g_match g = pol_name PWildcard;
  gi_sess : forall sid m id l, d_by_session d !! sid = Some m -> m !! id = Some l ->
      exists g, d_heap d !! l = Some g /\ g_id g = id }.

Lemma once_mono e tr c p pol g : once_registered tr c p pol g -> once_registered (e :: tr) c p pol g.
Proof. intros (x & Hx & H). exists x. split; [by right|done]. Qed.
Lemma backed_mono e tr g : backed tr g -> backed (e :: tr) g.
Proof.
  intros [H1 H2 (c & pol & H3 & H4)]. constructor.
  - intros x Hx. destruct (H1 _ Hx) as [pol' ?]. eexists. by apply once_mono.
  - intros x y Hx. destruct (H2 _ _ Hx) as [pol' ?]. eexists. by apply once_mono.
  - exists c, pol. split; [done|]. by apply once_mono.
Qed.
Lemma ginv_mono e tr d : ginv tr d -> ginv (e :: tr) d.
Proof. intros [H1 H2 H3 H4 H5 H6]. constructor; try done. intros l g Hg. by eapply backed_mono, H1. Qed.

Lemma ginv_init : ginv [] new_dealer.
Proof. constructor; intros *; cbn; rewrite ?lookup_empty; discriminate. Qed.

(** Replacing an object by one with the same name, id and policy. *)
Lemma ginv_update tr d d' l g g' :
  ginv tr d -> d_heap d !! l = Some g ->
  g_id g' = g_id g -> g_proc g' = g_proc g -> g_match g' = g_match g -> backed tr g' ->
  d_heap d' = <[l := g']> (d_heap d) -> d_fresh d' = d_fresh d ->
  (forall p x, d_by_proc d' !! p = Some x -> d_by_proc d !! p = Some x) ->
  (forall p x, d_prefix d' !! p = Some x -> d_prefix d !! p = Some x) ->
  (forall p x, d_wild d' !! p = Some x -> d_wild d !! p = Some x) ->
  (forall sid m id x, d_by_session d' !! sid = Some m -> m !! id = Some x ->
     (id = g_id g /\ x = l) \/ exists m0, d_by_session d !! sid = Some m0 /\ m0 !! id = Some x) ->
  ginv tr d'.
Proof.
  intros G Hl E1 E2 E3 Bk Hh Hf Hp Hpre Hw Hs.
  assert (Look : forall x gx, d_heap d !! x = Some gx -> exists gx', d_heap d' !! x = Some gx'
     /\ g_id gx' = g_id gx /\ g_proc gx' = g_proc gx /\ g_match gx' = g_match gx).
  { intros x gx Hx. rewrite Hh. destruct (decide (l = x)) as [<-|n].
    - rewrite lookup_insert. assert (gx = g) as -> by congruence. eauto.
    - rewrite lookup_insert_ne by done. eauto. }
  constructor.
  - intros x gx. rewrite Hh. destruct (decide (l = x)) as [<-|n].
    + rewrite lookup_insert. intros H; injection H as <-. done.
    + rewrite lookup_insert_ne by done. apply G.
  - intros x gx. rewrite Hh, Hf. destruct (decide (l = x)) as [<-|n].
    + intros _. by eapply gi_fresh.
    + rewrite lookup_insert_ne by done. apply G.
  - intros p x Hx%Hp. destruct (gi_proc _ _ G _ _ Hx) as (gx & Hgx & <-).
    destruct (Look _ _ Hgx) as (gx' & ? & ? & ? & ?). eauto.
  - intros p x Hx%Hpre. destruct (gi_prefix _ _ G _ _ Hx) as (gx & Hgx & <- & Hm).
    destruct (Look _ _ Hgx) as (gx' & ? & ? & ? & ?). exists gx'. repeat split; congruence.
  - intros p x Hx%Hw. destruct (gi_wild _ _ G _ _ Hx) as (gx & Hgx & <- & Hm).
    destruct (Look _ _ Hgx) as (gx' & ? & ? & ? & ?). exists gx'. repeat split; congruence.
  - intros sid m id x H1 H2. destruct (Hs _ _ _ _ H1 H2) as [[-> ->]|(m0 & H3 & H4)].
    + destruct (Look _ _ Hl) as (gx' & ? & ? & ? & ?). exists gx'. split; congruence.
    + destruct (gi_sess _ _ G _ _ _ _ H3 H4) as (gx & Hgx & <-).
      destruct (Look _ _ Hgx) as (gx' & ? & ? & ? & ?). eauto.
Qed.

Lemma ginv_remove_loop tr id ls : forall d d' u, ginv tr d -> d_remove_loop id d ls = Ret d' u -> ginv tr d'.
Proof.
  induction ls as [|l ls IH]; intros d d' u G; cbn [d_remove_loop].
  { intros H; injection H as <-. done. }
  destruct (d_remove_body id d l) as [d1 u1|w] eqn:B; [|discriminate].
  intros H. eapply IH; [|exact H]. clear H IH.
  destruct (d_heap d !! l) as [reg|] eqn:L.
  2:{ unfold d_remove_body in B. by rewrite L in B. }
  rewrite (remove_body_eq _ _ _ _ L) in B.
  destruct (d_by_proc d !! g_proc reg) as [l'|] eqn:P; [|by injection B as <-].
  destruct (d_heap d !! l') as [g|] eqn:L'; [|discriminate].
  destruct (drop_callee id (g_callees g)) as [cs|] eqn:D; [|discriminate].
  injection B as <-. pose proof (gi_heap _ _ G _ _ L') as [B1 B2 B3].
  eapply (ginv_update _ d _ l' g (Registration (g_id g) (g_proc g) (delete id (g_regs g)) (g_invoke g)
                                   (g_next g) cs (g_match g))); try done.
  - constructor; cbn [g_callees g_regs g_proc g_id g_match].
    + intros c Hc. apply B1. by eapply drop_callee_sub.
    + intros c x Hx. apply lookup_delete_Some in Hx as [_ Hx]. by eapply B2.
    + done.
  - intros p x. cbn [removed_d d_by_proc]. destruct (decide _); [|done]. by intros [_ ?]%lookup_delete_Some.
  - intros p x. cbn [removed_d d_wild]. destruct (decide _); [|done]. by intros [_ ?]%lookup_delete_Some.
  - intros sid m id' x. cbn [removed_d d_by_session]. eauto.
Qed.

Lemma ginv_step tr d o op d' out : ginv tr d -> dstep o d op = Ret d' out -> ginv ((op, out) :: tr) d'.
Proof.
  intros G. destruct op as [s|id|p|x|sid m]; cbn [dstep].
  - unfold d_add_session. destruct (d_sessions d !! se_id s); intros H; injection H as <- <-.
    { by apply ginv_mono. }
    apply ginv_mono. destruct G as [G1 G2 G3 G4 G5 G6]. constructor; try done.
    intros sid m id l. cbn [d_by_session dset_sessions dset_by_session].
    destruct (decide (se_id s = sid)) as [<-|n].
    + rewrite lookup_insert. intros H; injection H as <-. rewrite lookup_empty. discriminate.
    + rewrite lookup_insert_ne by done. exact (G6 _ _ _ _).
  - unfold d_remove_session. destruct (d_sessions d !! id).
    2:{ intros H; injection H as <- <-. by apply ginv_mono. }
    destruct (d_remove_loop id d _) as [d1 u|w] eqn:L; [|discriminate].
    intros H; injection H as <- <-. apply ginv_mono.
    apply (ginv_remove_loop _ _ _ _ _ _ G) in L as [G1 G2 G3 G4 G5 G6]. constructor; try done.
    intros sid m id' l. cbn [d_by_session dset_sessions dset_by_session].
    intros [_ ?]%lookup_delete_Some. by eapply G6.
  - unfold d_has_procedure. destruct (d_by_proc d !! p) as [l|].
    + destruct (d_heap d !! l); [|discriminate]. intros H; injection H as <- <-. by apply ginv_mono.
    + intros H; injection H as <- <-. by apply ginv_mono.
  - unfold d_auto_disclose. intros H; injection H as <- <-. apply ginv_mono.
    destruct G as [G1 G2 G3 G4 G5 G6]. by constructor.
  - destruct m; cbn [d_receive_message];
      try (intros H; injection H as <- <-; by apply ginv_mono).
    + intros H. destruct (error_cases _ _ _ _ H) as
        [(_ & -> & _)|[(_ & _ & -> & _)|(p & _ & _ & -> & _)]]; apply ginv_mono; try done.
      destruct G as [G1 G2 G3 G4 G5 G6]. by constructor.
    + intros H. destruct (call_cases _ _ _ _ _ _ H) as
        [(-> & _)|(l & g & callee & nx & i & who & F & L & E & P & A & _)]; apply ginv_mono; [done|].
      assert (Gn : ginv tr (with_next d l nx g)).
      { pose proof (gi_heap _ _ G _ _ L) as [B1 B2 B3].
        eapply (ginv_update _ _ _ l g (set_next nx g)); try done.
        intros sid0 m0 id x. cbn [with_next d_by_session dset_heap]. eauto. }
      destruct (allocate_cases _ _ _ _ _ _ A) as [(-> & _)|(-> & _)]; [done|].
      destruct Gn as [G1 G2 G3 G4 G5 G6]. by constructor.
    + intros H. destruct (register_cases _ _ _ _ _ H) as
        [(_ & -> & _)|(mine & M & [(l & g & P & L & _ & -> & _)|[(l & g & P & L & I1 & I2 & I3 & -> & ->)|(P & -> & ->)]])].
      * by apply ginv_mono.
      * by apply ginv_mono.
      * assert (g_proc g = rg_procedure m) as Eg.
        { destruct (gi_proc _ _ G _ _ P) as (g' & L' & <-). congruence. }
        assert (Hnew : once_registered
          ((DReceive sid (MRegister m), DMsg (MRegistered (Registered (rg_request m) (g_id g))) sid) :: tr)
          sid (g_proc g) (requested_policy (rg_options m)) (g_id g)).
        { eexists. split; [by left|]. cbn. done. }
        pose proof (ginv_mono (DReceive sid (MRegister m), DMsg (MRegistered (Registered (rg_request m) (g_id g))) sid) _ _ G) as G'.
        pose proof (gi_heap _ _ G' _ _ L) as [B1 B2 B3].
        eapply (ginv_update _ d _ l g (Registration (g_id g) (g_proc g) (<[sid := sid]> (g_regs g))
                 (g_invoke g) (g_next g) (g_callees g ++ [sid]) (g_match g))); try done.
        -- constructor; cbn [g_callees g_regs g_proc g_id g_match].
           ++ intros c Hc. apply elem_of_app in Hc as [Hc|Hc]; [by apply B1|].
              apply elem_of_list_singleton in Hc as ->. by eexists.
           ++ intros c x Hx. destruct (decide (sid = c)) as [<-|n]; [by eexists|].
              rewrite lookup_insert_ne in Hx by done. by eapply B2.
           ++ done.
        -- intros p x. cbn [join_d d_by_proc]. destruct (decide (rg_procedure m = p)) as [<-|n].
           ++ rewrite lookup_insert. congruence.
           ++ by rewrite lookup_insert_ne.
        -- intros sid0 m0 id x. cbn [join_d d_by_session]. destruct (decide (sid = sid0)) as [<-|n].
           ++ rewrite lookup_insert. intros HH; injection HH as <-.
              destruct (decide (g_id g = id)) as [<-|n'].
              ** rewrite lookup_insert. intros HH; injection HH as <-. by left.
              ** rewrite lookup_insert_ne by done. eauto.
           ++ rewrite lookup_insert_ne by done. eauto.
      * set (e := (DReceive sid (MRegister m),
           DMsg (MRegistered (Registered (rg_request m) (next_id (d_idgen d)))) sid)).
        pose proof (ginv_mono e _ _ G) as [G1 G2 G3 G4 G5 G6].
        set (gn := Registration (next_id (d_idgen d)) (rg_procedure m) {[sid := sid]} (invoke_policy m) 0
                     [sid] (pol_name (requested_policy (rg_options m)))).
        assert (Hnew : once_registered (e :: tr) sid (rg_procedure m)
                  (requested_policy (rg_options m)) (next_id (d_idgen d))).
        { exists e. split; [by left|]. cbn. done. }
        assert (Look : forall x gx, d_heap d !! x = Some gx ->
           (<[d_fresh d := gn]> (d_heap d)) !! x = Some gx).
        { intros x gx Hx. rewrite lookup_insert_ne; [done|]. intros <-. apply G2 in Hx. lia. }
        constructor; unfold create_d; cbn [d_heap d_fresh d_by_proc d_by_session d_prefix d_wild]; fold gn.
        -- intros l g. destruct (decide (d_fresh d = l)) as [<-|n].
           ++ rewrite lookup_insert. intros HH; injection HH as <-. constructor; cbn.
              ** intros c Hc. apply elem_of_list_singleton in Hc as ->. by eexists.
              ** intros c x Hx. apply lookup_singleton_Some in Hx as [<- _]. by eexists.
              ** by eexists _, _.
           ++ rewrite lookup_insert_ne by done. apply G1.
        -- intros l g. destruct (decide (d_fresh d = l)) as [<-|n]; [lia|].
           rewrite lookup_insert_ne by done. intros Hx. apply G2 in Hx. lia.
        -- intros p l. destruct (decide (rg_procedure m = p)) as [<-|n].
           ++ rewrite lookup_insert. intros HH; injection HH as <-. exists gn.
              by rewrite lookup_insert.
           ++ rewrite lookup_insert_ne by done. intros Hx. destruct (G3 _ _ Hx) as (g & Hg & E). eauto.
        -- intros p l Hx.
           assert (Old : d_prefix d !! p = Some l -> exists g, (<[d_fresh d := gn]> (d_heap d)) !! l = Some g
              /\ g_proc g = p /\ g_match g = pol_name PPrefix).
           { intros HH. destruct (G4 _ _ HH) as (g & Hg & E). eauto. }
           destruct (decide (requested_policy (rg_options m) = PPrefix)) as [Ep|]; [|by apply Old].
           destruct (decide (rg_procedure m = p)) as [<-|n].
           ++ rewrite lookup_insert in Hx. injection Hx as <-. exists gn. rewrite lookup_insert.
              split; [done|]. split; [done|]. cbn. by rewrite Ep.
           ++ rewrite lookup_insert_ne in Hx by done. by apply Old.
        -- intros p l Hx.
           assert (Old : d_wild d !! p = Some l -> exists g, (<[d_fresh d := gn]> (d_heap d)) !! l = Some g
              /\ g_proc g = p /\ g_match g = pol_name PWildcard).
           { intros HH. destruct (G5 _ _ HH) as (g & Hg & E). eauto. }
           destruct (decide (requested_policy (rg_options m) = PWildcard)) as [Ep|]; [|by apply Old].
           destruct (decide (rg_procedure m = p)) as [<-|n].
           ++ rewrite lookup_insert in Hx. injection Hx as <-. exists gn. rewrite lookup_insert.
              split; [done|]. split; [done|]. cbn. by rewrite Ep.
           ++ rewrite lookup_insert_ne in Hx by done. by apply Old.
        -- intros sid0 m0 id x. destruct (decide (sid = sid0)) as [<-|n].
           ++ rewrite lookup_insert. intros HH; injection HH as <-.
              destruct (decide (next_id (d_idgen d) = id)) as [<-|n'].
              ** rewrite lookup_insert. intros HH; injection HH as <-. exists gn. by rewrite lookup_insert.
              ** rewrite lookup_insert_ne by done. intros HH.
                 destruct (G6 _ _ _ _ M HH) as (g & Hg & E). eauto.
           ++ rewrite lookup_insert_ne by done. intros HH1 HH2.
              destruct (G6 _ _ _ _ HH1 HH2) as (g & Hg & E). eauto.
    + intros H. destruct (unregister_cases _ _ _ _ _ H) as [(_ & -> & _)|(mine & l & g & M & L1 & L2 & -> & _)];
        apply ginv_mono; [done|].
      pose proof (gi_heap _ _ G _ _ L2) as [B1 B2 B3].
      assert (Bk : backed tr (leave_g sid g)).
      { constructor; cbn [g_callees g_regs g_proc g_id g_match leave_g set_regs]; try done.
        intros c x Hx. apply lookup_delete_Some in Hx as [_ Hx]. by eapply B2. }
      unfold unreg_d. destruct (decide (delete sid (g_regs g) = ∅)).
      * eapply (ginv_update _ d _ l g (leave_g sid g)); try done.
        -- intros p x. cbn [d_by_proc]. by intros [_ ?]%lookup_delete_Some.
        -- intros p x. cbn [d_wild]. destruct (decide _); [|done]. by intros [_ ?]%lookup_delete_Some.
        -- intros sid0 m0 id x. cbn [d_by_session]. destruct (decide (sid = sid0)) as [<-|n].
           ++ rewrite lookup_insert. intros HH; injection HH as <-. intros [_ ?]%lookup_delete_Some. eauto.
           ++ rewrite lookup_insert_ne by done. eauto.
      * eapply (ginv_update _ d _ l g (leave_g sid g)); try done.
        intros sid0 m0 id x. cbn [d_by_session dset_heap]. eauto.
    + intros H. destruct (yield_cases _ _ _ _ H) as [(_ & -> & _)|(p & _ & -> & _)];
        apply ginv_mono; [done|]. destruct (_ && _); [done|].
      destruct G as [G1 G2 G3 G4 G5 G6]. by constructor.
Qed.

(** The object found for a CALL covers the procedure. *)
Lemma find_covers tr d o p l g : ginv tr d -> d_find o d p = Some l -> d_heap d !! l = Some g ->
  g_proc g = p \/ (g_match g = pol_name PPrefix /\ is_prefix (g_proc g) p)
  \/ (g_match g = pol_name PWildcard /\ wildcard_match p (g_proc g) = true).
Proof.
  intros G F L. unfold d_find in F. rewrite size_test in F.
  assert (Hex : forall x, d_by_proc d !! p = Some x -> x = l -> g_proc g = p).
  { intros x Hx ->. destruct (gi_proc _ _ G _ _ Hx) as (g' & Hg' & <-). congruence. }
  assert (Hrest : match longest_prefix (d_prefix d) p with
     | Some l => Some l
     | None => match d_by_proc d !! p with
               | Some l => Some l
               | None => snd <$> List.find (fun x => wildcard_match p (fst x))
                                    (shuf (o_first o) (map_to_list (d_wild d))) end end = Some l ->
     g_proc g = p \/ (g_match g = pol_name PPrefix /\ is_prefix (g_proc g) p)
     \/ (g_match g = pol_name PWildcard /\ wildcard_match p (g_proc g) = true)).
  { clear F. destruct (longest_prefix (d_prefix d) p) as [l1|] eqn:LP.
    - intros H; injection H as ->. apply longest_prefix_spec in LP as (k & Hk & Hl & _).
      destruct (gi_prefix _ _ G _ _ Hl) as (g' & Hg' & <- & Hm). assert (g' = g) as -> by congruence.
      right; left. done.
    - destruct (d_by_proc d !! p) as [l1|] eqn:E.
      + intros H; injection H as ->. left. by eapply Hex.
      + destruct (List.find _ _) as [[k l1]|] eqn:Ef; [|discriminate]. intros H. cbn in H. injection H as ->.
        apply List.find_some in Ef as [Hin Hm]. cbn in Hm.
        apply elem_of_list_In, elem_of_shuf, elem_of_map_to_list in Hin.
        destruct (gi_wild _ _ G _ _ Hin) as (g' & Hg' & <- & Hm'). assert (g' = g) as -> by congruence.
        right; right. done. }
  destruct (d_by_proc d !! p) as [l1|] eqn:E; [|by apply Hrest].
  destruct (d_heap d !! l1) as [g1|] eqn:L1; [|by apply Hrest].
  destruct (negb (bool_decide (g_regs g1 = ∅))); [|by apply Hrest].
  injection F as ->. left. by eapply Hex.
Qed.

Lemma run_ginv h d outs : drun new_dealer h = Ret d outs -> ginv (dtrace_of h outs) d.
Proof.
  revert d outs. induction h as [|[o op] h IH] using rev_ind; intros d outs H.
  { injection H as <- <-. apply ginv_init. }
  destruct (drun_snoc_inv _ _ _ _ _ _ H) as (d1 & o1 & out & H1 & H2 & ->).
  rewrite dtrace_snoc by (by eapply drun_length). eapply ginv_step; [by apply IH|done].
Qed.
