(** Every dealer call of a polite history is a call on the procedure table. *)
From Verif Require Import Prelude Value Msg IdGen Types PathMatch Dealer DealerSpec.
From Verif Require Import BaseSpec BaseFacts TypesFacts DealerFacts DealerCases.

(** A registration object shows a row. *)
Record shows (p : string) (g : registration) (r : prow) : Prop := Shows {
  sh_proc : g_proc g = p;
  sh_gid : g_id g = p_id r;
  sh_match : g_match g = pol_name (p_match r);
  sh_invoke : g_invoke g = p_invoke r;
  sh_next : g_next g = p_turn r;
  sh_callees : g_callees g = p_callees r;
  sh_regs : forall c, is_Some (g_regs g !! c) <-> c ∈ p_callees r }.

(** The object of row [p]. *)
Definition obj (d : dealer) (p : string) (l : N) (g : registration) (r : prow) : Prop :=
  d_by_proc d !! p = Some l /\ d_heap d !! l = Some g /\ shows p g r.

(** [bs] stands for d_by_session, which the removal loop leaves alone until
    its end. *)
Record dcore (d : dealer) (bs : gmap N (gmap N N)) (rows : gmap string prow) (dead : gset string)
  : Prop := DCore {
  dc_fresh : forall l g, d_heap d !! l = Some g -> l < d_fresh d;
  dc_row : forall p r, rows !! p = Some r -> exists l g, obj d p l g r;
  dc_proc : forall p l, d_by_proc d !! p = Some l -> is_Some (rows !! p);
  dc_wf : forall p r, rows !! p = Some r -> NoDup (p_callees r) /\ p_callees r <> [] /\ p_id r <= d_idgen d;
  dc_att : forall p r c, rows !! p = Some r -> c ∈ p_callees r -> is_Some (bs !! c);
  dc_ids : forall p p' r r', rows !! p = Some r -> rows !! p' = Some r' -> p_id r = p_id r' -> p = p';
  dc_mine : forall sid m id l, bs !! sid = Some m -> m !! id = Some l <->
      exists p r, d_by_proc d !! p = Some l /\ rows !! p = Some r /\ p_id r = id /\ sid ∈ p_callees r;
  dc_live : forall p r, rows !! p = Some r -> p_match r = PPrefix ->
      d_prefix d !! p = d_by_proc d !! p /\ p ∉ dead;
  dc_dead : forall p, p ∈ dead -> exists l g, d_prefix d !! p = Some l /\ d_heap d !! l = Some g
      /\ g_regs g = ∅ /\ forall q, d_by_proc d !! q <> Some l;
  dc_prefix : forall p l, d_prefix d !! p = Some l ->
      p ∈ dead \/ exists r, rows !! p = Some r /\ p_match r = PPrefix;
  dc_wild : forall p l, d_wild d !! p = Some l <->
      d_by_proc d !! p = Some l /\ exists r, rows !! p = Some r /\ p_match r = PWildcard /\ p_indexed r = true }.

Lemma shows_nonempty p g r : shows p g r -> p_callees r <> [] -> g_regs g <> ∅.
Proof.
  intros S Hne He. destruct (p_callees r) as [|c cs] eqn:E; [done|].
  destruct (proj2 (sh_regs _ _ _ S c)) as [x Hx]; [rewrite E; by left|].
  by rewrite He, lookup_empty in Hx.
Qed.
Lemma obj_loc d bs rows dead p q l g r : dcore d bs rows dead -> obj d p l g r ->
  d_by_proc d !! q = Some l -> q = p.
Proof.
  intros C (H1 & H2 & H3) Hq. destruct (dc_proc _ _ _ _ C _ _ Hq) as [r' Hr'].
  destruct (dc_row _ _ _ _ C _ _ Hr') as (l' & g' & Hq' & Hg' & S').
  assert (l' = l) as -> by congruence. assert (g' = g) as -> by congruence.
  rewrite <- (sh_proc _ _ _ H3), <- (sh_proc _ _ _ S'). done.
Qed.

(** [bs'] differs from [bs] in row [id] only. *)
Definition bs_but (bs bs' : gmap N (gmap N N)) (id l : N) (cs : list N) : Prop :=
  (forall sid, is_Some (bs' !! sid) <-> is_Some (bs !! sid)) /\
  (forall sid m m', bs !! sid = Some m -> bs' !! sid = Some m' ->
     (forall i, i <> id -> m' !! i = m !! i)
     /\ (m' !! id = if decide (sid ∈ cs) then Some l else None)).

Lemma core_update d bs rows dead d' bs' p l g r g' r' :
  dcore d bs rows dead -> obj d p l g r -> rows !! p = Some r ->
  d_heap d' = <[l := g']> (d_heap d) -> d_fresh d' = d_fresh d ->
  d_by_proc d' = d_by_proc d -> d_prefix d' = d_prefix d -> d_idgen d <= d_idgen d' ->
  shows p g' r' -> p_id r' = p_id r -> p_match r' = p_match r ->
  NoDup (p_callees r') -> p_callees r' <> [] -> (forall c, c ∈ p_callees r' -> is_Some (bs !! c)) ->
  (forall q, q <> p -> d_wild d' !! q = d_wild d !! q) ->
  (forall x, d_wild d' !! p = Some x <-> x = l /\ p_match r = PWildcard /\ p_indexed r' = true) ->
  bs_but bs bs' (p_id r) l (p_callees r') ->
  dcore d' bs' (<[p := r']> rows) dead.
Proof.
  intros C O R Hh Hf Hp Hx Hid S' E1 E2 Hnd Hne Hatt Hw1 Hw2 [Hb1 Hb2].
  pose proof O as (O1 & O2 & O3).
  assert (Heap : forall x gx, x <> l -> d_heap d !! x = Some gx -> d_heap d' !! x = Some gx).
  { intros x gx n Hx'. by rewrite Hh, lookup_insert_ne. }
  assert (Row : forall q rq, (<[p := r']> rows) !! q = Some rq ->
     (q = p /\ rq = r') \/ (q <> p /\ rows !! q = Some rq)).
  { intros q rq. destruct (decide (p = q)) as [<-|n].
    - rewrite lookup_insert. intros HH; injection HH as <-. by left.
    - rewrite lookup_insert_ne by done. right. done. }
  constructor.
  - intros x gx. rewrite Hh, Hf. destruct (decide (l = x)) as [<-|n].
    + intros _. by eapply dc_fresh.
    + rewrite lookup_insert_ne by done. by eapply dc_fresh.
  - intros q rq Hq. destruct (Row _ _ Hq) as [[-> ->]|[n Hq']].
    + exists l, g'. split; [by rewrite Hp|]. split; [by rewrite Hh, lookup_insert|done].
    + destruct (dc_row _ _ _ _ C _ _ Hq') as (lq & gq & Q1 & Q2 & Q3).
      exists lq, gq. split; [by rewrite Hp|]. split; [|done]. apply Heap; [|done].
      intros ->. apply n. by eapply obj_loc.
  - intros q x. rewrite Hp. intros Hq. destruct (decide (p = q)) as [<-|n].
    + rewrite lookup_insert. by eexists.
    + rewrite lookup_insert_ne by done. by eapply dc_proc.
  - intros q rq Hq. destruct (Row _ _ Hq) as [[-> ->]|[n Hq']].
    + split; [done|]. split; [done|]. rewrite E1. destruct (dc_wf _ _ _ _ C _ _ R) as (_ & _ & ?). lia.
    + destruct (dc_wf _ _ _ _ C _ _ Hq') as (? & ? & ?). split; [done|]. split; [done|lia].
  - intros q rq c Hq Hc. rewrite Hb1. destruct (Row _ _ Hq) as [[-> ->]|[n Hq']]; [by apply Hatt|].
    by eapply dc_att.
  - intros q q' rq rq' Hq Hq'. destruct (Row _ _ Hq) as [[-> ->]|[n Hq1]], (Row _ _ Hq') as [[-> ->]|[n' Hq1']]; try done.
    + rewrite E1. by eapply dc_ids.
    + rewrite E1. by eapply dc_ids.
    + by eapply dc_ids.
  - intros sid m' id x Hm'. destruct (proj1 (Hb1 sid)) as [m Hm]; [by eexists|].
    destruct (Hb2 _ _ _ Hm Hm') as [Ho Hi]. rewrite Hp.
    destruct (decide (id = p_id r)) as [->|n].
    + rewrite Hi. split.
      * destruct (decide (sid ∈ p_callees r')); [|done]. intros HH; injection HH as <-.
        exists p, r'. rewrite lookup_insert. done.
      * intros (q & rq & Q1 & Q2 & Q3 & Q4).
        destruct (Row _ _ Q2) as [[-> ->]|[nq Q2']].
        -- rewrite decide_True by done. congruence.
        -- exfalso. apply nq. by eapply dc_ids.
    + rewrite Ho by done. rewrite (dc_mine _ _ _ _ C _ _ _ _ Hm). split.
      * intros (q & rq & Q1 & Q2 & Q3 & Q4). exists q, rq.
        rewrite lookup_insert_ne; [done|]. intros <-. congruence.
      * intros (q & rq & Q1 & Q2 & Q3 & Q4). destruct (Row _ _ Q2) as [[-> ->]|[nq Q2']].
        -- congruence.
        -- by exists q, rq.
  - intros q rq Hq Hm. rewrite Hp, Hx. destruct (Row _ _ Hq) as [[-> ->]|[n Hq']].
    + eapply dc_live; [done..|congruence].
    + by eapply dc_live.
  - intros q Hq. destruct (dc_dead _ _ _ _ C _ Hq) as (lq & gq & Q1 & Q2 & Q3 & Q4).
    exists lq, gq. rewrite Hx, Hp. split; [done|]. split; [|done]. apply Heap; [|done].
    intros ->. by apply (Q4 p).
  - intros q x. rewrite Hx. intros Hq. destruct (dc_prefix _ _ _ _ C _ _ Hq) as [?|(rq & Q1 & Q2)]; [by left|].
    right. destruct (decide (p = q)) as [<-|n].
    + exists r'. rewrite lookup_insert. split; [done|congruence].
    + exists rq. by rewrite lookup_insert_ne.
  - intros q x. rewrite Hp. destruct (decide (p = q)) as [<-|n].
    + rewrite Hw2, lookup_insert. split.
      * intros (-> & ? & ?). split; [done|]. exists r'. split; [done|]. split; [congruence|done].
      * intros (? & rq & HH & ? & ?). injection HH as <-. split; [congruence|]. split; [congruence|done].
    + rewrite Hw1, lookup_insert_ne by done. apply C.
Qed.

Lemma core_delete d bs rows dead d' bs' p l g r g' dead' :
  dcore d bs rows dead -> obj d p l g r -> rows !! p = Some r ->
  d_heap d' = <[l := g']> (d_heap d) -> d_fresh d' = d_fresh d -> g_regs g' = ∅ ->
  d_by_proc d' = delete p (d_by_proc d) -> d_prefix d' = d_prefix d -> d_idgen d' = d_idgen d ->
  (forall q, q <> p -> d_wild d' !! q = d_wild d !! q) -> d_wild d' !! p = None ->
  (forall q, q ∈ dead' <-> q ∈ dead \/ (q = p /\ p_match r = PPrefix)) ->
  bs_but bs bs' (p_id r) l [] ->
  dcore d' bs' (delete p rows) dead'.
Proof.
  intros C O R Hh Hf Hg Hp Hx Hid Hw1 Hw2 Hd [Hb1 Hb2].
  pose proof O as (O1 & O2 & O3).
  assert (Heap : forall x gx, x <> l -> d_heap d !! x = Some gx -> d_heap d' !! x = Some gx).
  { intros x gx n Hx'. by rewrite Hh, lookup_insert_ne. }
  constructor.
  - intros x gx. rewrite Hh, Hf. destruct (decide (l = x)) as [<-|n].
    + intros _. by eapply dc_fresh.
    + rewrite lookup_insert_ne by done. by eapply dc_fresh.
  - intros q rq [n Hq]%lookup_delete_Some.
    destruct (dc_row _ _ _ _ C _ _ Hq) as (lq & gq & Q1 & Q2 & Q3).
    exists lq, gq. split; [by rewrite Hp, lookup_delete_ne|]. split; [|done]. apply Heap; [|done].
    intros ->. apply n. symmetry. by eapply obj_loc.
  - intros q x. rewrite Hp. intros [n Hq]%lookup_delete_Some. rewrite lookup_delete_ne by done.
    by eapply dc_proc.
  - intros q rq [n Hq]%lookup_delete_Some. rewrite Hid. by apply (dc_wf _ _ _ _ C _ _ Hq).
  - intros q rq c [n Hq]%lookup_delete_Some Hc. rewrite Hb1. by eapply dc_att.
  - intros q q' rq rq' [n Hq]%lookup_delete_Some [n' Hq']%lookup_delete_Some. by eapply dc_ids.
  - intros sid m' id x Hm'. destruct (proj1 (Hb1 sid)) as [m Hm]; [by eexists|].
    destruct (Hb2 _ _ _ Hm Hm') as [Ho Hi]. rewrite Hp.
    destruct (decide (id = p_id r)) as [->|n].
    + rewrite Hi. rewrite decide_False by (by intros ?%elem_of_nil). split; [done|].
      intros (q & rq & [n Q1]%lookup_delete_Some & [_ Q2]%lookup_delete_Some & Q3 & Q4).
      exfalso. apply n. symmetry. by eapply dc_ids.
    + rewrite Ho by done. rewrite (dc_mine _ _ _ _ C _ _ _ _ Hm). split.
      * intros (q & rq & Q1 & Q2 & Q3 & Q4). exists q, rq.
        rewrite !lookup_delete_ne; [done|intros <-; congruence..].
      * intros (q & rq & [_ Q1]%lookup_delete_Some & [_ Q2]%lookup_delete_Some & Q3 & Q4).
        by exists q, rq.
  - intros q rq [n Hq]%lookup_delete_Some Hm. rewrite Hp, Hx, lookup_delete_ne by done.
    destruct (dc_live _ _ _ _ C _ _ Hq Hm) as [L1 L2]. split; [done|]. rewrite Hd.
    intros [?|[-> _]]; done.
  - intros q Hq. rewrite Hx, Hp. apply Hd in Hq as [Hq|[-> Hm]].
    + destruct (dc_dead _ _ _ _ C _ Hq) as (lq & gq & Q1 & Q2 & Q3 & Q4).
      exists lq, gq. split; [done|]. split; [|split; [done|]].
      * apply Heap; [|done]. intros ->. by apply (Q4 p).
      * intros q' [_ Hq']%lookup_delete_Some. by apply (Q4 q').
    + exists l, g'. destruct (dc_live _ _ _ _ C _ _ R Hm) as [-> _]. split; [done|].
      split; [by rewrite Hh, lookup_insert|]. split; [done|].
      intros q' [n Hq']%lookup_delete_Some. apply n. symmetry. by eapply obj_loc.
  - intros q x. rewrite Hx. intros Hq. rewrite Hd.
    destruct (dc_prefix _ _ _ _ C _ _ Hq) as [?|(rq & Q1 & Q2)]; [by left; left|].
    destruct (decide (p = q)) as [<-|n].
    + left; right. split; [done|congruence].
    + right. exists rq. by rewrite lookup_delete_ne.
  - intros q x. rewrite Hp. destruct (decide (p = q)) as [<-|n].
    + rewrite Hw2, lookup_delete. split; [done|intros [? _]; done].
    + rewrite Hw1, !lookup_delete_ne by done. apply C.
Qed.

Lemma core_create d bs rows dead sid mine p inv pol dead' :
  dcore d bs rows dead -> bs !! sid = Some mine -> rows !! p = None -> d_idgen d < two53 ->
  (forall q, q ∈ dead' <-> q ∈ dead /\ ~ (q = p /\ pol = PPrefix)) ->
  dcore (create_d d sid mine p inv pol) (<[sid := <[d_idgen d + 1 := d_fresh d]> mine]> bs)
    (<[p := PRow (d_idgen d + 1) pol inv [sid] 0 true]> rows) dead'.
Proof.
  intros C Hm R Hb Hd. unfold create_d. rewrite (next_id_small _ Hb).
  assert (Np : d_by_proc d !! p = None).
  { destruct (d_by_proc d !! p) as [l|] eqn:E; [|done]. destruct (dc_proc _ _ _ _ C _ _ E). congruence. }
  assert (Nl : d_heap d !! d_fresh d = None).
  { destruct (d_heap d !! d_fresh d) as [g|] eqn:E; [|done]. apply (dc_fresh _ _ _ _ C) in E. lia. }
  assert (Nq : forall q, d_by_proc d !! q <> Some (d_fresh d)).
  { intros q Hq. destruct (dc_proc _ _ _ _ C _ _ Hq) as [rq Hrq].
    destruct (dc_row _ _ _ _ C _ _ Hrq) as (lq & gq & Q1 & Q2 & _). congruence. }
  set (rn := PRow (d_idgen d + 1) pol inv [sid] 0 true).
  set (gn := Registration (d_idgen d + 1) p {[sid := sid]} inv 0 [sid] (pol_name pol)).
  assert (Row : forall q rq, (<[p := rn]> rows) !! q = Some rq ->
     (q = p /\ rq = rn) \/ (q <> p /\ rows !! q = Some rq)).
  { intros q rq. destruct (decide (p = q)) as [<-|n].
    - rewrite lookup_insert. intros HH; injection HH as <-. by left.
    - rewrite lookup_insert_ne by done. right. done. }
  assert (Heap : forall x gx, d_heap d !! x = Some gx -> (<[d_fresh d := gn]> (d_heap d)) !! x = Some gx).
  { intros x gx Hx. rewrite lookup_insert_ne; [done|]. congruence. }
  constructor; cbn [d_heap d_fresh d_by_proc d_by_session d_prefix d_wild d_idgen].
  - intros l g. destruct (decide (d_fresh d = l)) as [<-|n]; [lia|].
    rewrite lookup_insert_ne by done. intros Hx. apply (dc_fresh _ _ _ _ C) in Hx. lia.
  - intros q rq Hq. destruct (Row _ _ Hq) as [[-> ->]|[n Hq']].
    + exists (d_fresh d), gn. split; [|split]; cbn [d_by_proc d_heap]; [by rewrite lookup_insert..|].
      constructor; try done. intros c. cbn. rewrite elem_of_list_singleton. split.
      * intros [x Hx]. by apply lookup_singleton_Some in Hx as [-> _].
      * intros ->. rewrite lookup_singleton. by eexists.
    + destruct (dc_row _ _ _ _ C _ _ Hq') as (lq & gq & Q1 & Q2 & Q3).
      exists lq, gq. split; cbn [d_by_proc d_heap]; [by rewrite lookup_insert_ne|]. split; [by apply Heap|done].
  - intros q x Hq. destruct (decide (p = q)) as [<-|n].
    + rewrite lookup_insert. by eexists.
    + rewrite lookup_insert_ne in Hq by done. rewrite lookup_insert_ne by done. by eapply dc_proc.
  - intros q rq Hq. destruct (Row _ _ Hq) as [[-> ->]|[n Hq']].
    + cbn. split; [apply NoDup_singleton|]. split; [done|lia].
    + destruct (dc_wf _ _ _ _ C _ _ Hq') as (? & ? & ?). split; [done|]. split; [done|lia].
  - intros q rq c Hq Hc. destruct (decide (sid = c)) as [<-|nc].
    { rewrite lookup_insert. by eexists. }
    rewrite lookup_insert_ne by done. destruct (Row _ _ Hq) as [[-> ->]|[n Hq']].
    + cbn in Hc. apply elem_of_list_singleton in Hc. congruence.
    + by eapply dc_att.
  - intros q q' rq rq' Hq Hq' He.
    destruct (Row _ _ Hq) as [[-> ->]|[n Hq1]], (Row _ _ Hq') as [[-> ->]|[n' Hq1']]; try done.
    + destruct (dc_wf _ _ _ _ C _ _ Hq1') as (_ & _ & ?). cbn in He. lia.
    + destruct (dc_wf _ _ _ _ C _ _ Hq1) as (_ & _ & ?). cbn in He. lia.
    + by eapply dc_ids.
  - intros s0 m' id x Hm'.
    assert (Old : forall m0, bs !! s0 = Some m0 -> m0 !! id = Some x ->
       exists q rq, (<[p := d_fresh d]> (d_by_proc d)) !! q = Some x
         /\ (<[p := rn]> rows) !! q = Some rq /\ p_id rq = id /\ s0 ∈ p_callees rq).
    { intros m0 H1 H2. apply (dc_mine _ _ _ _ C _ _ _ _ H1) in H2 as (q & rq & Q1 & Q2 & Q3).
      exists q, rq. rewrite !lookup_insert_ne by congruence. done. }
    assert (New : forall m0 q rq, bs !! s0 = Some m0 ->
        (<[p := d_fresh d]> (d_by_proc d)) !! q = Some x -> (<[p := rn]> rows) !! q = Some rq ->
        p_id rq = id -> s0 ∈ p_callees rq ->
        (s0 = sid /\ id = d_idgen d + 1 /\ x = d_fresh d) \/ (id <> d_idgen d + 1 /\ m0 !! id = Some x)).
    { intros m0 q rq H1 Q1 Q2 Q3 Q4. destruct (Row _ _ Q2) as [[-> ->]|[n Q2']].
      - left. cbn in Q3, Q4. apply elem_of_list_singleton in Q4.
        rewrite lookup_insert in Q1. injection Q1 as <-. done.
      - right. rewrite lookup_insert_ne in Q1 by done. split.
        + destruct (dc_wf _ _ _ _ C _ _ Q2') as (_ & _ & ?). lia.
        + apply (dc_mine _ _ _ _ C _ _ _ _ H1). by exists q, rq. }
    destruct (decide (sid = s0)) as [<-|n].
    + rewrite lookup_insert in Hm'. injection Hm' as <-.
      destruct (decide (id = d_idgen d + 1)) as [->|ni].
      * rewrite lookup_insert. split.
        -- intros HH; injection HH as <-. exists p, rn. rewrite !lookup_insert. repeat split. cbn. by left.
        -- intros (q & rq & Q1 & Q2 & Q3 & Q4).
           destruct (New _ _ _ Hm Q1 Q2 Q3 Q4) as [(_ & _ & ->)|[? _]]; done.
      * rewrite lookup_insert_ne by done. split; [by apply Old|].
        intros (q & rq & Q1 & Q2 & Q3 & Q4).
        destruct (New _ _ _ Hm Q1 Q2 Q3 Q4) as [(_ & ? & _)|[_ ?]]; done.
    + rewrite lookup_insert_ne in Hm' by done. split; [by apply Old|].
      intros (q & rq & Q1 & Q2 & Q3 & Q4).
      destruct (New _ _ _ Hm' Q1 Q2 Q3 Q4) as [(? & _ & _)|[_ ?]]; [congruence|done].
  - intros q rq Hq Hmt. destruct (Row _ _ Hq) as [[-> ->]|[n Hq']].
    + cbn in Hmt. rewrite decide_True by done. rewrite !lookup_insert. split; [done|].
      rewrite Hd. intros [_ HH]. by apply HH.
    + destruct (dc_live _ _ _ _ C _ _ Hq' Hmt) as [L1 L2]. split.
      * destruct (decide (pol = PPrefix)); rewrite ?lookup_insert_ne by done; done.
      * rewrite Hd. intros [? _]. done.
  - intros q [Hq HH]%Hd. destruct (dc_dead _ _ _ _ C _ Hq) as (lq & gq & Q1 & Q2 & Q3 & Q4).
    exists lq, gq. split; [|split; [by apply Heap|split; [done|]]].
    + destruct (decide (pol = PPrefix)) as [->|]; [|done].
      rewrite lookup_insert_ne; [done|]. intros <-. by apply HH.
    + intros q'. destruct (decide (p = q')) as [<-|n].
      * rewrite lookup_insert. intros HH'; injection HH' as <-. congruence.
      * rewrite lookup_insert_ne by done. apply Q4.
  - intros q x Hx.
    assert (Old : d_prefix d !! q = Some x -> ~ (q = p /\ pol = PPrefix) -> q ∈ dead' \/
        (exists r, (<[p := rn]> rows) !! q = Some r /\ p_match r = PPrefix)).
    { intros H1 H2. destruct (dc_prefix _ _ _ _ C _ _ H1) as [?|(r & Q1 & Q2)].
      - left. by apply Hd.
      - right. exists r. by rewrite lookup_insert_ne by congruence. }
    destruct (decide (pol = PPrefix)) as [->|np].
    + destruct (decide (p = q)) as [<-|n].
      * right. exists rn. by rewrite lookup_insert.
      * rewrite lookup_insert_ne in Hx by done. apply Old; [done|]. intros [? _]. congruence.
    + apply Old; [done|]. by intros [_ ?].
  - intros q x. destruct (decide (p = q)) as [<-|n].
    + rewrite !lookup_insert.
      assert (Nw : d_wild d !! p = None).
      { destruct (d_wild d !! p) as [y|] eqn:E; [|done]. apply (dc_wild _ _ _ _ C) in E as [? _]. congruence. }
      destruct (decide (pol = PWildcard)) as [->|np].
      * rewrite lookup_insert. split.
        -- intros HH. split; [done|]. by exists rn.
        -- by intros [? _].
      * rewrite Nw. split; [done|]. intros [_ (r & HH & Hr & _)]. injection HH as <-. done.
    + rewrite !(lookup_insert_ne _ p q) by done.
      transitivity (d_wild d !! q = Some x); [|apply C].
      destruct (decide (pol = PWildcard)); [|done]. by rewrite lookup_insert_ne.
Qed.

(** * The removal loop *)

Lemma filter_out (sid c : N) (l : list N) : c ∈ filter (fun x => x <> sid) l <-> c <> sid /\ c ∈ l.
Proof. by rewrite elem_of_list_filter. Qed.

Lemma row_leave_absent sid r : sid ∉ p_callees r -> row_leave sid r = Some r.
Proof. intros H. unfold row_leave. by rewrite decide_False. Qed.
Lemma row_leave_cases sid r : sid ∈ p_callees r -> NoDup (p_callees r) ->
  (row_leave sid r = None /\ forall c, c ∈ p_callees r <-> c = sid)
  \/ exists cs, cs = filter (fun x => x <> sid) (p_callees r) /\ cs <> [] /\
       row_leave sid r = Some (PRow (p_id r) (p_match r) (p_invoke r) cs (p_turn r) false).
Proof.
  intros H Hnd. unfold row_leave. rewrite decide_True by done. cbn zeta.
  destruct (decide (filter _ _ = [])) as [E|E]; [left|right; eauto].
  split; [done|]. intros c. split; [|by intros ->]. intros Hc.
  destruct (decide (c = sid)) as [|n]; [done|].
  assert (HH : c ∈ filter (fun x => x <> sid) (p_callees r)) by (by apply filter_out).
  rewrite E in HH. by apply elem_of_nil in HH.
Qed.

Lemma delete_regs sid g r p : shows p g r ->
  forall c, is_Some (delete sid (g_regs g) !! c) <-> c <> sid /\ c ∈ p_callees r.
Proof.
  intros S c. rewrite <- (sh_regs _ _ _ S c). split.
  - intros [x Hx]. apply lookup_delete_Some in Hx as [? ?]. split; [done|by eexists].
  - intros [n [x Hx]]. exists x. by rewrite lookup_delete_ne.
Qed.

(** What is left alone. *)
Definition keeps (d d' : dealer) : Prop :=
  d_sessions d' = d_sessions d /\ d_by_session d' = d_by_session d /\ d_idgen d' = d_idgen d.

Lemma body_step d bs rows dead sid m id l : dcore d bs rows dead -> bs !! sid = Some m -> m !! id = Some l ->
  exists d' p r, d_remove_body sid d l = Ret d' () /\ rows !! p = Some r /\ sid ∈ p_callees r /\ keeps d d' /\
    dcore d' (<[sid := delete id m]> bs) (partial_alter (fun _ => row_leave sid r) p rows)
      (if decide (row_leave sid r = None /\ p_match r = PPrefix) then {[p]} ∪ dead else dead).
Proof.
  intros C Hm Hid. destruct (proj1 (dc_mine _ _ _ _ C _ _ _ _ Hm) Hid) as (p & r & P & R & E & Hin).
  destruct (dc_row _ _ _ _ C _ _ R) as (l' & g & O). pose proof O as (O1 & O2 & S).
  assert (l' = l) as -> by congruence.
  destruct (dc_wf _ _ _ _ C _ _ R) as (Hnd & Hne & _).
  rewrite (remove_body_eq _ _ _ _ O2). rewrite (sh_proc _ _ _ S), P, O2.
  rewrite (sh_callees _ _ _ S), (drop_callee_nodup _ _ Hnd).
  eexists _, p, r. split; [done|]. split; [done|]. split; [done|]. split; [done|].
  assert (Wm : g_match g = m_wildcard <-> p_match r = PWildcard).
  { rewrite (sh_match _ _ _ S). by destruct (p_match r). }
  assert (BS : forall cs, (forall c, c ∈ cs <-> c <> sid /\ c ∈ p_callees r) ->
     bs_but bs (<[sid := delete id m]> bs) (p_id r) l cs).
  { intros cs Hcs. split.
    - intros x. destruct (decide (sid = x)) as [<-|n].
      + rewrite lookup_insert, Hm. split; by eexists.
      + by rewrite lookup_insert_ne.
    - intros x m0 m1 H0 H1. destruct (decide (sid = x)) as [<-|n].
      + rewrite lookup_insert in H1. injection H1 as <-. assert (m0 = m) as -> by congruence. split.
        * intros i Hi. rewrite lookup_delete_ne; [done|congruence].
        * rewrite E, lookup_delete. rewrite decide_False; [done|]. rewrite Hcs. by intros [? _].
      + rewrite lookup_insert_ne in H1 by done. assert (m1 = m0) as -> by congruence. split; [done|].
        destruct (decide (x ∈ cs)) as [Hx|Hx].
        * apply (dc_mine _ _ _ _ C _ _ _ _ H0). exists p, r. apply Hcs in Hx as [_ ?]. done.
        * destruct (m0 !! p_id r) as [y|] eqn:Ey; [|done]. exfalso.
          apply (dc_mine _ _ _ _ C _ _ _ _ H0) in Ey as (q & rq & Q1 & Q2 & Q3 & Q4).
          assert (q = p) as -> by (by eapply dc_ids). assert (rq = r) as -> by congruence.
          apply Hx, Hcs. split; [congruence|done]. }
  destruct (row_leave_cases sid r Hin Hnd) as [[RL Hall]|(cs & Ecs & Hcs & RL)].
  - assert (Rg : delete sid (g_regs g) = ∅).
    { apply map_empty. intros c. apply eq_None_not_Some. rewrite (delete_regs _ _ _ _ S).
      intros [n Hc]. by apply n, Hall. }
    rewrite RL. replace (partial_alter (fun _ : option prow => None) p rows) with (delete p rows) by done.
    eapply (core_delete _ _ _ _ _ _ p l g r); try done.
    + unfold removed_d. cbn [d_by_proc]. rewrite decide_True by done. by rewrite (sh_proc _ _ _ S).
    + intros q Hq. unfold removed_d. cbn [d_wild]. destruct (decide (g_match g = m_wildcard)); [|done].
      by rewrite (sh_proc _ _ _ S), lookup_delete_ne.
    + unfold removed_d. cbn [d_wild]. destruct (decide (g_match g = m_wildcard)) as [|n].
      * rewrite (sh_proc _ _ _ S). apply lookup_delete.
      * destruct (d_wild d !! p) as [y|] eqn:Ey; [|done].
        apply (dc_wild _ _ _ _ C) in Ey as (_ & r' & R' & HH & _). exfalso. apply n, Wm. congruence.
    + intros q. destruct (decide (@None prow = None /\ p_match r = PPrefix)) as [[_ Hp]|HH].
      * rewrite elem_of_union, elem_of_singleton. naive_solver.
      * split; [by left|]. intros [?|[_ ?]]; [done|]. exfalso. by apply HH.
    + apply BS. intros c. split; [by intros ?%elem_of_nil|]. intros [n Hc]. exfalso. by apply n, Hall.
  - rewrite RL. rewrite decide_False by (by intros [? _]).
    assert (Rg : delete sid (g_regs g) <> ∅).
    { intros HH. destruct cs as [|c cs]; [done|]. assert (Hc : c ∈ filter (fun x => x <> sid) (p_callees r)).
      { rewrite <- Ecs. by left. }
      apply filter_out in Hc. apply (delete_regs _ _ _ _ S) in Hc as [x Hx].
      by rewrite HH, lookup_empty in Hx. }
    rewrite <- Ecs.
    replace (partial_alter _ p rows) with (<[p := PRow (p_id r) (p_match r) (p_invoke r) cs (p_turn r) false]> rows) by done.
    assert (Hcs' : forall c, c ∈ cs <-> c <> sid /\ c ∈ p_callees r) by (intros c; rewrite Ecs; apply filter_out).
    eapply (core_update d bs rows dead _ _ p l g r); try done.
    + unfold removed_d. cbn [d_by_proc]. by rewrite decide_False.
    + constructor; cbn [g_proc g_id g_match g_invoke g_next g_callees g_regs p_id p_match p_invoke p_callees p_turn];
        try apply S; try done. intros c. rewrite Hcs'. by apply delete_regs with p.
    + cbn. rewrite Ecs. by apply NoDup_filter.
    + cbn. intros c Hc. apply Hcs' in Hc as [_ Hc]. by eapply dc_att.
    + intros q Hq. unfold removed_d. cbn [d_wild]. destruct (decide (g_match g = m_wildcard)); [|done].
      by rewrite (sh_proc _ _ _ S), lookup_delete_ne.
    + intros x. cbn [p_indexed]. split; [|by intros (_ & _ & ?)].
      unfold removed_d. cbn [d_wild]. destruct (decide (g_match g = m_wildcard)) as [|n].
      * by rewrite (sh_proc _ _ _ S), lookup_delete.
      * intros Ey. apply (dc_wild _ _ _ _ C) in Ey as (_ & r' & R' & HH & _). exfalso. apply n, Wm. congruence.
    + by apply BS.
Qed.

Lemma row_leave_gone sid r r' : NoDup (p_callees r) -> row_leave sid r = Some r' -> sid ∉ p_callees r'.
Proof.
  unfold row_leave. destruct (decide (sid ∈ p_callees r)) as [H|H].
  - cbn zeta. destruct (decide (filter _ _ = [])); [discriminate|]. intros _ HH; injection HH as <-. cbn.
    rewrite filter_out. by intros [? _].
  - intros _ HH; injection HH as <-. done.
Qed.

Lemma loop_steps sid : forall L d bs rows dead m, dcore d bs rows dead -> bs !! sid = Some m ->
  L ≡ₚ map_to_list m ->
  exists d' dead', d_remove_loop sid d (map snd L) = Ret d' () /\ keeps d d' /\
    dcore d' (<[sid := ∅]> bs) (omap (row_leave sid) rows) dead' /\
    forall p, p ∈ dead' <-> p ∈ dead
       \/ exists r, rows !! p = Some r /\ p_match r = PPrefix /\ row_leave sid r = None.
Proof.
  induction L as [|[id l] L IH]; intros d bs rows dead m C Hm HL.
  - apply Permutation_nil_l in HL. symmetry in HL. apply map_to_list_empty_iff in HL as ->.
    assert (Hno : forall p r, rows !! p = Some r -> sid ∉ p_callees r).
    { intros p r R Hin. destruct (dc_row _ _ _ _ C _ _ R) as (l & g & P & _).
      assert (HH : (∅ : gmap N N) !! p_id r = Some l) by (apply (dc_mine _ _ _ _ C _ _ _ _ Hm); by exists p, r).
      by rewrite lookup_empty in HH. }
    exists d, dead. split; [done|]. split; [done|]. split.
    + rewrite insert_id by done. replace (omap (row_leave sid) rows) with rows; [done|].
      apply map_eq. intros p. rewrite lookup_omap. destruct (rows !! p) as [r|] eqn:R; [|done]. cbn.
      rewrite row_leave_absent; [done|by eapply Hno].
    + intros p. split; [by left|]. intros [?|(r & R & _ & RL)]; [done|].
      rewrite row_leave_absent in RL by (by eapply Hno). done.
  - assert (Hnd : NoDup ((id, l) :: L).*1).
    { rewrite HL. apply NoDup_fst_map_to_list. }
    assert (Hid : m !! id = Some l).
    { apply elem_of_map_to_list. rewrite <- HL. by left. }
    assert (HL' : L ≡ₚ map_to_list (delete id m)).
    { assert (HH : (id, l) :: L ≡ₚ (id, l) :: map_to_list (delete id m)).
      { rewrite HL. rewrite <- map_to_list_insert by apply lookup_delete.
        by rewrite insert_delete. }
      by apply Permutation_cons_inv in HH. }
    destruct (body_step _ _ _ _ _ _ _ _ C Hm Hid) as (d1 & p & r & B & R & Hin & K1 & C1).
    destruct (IH _ _ _ _ (delete id m) C1 ltac:(by rewrite lookup_insert) HL')
      as (d' & dead' & HB & K2 & C2 & Hd).
    destruct (dc_wf _ _ _ _ C _ _ R) as (Hndr & _ & _).
    cbn [map snd d_remove_loop]. rewrite B. exists d', dead'. split; [done|]. split.
    { destruct K1 as (? & ? & ?), K2 as (? & ? & ?). split; [congruence|]. split; congruence. }
    rewrite insert_insert in C2. split.
    + replace (omap (row_leave sid) rows)
        with (omap (row_leave sid) (partial_alter (fun _ => row_leave sid r) p rows)); [done|].
      apply map_eq. intros q. rewrite !lookup_omap. destruct (decide (p = q)) as [<-|n].
      * rewrite lookup_partial_alter, R. cbn. destruct (row_leave sid r) as [r'|] eqn:RL; [|done]. cbn.
        by rewrite row_leave_absent by (by eapply row_leave_gone).
      * by rewrite lookup_partial_alter_ne.
    + intros q. rewrite Hd. destruct (decide (p = q)) as [<-|n].
      * rewrite lookup_partial_alter.
        destruct (decide (row_leave sid r = None /\ p_match r = PPrefix)) as [[H1 H2]|HH].
        -- rewrite elem_of_union, elem_of_singleton. split; [|by eauto]. intros _. right. by exists r.
        -- split.
           ++ intros [?|(r' & R' & H1 & H2)]; [by left|]. exfalso.
              rewrite row_leave_absent in H2 by (by eapply row_leave_gone). done.
           ++ intros [?|(r' & R' & H1 & H2)]; [by left|]. exfalso.
              assert (r' = r) as -> by congruence. by apply HH.
      * rewrite lookup_partial_alter_ne by done.
        destruct (decide (row_leave sid r = None /\ p_match r = PPrefix)) as [_|_]; [|done].
        rewrite elem_of_union, elem_of_singleton. naive_solver.
Qed.

(** * The search *)

Lemma find_routes o d bs rows dead ss p : dcore d bs rows dead ->
  let s := PTable rows dead ss in
  (exists q l g r, d_find o d p = Some l /\ obj d q l g r /\ rows !! q = Some r /\ routes s p q r)
  \/ ((d_find o d p = None \/ exists l g, d_find o d p = Some l /\ d_heap d !! l = Some g /\ g_regs g = ∅)
      /\ forall q r, ~ routes s p q r).
Proof.
  intros C s.
  assert (KP : forall q, prefix_known s q <-> is_Some (d_prefix d !! q)).
  { intros q. unfold prefix_known. cbn. split.
    - intros [H|(r & R & M)].
      + destruct (dc_dead _ _ _ _ C _ H) as (l & g & ? & _). by eexists.
      + destruct (dc_live _ _ _ _ C _ _ R M) as [-> _].
        destruct (dc_row _ _ _ _ C _ _ R) as (l & g & ? & _). by eexists.
    - intros [l H]. by apply (dc_prefix _ _ _ _ C) in H. }
  unfold d_find. rewrite size_test.
  destruct (rows !! p) as [r|] eqn:R.
  - destruct (dc_row _ _ _ _ C _ _ R) as (l & g & O). pose proof O as (O1 & O2 & S).
    left. exists p, l, g, r. rewrite O1, O2.
    rewrite bool_decide_false; [|by eapply shows_nonempty; [done|apply (dc_wf _ _ _ _ C _ _ R)]].
    cbn [negb]. split; [done|]. split; [done|]. split; [done|]. by constructor.
  - assert (Np : d_by_proc d !! p = None).
    { destruct (d_by_proc d !! p) as [l|] eqn:E; [|done]. destruct (dc_proc _ _ _ _ C _ _ E). congruence. }
    rewrite Np. destruct (longest_prefix (d_prefix d) p) as [l|] eqn:LP.
    + apply longest_prefix_spec in LP as (k & Hk & Hl & Hmax).
      assert (Hlong : longest_known s p k).
      { split; [apply KP; by eexists|]. split; [done|]. intros q [l' Hq]%KP Hp. by eapply Hmax. }
      destruct (decide (k ∈ dead)) as [Hd|Hd].
      * right. destruct (dc_dead _ _ _ _ C _ Hd) as (l' & g & H1 & H2 & H3 & _).
        assert (l' = l) as -> by congruence. split; [right; by exists l, g|].
        intros q r Hr. destruct Hr as [r Hr|q r _ (H4 & H5 & H6) H7 H8|q r _ H4 _ _ _ _].
        -- cbn in Hr. congruence.
        -- assert (q = k) as ->; [|by apply H7].
           apply (sprefix_same _ _ p); [done|done|].
           apply Nat.le_antisymm.
           ++ apply Hlong; done.
           ++ apply H6; [apply Hlong|done].
        -- apply (H4 k); [apply Hlong|done].
      * left. destruct (dc_prefix _ _ _ _ C _ _ Hl) as [?|(r & Rk & M)]; [done|].
        destruct (dc_live _ _ _ _ C _ _ Rk M) as [E _].
        destruct (dc_row _ _ _ _ C _ _ Rk) as (l' & g & O). pose proof O as (O1 & _).
        assert (l' = l) as -> by congruence.
        exists k, l, g, r. split; [done|]. split; [done|]. split; [done|]. by eapply routes_prefix.
    + assert (Hno : forall q, prefix_known s q -> ~ is_prefix q p).
      { intros q [l Hq]%KP Hp. by eapply (proj1 (longest_prefix_none _ _) LP). }
      destruct (List.find _ _) as [[k l]|] eqn:F; cbn [snd fmap option_fmap option_map].
      * apply List.find_some in F as [Fi Fm]. cbn in Fm.
        apply elem_of_list_In, elem_of_shuf, elem_of_map_to_list in Fi.
        apply (dc_wild _ _ _ _ C) in Fi as (P & r & Rk & M & I).
        destruct (dc_row _ _ _ _ C _ _ Rk) as (l' & g & O). pose proof O as (O1 & _).
        assert (l' = l) as -> by congruence.
        left. exists k, l, g, r. split; [done|]. split; [done|]. split; [done|]. by eapply routes_wildcard.
      * right. split; [by left|]. intros q r Hr.
        destruct Hr as [r Hr|q r _ (H4 & H5 & H6) _ _|q r _ _ H4 H5 H6 H7].
        -- cbn in Hr. congruence.
        -- by eapply Hno.
        -- destruct (dc_row _ _ _ _ C _ _ H4) as (l & g & O1 & _).
           assert (Hw : d_wild d !! q = Some l) by (apply (dc_wild _ _ _ _ C); eauto).
           assert (Hin : (q, l) ∈ shuf (o_first o) (map_to_list (d_wild d))).
           { apply elem_of_shuf. by apply elem_of_map_to_list. }
           apply elem_of_list_In in Hin. eapply List.find_none in F; [|done]. cbn in F. congruence.
Qed.

(** * The choice *)

Lemma pick_picks o p g r : shows p g r -> p_callees r <> [] ->
  exists c nx, d_pick o g = Some (c, nx) /\ picks r c nx.
Proof.
  intros Sh Hne. unfold d_pick. rewrite (sh_callees _ _ _ Sh), (sh_invoke _ _ _ Sh), (sh_next _ _ _ Sh).
  destruct (p_callees r) as [|c0 cs] eqn:E; [done|].
  destruct (Nat.ltb_spec 1 (length (c0 :: cs))) as [Hl|Hl].
  2:{ destruct cs; cbn in Hl; [|lia]. exists c0, (p_turn r). split; [done|]. by apply picks_only. }
  destruct (String.eqb_spec (p_invoke r) i_first) as [E1|E1].
  { exists c0, (p_turn r). split; [done|]. by eapply picks_first. }
  destruct (String.eqb_spec (p_invoke r) i_last) as [E2|E2].
  { destruct (lookup_lt_is_Some_2 (c0 :: cs) (length (c0 :: cs) - 1)) as [c Hc]; [cbn; lia|].
    exists c, (p_turn r). split; [by rewrite Hc|].
    apply (picks_last r c (take (length (c0 :: cs) - 1) (c0 :: cs))); [|done].
    rewrite E. rewrite <- (take_S_r _ _ _ Hc). rewrite firstn_all2; [done|cbn; lia]. }
  destruct (String.eqb_spec (p_invoke r) i_roundrobin) as [E3|E3].
  { set (k := if (length (c0 :: cs) <=? p_turn r)%nat then 0%nat else p_turn r).
    assert (Hk : (k < length (c0 :: cs))%nat).
    { unfold k. destruct (Nat.leb_spec (length (c0 :: cs)) (p_turn r)); cbn in *; lia. }
    destruct (lookup_lt_is_Some_2 _ _ Hk) as [c Hc].
    exists c, (S k). cbn zeta. rewrite Hc. split; [done|].
    apply picks_roundrobin; [by rewrite E|done| |by rewrite E]. rewrite E. unfold k.
    destruct (Nat.leb_spec (length (c0 :: cs)) (p_turn r)) as [H|H];
      [rewrite decide_False by lia|rewrite decide_True by lia]; done. }
  destruct (String.eqb_spec (p_invoke r) i_random) as [E4|E4].
  { destruct (lookup_lt_is_Some_2 (c0 :: cs) (o_rand o mod length (c0 :: cs))) as [c Hc].
    { apply Nat.mod_upper_bound. done. }
    exists c, (p_turn r). rewrite Hc. split; [done|]. apply picks_random; [|done].
    rewrite E. by eapply elem_of_list_lookup_2. }
  exists c0, (p_turn r). split; [done|]. apply (picks_other r c0 cs E).
  rewrite !not_elem_of_cons. repeat split; try done. apply not_elem_of_nil.
Qed.
