(** The network comes to rest. *)
From Verif Require Import Prelude Value Msg IdGen Types PathMatch Mutex Broker Dealer Session Network.
From Verif Require Import BrokerSpec BrokerFacts BrokerSim BrokerTrace BrokerProofs.
From Verif Require Import DealerSpec NetworkSpec NetworkProofs.
From Verif Require Import Hostile HostileOriginSpec HostileOrigin HostileOrderSpec HostileOrder HostileRestSpec.

Lemma sum_le {A} (f g : A -> nat) k l : (forall x, x ∈ l -> (g x <= f x + k)%nat) ->
  (sum_list_with g l <= sum_list_with f l + k * length l)%nat.
Proof.
  induction l as [|x l IH]; intros H; cbn [sum_list_with length]; [lia|].
  specialize (IH (fun y Hy => H y (elem_of_list_further _ _ _ Hy))). specialize (H x (elem_of_list_here _ _)). lia.
Qed.
Lemma sum_lt {A} (f g : A -> nat) x l : x ∈ l -> (forall y, y ∈ l -> (g y <= f y)%nat) -> (S (g x) <= f x)%nat ->
  (S (sum_list_with g l) <= sum_list_with f l)%nat.
Proof.
  intros Hx. induction l as [|y l IH]; intros H Hlt; [by apply elem_of_nil in Hx|]. cbn [sum_list_with].
  apply elem_of_cons in Hx as [->|Hx].
  - pose proof (sum_le f g 0 l) as K. specialize (K (fun z Hz => ltac:(specialize (H z (elem_of_list_further _ _ _ Hz)); lia))). lia.
  - specialize (IH Hx (fun z Hz => H z (elem_of_list_further _ _ _ Hz)) Hlt). specialize (H y (elem_of_list_here _ _)). lia.
Qed.

Lemma b_out_two x op out : (length (b_out x (op, out)) <= 2)%nat.
Proof.
  unfold b_out. cbn [snd]. destruct out as [| | |a to|ev rs ack]; cbn; try lia.
  - destruct (to =? x)%N; cbn; lia.
  - rewrite app_length. destruct ev, (bool_decide (x ∈ rs)), ack as [[? ?]|]; cbn; try (destruct (_ =? _)%N); cbn; lia.
Qed.
Lemma d_out_two x op out : (length (d_out x (op, out)) <= 2)%nat.
Proof. unfold d_out. cbn [snd]. destruct out as [| | |a to]; cbn; try lia. destruct (to =? x)%N; cbn; lia. Qed.

Lemma effect_got o c m n n' : effect o c m n n' -> forall x, exists extra, (length extra <= 2)%nat /\ got n n' x extra.
Proof.
  intros [out s s' _ _ B D _ _ _ G|d' out _ _ B D _ _ G|_ _ B D _ G|_ _ ->] x.
  - eexists. split; [|apply G]. apply b_out_two.
  - eexists. split; [|apply G]. apply d_out_two.
  - exists []. split; [cbn; lia|apply G].
  - exists []. split; [cbn; lia|by apply got_same].
Qed.

Lemma moves_down E n k e l : pinv E n k k -> N.of_nat k < two53 -> moves n e -> (forall x, is_Some (n_clients n !! x) -> x ∈ l) ->
  (work l (nstep n e) < work l n)%nat /\ forall x, is_Some (n_clients (nstep n e) !! x) -> x ∈ l.
Proof.
  intros P Hk Hm Hl. destruct e as [d|o x|x m|o x|x|p q]; try destruct Hm; cbn [nstep].
  - destruct H as [Hx Hu]. rename x0 into cl. destruct cl as [s0 [|m rest] down used]; [done|]. rewrite Hx.
    pose proof (effect_got _ _ _ _ _ (handle_effect E n k k o x m P Hk)) as G.
    set (n1 := handle o x m n) in *. clearbody n1.
    set (n2 := match n_clients n1 !! x with Some _ => _ | None => _ end) in *.
    assert (F : forall y cl', n_clients n2 !! y = Some cl' -> exists cl, n_clients n !! y = Some cl
      /\ (length (cl_down cl') <= length (cl_down cl) + 2)%nat
      /\ cl_up cl' = if (x =? y)%N then tail (cl_up cl) else cl_up cl).
    { intros y cl' Hy. subst n2. destruct (G y) as (ex & Hlen & Gy). destruct (n_clients n1 !! x) as [cl1|] eqn:H1.
      - cbn in Hy. destruct (N.eqb_spec x y) as [<-|Hne].
        + rewrite lookup_insert in Hy. injection Hy as <-. destruct (Gy _ H1) as (cl & Hc & ->). exists cl. split; [done|].
          cbn. rewrite app_length. split; [lia|done].
        + rewrite lookup_insert_ne in Hy by done. destruct (Gy _ Hy) as (cl & Hc & ->). exists cl. split; [done|].
          cbn. rewrite app_length. split; [lia|done].
      - destruct (Gy _ Hy) as (cl & Hc & ->). exists cl. split; [done|]. cbn. rewrite app_length. split; [lia|].
        destruct (N.eqb_spec x y) as [<-|Hne]; [congruence|done]. }
    clearbody n2. split; [|intros y [cl' Hy]; apply Hl; destruct (F _ _ Hy) as (cl & Hc & _); by eexists].
    assert (U : (S (total (fun cl => length (cl_up cl)) l n2) <= total (fun cl => length (cl_up cl)) l n)%nat).
    { apply (sum_lt _ _ x); [apply Hl; by eexists| |].
      - intros y _. destruct (n_clients n2 !! y) as [cl'|] eqn:Hy; [|lia]. destruct (F _ _ Hy) as (cl & -> & _ & ->).
        destruct (x =? y)%N; [|done]. destruct (cl_up cl); cbn; lia.
      - rewrite Hx. cbn [cl_up]. destruct (n_clients n2 !! x) as [cl'|] eqn:Hy; [|cbn; lia].
        destruct (F _ _ Hy) as (cl & Hc & _ & ->). rewrite N.eqb_refl. rewrite Hx in Hc. injection Hc as <-. cbn. lia. }
    assert (D : (total (fun cl => length (cl_down cl)) l n2 <= total (fun cl => length (cl_down cl)) l n + 2 * length l)%nat).
    { apply sum_le. intros y _. destruct (n_clients n2 !! y) as [cl'|] eqn:Hy; [|lia]. by destruct (F _ _ Hy) as (cl & -> & H & _). }
    unfold work. nia.
  - destruct H as [Hx Hd]. rename x0 into cl. destruct cl as [s0 up [|m rest] used]; [done|]. rewrite Hx.
    destruct (sstep s0 (SReceiveMessage m)) as [s' r].
    assert (E1 : n_clients match r with Ok _ => nset_clients (<[x:=Client s' up rest used]> (n_clients n)) n
      | _ => nset_rejected ((x, m) :: n_rejected (nset_clients (<[x:=Client s' up rest used]> (n_clients n)) n))
               (nset_clients (<[x:=Client s' up rest used]> (n_clients n)) n) end
      = <[x:=Client s' up rest used]> (n_clients n)) by (by destruct r).
    unfold work, total. rewrite E1. split.
    + assert (U : (sum_list_with (fun y => match <[x:=Client s' up rest used]> (n_clients n) !! y with Some cl => length (cl_up cl) | None => O end) l
        <= sum_list_with (fun y => match n_clients n !! y with Some cl => length (cl_up cl) | None => O end) l + 0 * length l)%nat).
      { apply sum_le. intros y _. destruct (decide (y = x)) as [->|Hne]; [rewrite lookup_insert, Hx; cbn; lia|].
        rewrite lookup_insert_ne by done. lia. }
      assert (D : (S (sum_list_with (fun y => match <[x:=Client s' up rest used]> (n_clients n) !! y with Some cl => length (cl_down cl) | None => O end) l)
        <= sum_list_with (fun y => match n_clients n !! y with Some cl => length (cl_down cl) | None => O end) l)%nat).
      { apply (sum_lt _ _ x); [apply Hl; by eexists| |].
        - intros y _. destruct (decide (y = x)) as [->|Hne]; [rewrite lookup_insert, Hx; cbn; lia|].
          rewrite lookup_insert_ne by done. lia.
        - rewrite lookup_insert, Hx. cbn. lia. }
      nia.
    + intros y. destruct (decide (y = x)) as [->|Hne]; [intros _; apply Hl; by eexists|]. rewrite lookup_insert_ne by done. apply Hl.
Qed.

(** ** Runs *)
Lemma pinv_at es : N.of_nat (length es) <= two53 -> pinv es (hrun empty_net es) (length es) (length es).
Proof.
  intros Hk. enough (K : forall fs n k, pinv es n k k -> N.of_nat (k + length fs) <= two53 -> (forall e, e ∈ fs -> e ∈ es) ->
    pinv es (hrun n fs) (k + length fs) (k + length fs)) by (apply (K es empty_net 0%nat); [apply pinv_empty|done|done]).
  clear Hk. induction fs as [|e fs IH]; intros n k P Hk He; [by rewrite Nat.add_0_r|]. cbn [length] in *.
  destruct (pinv_step es n k e P ltac:(lia)) as (P1 & _ & _); [apply He; by left|]. cbn [hrun].
  replace (k + S (length fs))%nat with (S k + length fs)%nat by lia. apply IH; [done|lia|]. intros x Hx. apply He. by right.
Qed.
Lemma hrun_app n a b : hrun n (a ++ b) = hrun (hrun n a) b.
Proof. revert n. induction a as [|e a IH]; intros n; [done|]. cbn. apply IH. Qed.
Lemma hrun_nrun es : forall n, hrun n (map HNet es) = nrun n es.
Proof. induction es as [|e es IH]; intros n; [done|]. cbn. apply IH. Qed.
Lemma moving_app a b : forall n, moving n (a ++ b) <-> moving n a /\ moving (nrun n a) b.
Proof. induction a as [|e a IH]; intros n; cbn; [tauto|]. rewrite IH. tauto. Qed.
Lemma nrun_app a b : forall n, nrun n (a ++ b) = nrun (nrun n a) b.
Proof. induction a as [|e a IH]; intros n; [done|]. cbn. apply IH. Qed.

Lemma moving_ends more : forall es l, N.of_nat (length es + length more) <= two53 ->
  (forall x, is_Some (n_clients (hrun empty_net es) !! x) -> x ∈ l) -> moving (hrun empty_net es) more ->
  (length more + work l (nrun (hrun empty_net es) more) <= work l (hrun empty_net es))%nat
  /\ forall x, is_Some (n_clients (nrun (hrun empty_net es) more) !! x) -> x ∈ l.
Proof.
  induction more as [|e more IH]; intros es l Hk Hl; cbn [moving nrun length] in *; [by split|]. intros [Hm Hr].
  destruct (moves_down es _ (length es) e l (pinv_at es ltac:(lia)) ltac:(lia) Hm Hl) as [H1 H2].
  pose proof (IH (es ++ [HNet e]) l) as K. rewrite hrun_app, app_length in K. cbn [hrun hstep length] in K.
  destruct (K ltac:(lia) H2 Hr) as [K1 K2]. split; [lia|done].
Qed.
Lemma can_move n : at_rest n \/ exists e, moves n e.
Proof.
  destruct (decide (map_Forall (fun _ cl => cl_up cl = [] /\ cl_down cl = []) (n_clients n))) as [H|H]; [by left|right].
  apply map_not_Forall in H as (x & cl & Hx & H); [|apply _].
  destruct (decide (cl_up cl = [])) as [H1|H1]; [|exists (NRoute any_oracle x); by exists cl].
  destruct (decide (cl_down cl = [])) as [H2|H2]; [by destruct H|exists (NDeliver x); by exists cl].
Qed.
Lemma to_rest w : forall es l, (work l (hrun empty_net es) <= w)%nat -> N.of_nat (length es + w) < two53 ->
  (forall x, is_Some (n_clients (hrun empty_net es) !! x) -> x ∈ l) ->
  exists more, moving (hrun empty_net es) more /\ at_rest (nrun (hrun empty_net es) more).
Proof.
  induction w as [|w IH]; intros es l Hw Hk Hl; (destruct (can_move (hrun empty_net es)) as [Hr|[e Hm]]; [by exists []|]).
  - destruct (moves_down es _ (length es) e l (pinv_at es ltac:(lia)) ltac:(lia) Hm Hl) as [H1 _]. lia.
  - destruct (moves_down es _ (length es) e l (pinv_at es ltac:(lia)) ltac:(lia) Hm Hl) as [H1 H2].
    pose proof (IH (es ++ [HNet e]) l) as K. rewrite hrun_app, app_length in K. cbn [hrun hstep length] in K.
    destruct (K ltac:(lia) ltac:(lia) H2) as (more & M1 & M2). exists (e :: more). by split.
Qed.
Lemma ids_all n x : is_Some (n_clients n !! x) -> x ∈ ids n.
Proof.
  intros [cl Hx]. unfold ids. apply elem_of_list_fmap. exists (x, cl). split; [done|]. by apply elem_of_map_to_list.
Qed.
Lemma moving_take k more : forall n, moving n more -> moving n (take k more).
Proof. revert k. induction more as [|e more IH]; intros [|k] n H; try done. destruct H as [H1 H2]. split; [done|]. by apply IH. Qed.

Lemma comes_to_end es more : let n := hrun empty_net es in
  N.of_nat (length es + work (ids n) n) < two53 -> moving n more -> (length more <= work (ids n) n)%nat.
Proof.
  intros n Hk Hm. destruct (Nat.le_gt_cases (length more) (work (ids n) n)) as [H|H]; [done|exfalso].
  pose proof (moving_take (S (work (ids n) n)) more n Hm) as Ht.
  assert (Hlen : length (take (S (work (ids n) n)) more) = S (work (ids n) n)) by (rewrite take_length; lia).
  destruct (moving_ends _ es (ids n) ltac:(rewrite Hlen; lia) (ids_all n) Ht) as [K _]. rewrite Hlen in K. fold n in K. lia.
Qed.
Lemma comes_to_rest es more : let n := hrun empty_net es in
  N.of_nat (length es + work (ids n) n) < two53 -> moving n more ->
  exists more', moving n (more ++ more') /\ at_rest (nrun n (more ++ more')).
Proof.
  intros n Hk Hm. pose proof (comes_to_end es more Hk Hm) as Hlen. fold n in Hlen.
  destruct (moving_ends more es (ids n) ltac:(lia) (ids_all n) Hm) as [K1 K2]. fold n in K1, K2.
  pose proof (to_rest (work (ids n) n - length more) (es ++ map HNet more) (ids n)) as T.
  rewrite hrun_app, hrun_nrun, app_length, map_length in T. fold n in T.
  destruct (T ltac:(lia) ltac:(lia) K2) as (more' & M1 & M2). exists more'. rewrite moving_app, nrun_app. done.
Qed.
Lemma arrived honest es c cl : N.of_nat (length es) <= two53 -> decently honest empty_net es ->
  let n := hrun empty_net es in at_rest n -> n_clients n !! c = Some cl ->
  List.filter from_broker (hread c empty_net es) = in_turn (b_out c) (btr n)
  /\ List.filter (fun a => negb (from_broker a)) (hread c empty_net es) = in_turn (d_out c) (dtr n)
  /\ (honest c -> List.filter for_broker (sent c empty_net es) = in_turn (b_in c) (btr n)
       /\ (n_crashed n = [] -> List.filter for_dealer (sent c empty_net es) = in_turn (d_in c) (dtr n))).
Proof.
  intros Hk Hd n Hr Hc. destruct (Hr _ _ Hc) as [U D]. destruct (reads_in_order honest es c Hk Hd) as (_ & _ & R).
  destruct (R _ Hc) as [R1 R2]. rewrite D, app_nil_r in R1, R2. split; [done|]. split; [done|]. intros Hh.
  destruct (sent_in_order honest es c Hk Hd Hh) as (_ & _ & S). destruct (S _ Hc) as [S1 S2]. fold n in S1, S2.
  rewrite U in S1, S2. cbn in S1, S2. rewrite app_nil_r in S1, S2. done.
Qed.
