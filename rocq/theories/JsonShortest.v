(** Proofs: the JSON text of a float is the shortest decimal that is read as it. *)
From Coq Require Import Ascii QArith Qabs Qpower Lqa.
From stdpp Require Import pretty.
From Verif Require Import Prelude Value BaseSpec WireSpec FloatSame PathMatch PathMatchSpec PathUtf8 Encoding EncodingFacts AuthSpec
  JsonSpec JsonFacts JsonSafe Payload Json JsonRound JsonGrammar JsonNumber JsonRead JsonFloat.

Local Open Scope string_scope.
Local Open Scope N_scope.

(** * There is one nearest float *)

Lemma double_zero : double 0.
Proof. exists 0%Z, 0%Z. split; [done|]. split; [done|]. reflexivity. Qed.
Lemma abs_cases (a : Q) : (0 <= a /\ Qabs a == a)%Q \/ (a <= 0 /\ Qabs a == - a)%Q.
Proof. destruct (Qlt_le_dec a 0); [right|left]; split; try lra; [rewrite Qabs_neg; lra|rewrite Qabs_pos; lra]. Qed.
Ltac abs_all := repeat match goal with
  | H : context [Qabs ?a] |- _ => let K := fresh "K" in let x := fresh "x" in pose proof (abs_cases a) as K; set (x := Qabs a) in *; clearbody x
  | |- context [Qabs ?a] => let K := fresh "K" in let x := fresh "x" in pose proof (abs_cases a) as K; set (x := Qabs a) in *; clearbody x
  end.
Ltac abs_lra := abs_all; repeat match goal with K : _ \/ _ |- _ => destruct K as [[? ?]|[? ?]] end; lra.

Lemma nearest_positive q v : nearest q v -> (0 < q)%Q -> (0 <= v)%Q.
Proof. intros (_ & L & _) Hq. specialize (L 0%Q double_zero). destruct (Qlt_le_dec v 0); [|done]. exfalso. abs_lra. Qed.
Lemma positive_nearest q v : nearest q v -> (0 < v)%Q -> (0 < q)%Q.
Proof. intros (_ & L & _) Hv. specialize (L 0%Q double_zero). destruct (Qlt_le_dec 0 q); [done|]. exfalso. abs_lra. Qed.

Lemma power2_le e c : (c <= e)%Z -> (power2 c <= power2 e)%Q.
Proof. apply power2_mono. Qed.
Lemma even_nonneg v : even_double v -> (0 <= v)%Q -> exists m e, Z.even m = true /\ (0 <= m < 2 ^ 53)%Z /\ (-1074 <= e <= 971)%Z
  /\ (2 ^ 52 <= m \/ e = -1074)%Z /\ (v == inject_Z m * power2 e)%Q.
Proof.
  intros (m & e & Hv & Hm & He & Hc & E) H. exists m, e. pose proof (power2_pos e) as P.
  assert (0 <= m)%Z as M.
  { destruct (Z.le_gt_cases 0 m); [done|]. exfalso. assert (inject_Z m <= -1)%Q by (change (-1)%Q with (inject_Z (-1)); rewrite <- Zle_Qle; lia). nra. }
  split; [done|]. split; [lia|]. split; [done|]. split; [lia|done].
Qed.
Lemma evens_apart v w : even_double v -> even_double w -> (0 <= v)%Q -> (v < w)%Q -> exists u, double u /\ (v < u < w)%Q.
Proof.
  intros Ev Ew Hv Hw. destruct (even_nonneg v Ev Hv) as (m & e & Hm & Bm & Be & Hc & Em).
  destruct (even_nonneg w Ew ltac:(lra)) as (n & f & Hn & Bn & Bf & Hd & En).
  exists (inject_Z (m + 1) * power2 e)%Q. pose proof (power2_pos e) as P. pose proof (power2_pos f) as P'.
  assert (m <> 2 ^ 53 - 1)%Z by (intros ->; discriminate Hm).
  split; [exists (m + 1)%Z, e; split; [lia|]; split; [done|reflexivity]|].
  assert (I : (inject_Z (m + 1) == inject_Z m + 1)%Q) by (rewrite inject_Z_plus; reflexivity).
  split; [rewrite I, Em; lra|].
  assert (e <= f)%Z as Hef.
  { destruct (Z.le_gt_cases e f); [done|]. exfalso. assert (2 ^ 52 <= m)%Z by (destruct Hc; lia).
    rewrite Em, En in Hw. rewrite (power2_split e (f + 1)) in Hw by lia.
    assert (E1 : (power2 (f + 1) == 2 * power2 f)%Q).
    { rewrite (power2_split (f + 1) f) by lia. replace (f + 1 - f)%Z with 1%Z by lia. reflexivity. }
    rewrite E1 in Hw. assert (1 <= 2 ^ (e - (f + 1)))%Z by (assert (0 < 2 ^ (e - (f + 1)))%Z by (apply Z.pow_pos_nonneg; lia); lia).
    assert (A1 : (4503599627370496 <= inject_Z m)%Q) by (change 4503599627370496%Q with (inject_Z (2 ^ 52)); rewrite <- Zle_Qle; lia).
    assert (A2 : (1 <= inject_Z (2 ^ (e - (f + 1))))%Q) by (change 1%Q with (inject_Z 1); rewrite <- Zle_Qle; lia).
    assert (A3 : (inject_Z n <= 9007199254740991)%Q) by (change 9007199254740991%Q with (inject_Z (2 ^ 53 - 1)); rewrite <- Zle_Qle; lia).
    set (k := inject_Z (2 ^ (e - (f + 1)))) in *. clearbody k. set (p := power2 f) in *. clearbody p.
    assert (inject_Z n * p <= 9007199254740991 * p)%Q by (apply Qmult_le_compat_r; lra).
    assert (4503599627370496 * (1 * (2 * p)) <= inject_Z m * (k * (2 * p)))%Q.
    { apply Qmult_le_compat_nonneg; (split; [|done] || idtac); [lra|].
      split; [lra|]. apply Qmult_le_compat_r; lra. }
    lra. }
  rewrite En, (power2_split f e Hef), Qmult_assoc, <- inject_Z_mult. apply Qmult_lt_r; [done|]. rewrite <- Zlt_Qlt.
  rewrite Em, En, (power2_split f e Hef), Qmult_assoc, <- inject_Z_mult in Hw. apply Qmult_lt_r in Hw; [|done]. rewrite <- Zlt_Qlt in Hw.
  destruct (Z.eq_dec (m + 1) (n * 2 ^ (f - e))) as [X|]; [exfalso|lia].
  assert (Z.even (m + 1) = true). { rewrite X, Z.even_mul, Hn. done. }
  rewrite Z.even_add, Hm in H0. done.
Qed.
Lemma nearest_unique q v w : (0 < q)%Q -> nearest q v -> nearest q w -> (v == w)%Q.
Proof.
  assert (forall v w, (0 < q)%Q -> nearest q v -> nearest q w -> (v < w)%Q -> False) as X.
  { clear v w. intros v w Hq Nv Nw H. pose proof (nearest_positive q v Nv Hq) as Pv. destruct Nv as (Dv & Lv & Tv), Nw as (Dw & Lw & Tw).
    pose proof (Lv w Dw) as L1. pose proof (Lw v Dv) as L2. assert (E : (Qabs (w - q) == Qabs (v - q))%Q) by lra.
    destruct (Tv w Dw E) as [C|Ev]; [lra|]. destruct (Tw v Dv ltac:(lra)) as [C|Ew]; [lra|].
    destruct (evens_apart v w Ev Ew Pv H) as (u & Du & Hu). specialize (Lv u Du). abs_lra. }
  intros Hq Nv Nw. destruct (Q_dec v w) as [[H|H]|H]; [destruct (X v w)|destruct (X w v)|]; done.
Qed.

(** What lies between a float and something read as it is read as it, too. *)
Lemma nearest_between d q v : nearest d v -> (d <= q <= v)%Q \/ (v <= q <= d)%Q -> nearest q v.
Proof.
  intros (Dv & L & T) H. split; [done|]. split.
  - intros u Du. specialize (L u Du). destruct H as [[? ?]|[? ?]]; abs_lra.
  - intros u Du E. destruct (Qeq_dec u v) as [|Hne]; [by left|]. right.
    destruct (T u Du) as [C|]; [|done|done]. pose proof (L u Du) as L'.
    assert (u < v \/ v < u)%Q as C by (destruct (Q_dec u v) as [[?|?]|?]; [by left|by right|done]).
    destruct H as [[? ?]|[? ?]], C; abs_lra.
Qed.
Lemma representable_between d q v : representable d -> double v -> (d <= q <= v)%Q \/ (v <= q <= d)%Q -> representable q.
Proof.
  unfold representable. intros R (m & e & Hm & He & E) H.
  assert (V : (Qabs v < inject_Z (2 ^ 1024 - 2 ^ 970))%Q).
  { rewrite E, Qabs_Qmult. pose proof (power2_mono e 971 ltac:(lia)) as M. pose proof (power2_pos e) as P.
    rewrite (Qabs_pos (power2 e)) by lra.
    assert (A : (Qabs (inject_Z m) <= inject_Z (2 ^ 53 - 1))%Q) by (change (Qabs (inject_Z m)) with (inject_Z (Z.abs m)); rewrite <- Zle_Qle; lia).
    assert (T : (inject_Z (2 ^ 1024 - 2 ^ 970) == (inject_Z (2 ^ 53 - 1) + (1 # 2)) * power2 971)%Q) by (vm_compute; reflexivity).
    rewrite T. assert (I : (0 < inject_Z (2 ^ 53 - 1))%Q) by (vm_compute; reflexivity).
    set (i := inject_Z (2 ^ 53 - 1)) in *. clearbody i. set (p := power2 e) in *. set (r := power2 971) in *. clearbody p r. clear T.
    assert (Qabs (inject_Z m) * p <= i * p)%Q by (apply Qmult_le_compat_r; lra).
    assert (i * p <= i * r)%Q by (apply Qmult_le_l; lra). lra. }
  set (b := inject_Z (2 ^ 1024 - 2 ^ 970)) in *. clearbody b. destruct H as [[? ?]|[? ?]]; abs_lra.
Qed.
Lemma nearest_reads m e n x : (0 < decimal false n x)%Q -> representable (decimal false n x) -> nearest (decimal false n x) (inject_Z m * power2 e) ->
  reads_as m e (n, x) = true.
Proof.
  intros P R N. pose proof (number_spec false n x) as S. destruct (value_of n x) as [f|] eqn:V; [|by destruct (S R)].
  destruct S as (m' & e' & E & _ & N'). assert (f = FFin m' e') as -> by (destruct f; exact E).
  apply (reads_as_value m e n x m' e' V). by eapply nearest_unique.
Qed.
Lemma reads_nearest m e n x : reads_as m e (n, x) = true ->
  representable (decimal false n x) /\ nearest (decimal false n x) (inject_Z m * power2 e).
Proof.
  unfold reads_as. cbn [fst snd]. pose proof (number_spec false n x) as S. destruct (value_of n x) as [f|]; [|done].
  destruct S as (m' & e' & E & R & N). assert (f = FFin m' e') as -> by (destruct f; exact E). intros H%Z.eqb_eq.
  split; [done|]. apply (nearest_same _ (inject_Z m' * power2 e')); [|done]. apply same_value. cbn. rewrite Z.min_comm. symmetry. done.
Qed.

(** * The neighbours with [k] digits *)

Lemma neighbours num den dp k : (0 < num)%Z -> (0 < den)%Z -> (1 <= k)%Z ->
  (power10 (dp - 1) <= inject_Z num / inject_Z den)%Q -> (inject_Z num / inject_Z den < power10 dp)%Q ->
  exists q a b, (if (0 <=? dp - k)%Z then (num, den * 10 ^ (dp - k))%Z else (num * 10 ^ (- (dp - k)), den)%Z) = (a, b)
  /\ (q = a / b)%Z /\ (0 < b)%Z /\ (inject_Z num / inject_Z den == inject_Z a / inject_Z b * power10 (dp - k))%Q
  /\ (decimal false (fst (fst (down_up num den dp k))) (snd (fst (down_up num den dp k))) == inject_Z q * power10 (dp - k))%Q
  /\ (decimal false (fst (snd (down_up num den dp k))) (snd (snd (down_up num den dp k))) == inject_Z (q + 1) * power10 (dp - k))%Q
  /\ (inject_Z q * power10 (dp - k) <= inject_Z num / inject_Z den)%Q
  /\ (inject_Z num / inject_Z den < inject_Z (q + 1) * power10 (dp - k))%Q
  /\ (10 ^ (k - 1) <= q < 10 ^ k)%Z
  /\ (Z.of_N (fst (fst (down_up num den dp k))) < 10 ^ k)%Z /\ (Z.of_N (fst (snd (down_up num den dp k))) < 10 ^ k)%Z.
Proof.
  intros Hn Hd Hk Lo Hi. unfold down_up. cbv zeta. set (x := (dp - k)%Z).
  destruct (if (0 <=? x)%Z then _ else _) as [a b] eqn:O. destruct (over_power10 num den x a b Hn Hd O) as (Ha & Hb & Eo). cbn [fst snd].
  set (v := (inject_Z num / inject_Z den)%Q) in *. clearbody v. pose proof (power10_pos x) as T. pose proof (inject_pos b Hb) as Bp.
  exists (a / b)%Z, a, b. set (q := (a / b)%Z). assert (Hq : (0 <= q)%Z) by (apply Z.div_pos; lia).
  pose proof (Z.div_mod a b ltac:(lia)) as D. pose proof (Z.mod_pos_bound a b Hb) as R. fold q in D.
  set (y := (inject_Z a / inject_Z b)%Q) in *.
  assert (Y : (y * inject_Z b == inject_Z b * inject_Z q + inject_Z (a mod b))%Q).
  { unfold y. rewrite <- inject_Z_mult, <- inject_Z_plus, <- D. field. by apply positive_nonzero. }
  assert (R0 : (0 <= inject_Z (a mod b))%Q) by (change 0%Q with (inject_Z 0); rewrite <- Zle_Qle; lia).
  assert (R1 : (inject_Z (a mod b) < inject_Z b)%Q) by (rewrite <- Zlt_Qlt; lia).
  assert (I : (inject_Z (q + 1) == inject_Z q + 1)%Q) by (rewrite inject_Z_plus; reflexivity).
  assert (Y0 : (inject_Z q <= y)%Q) by (apply (Qmult_le_r _ _ _ Bp); lra).
  assert (Y1 : (y < inject_Z (q + 1))%Q) by (rewrite I; apply (Qmult_lt_r _ _ _ Bp); lra).
  clearbody y q. clear Y R0 R1 D R Ha.
  assert (E1 : (power10 dp == inject_Z (10 ^ k) * power10 x)%Q).
  { rewrite <- power10_Z, <- power10_plus by lia. replace (k + x)%Z with dp by (unfold x; lia). reflexivity. }
  assert (E2 : (power10 (dp - 1) == inject_Z (10 ^ (k - 1)) * power10 x)%Q).
  { rewrite <- power10_Z, <- power10_plus by lia. replace (k - 1 + x)%Z with (dp - 1)%Z by (unfold x; lia). reflexivity. }
  assert (Q1 : (10 ^ (k - 1) < q + 1)%Z).
  { rewrite Zlt_Qlt. apply (Qmult_lt_r _ _ _ T). apply (Qle_lt_trans _ (y * power10 x)); [lra|]. apply Qmult_lt_r; done. }
  assert (Q2 : (q < 10 ^ k)%Z).
  { rewrite Zlt_Qlt. apply (Qmult_lt_r _ _ _ T). apply (Qle_lt_trans _ (y * power10 x)); [|lra]. apply Qmult_le_r; done. }
  split; [done|]. split; [done|]. split; [done|]. split; [done|].
  split; [unfold decimal; rewrite Z2N.id by done; reflexivity|]. split.
  { destruct (Z.eqb_spec (q + 1) (10 ^ k)) as [E|]; cbn [fst snd]; unfold decimal.
    - rewrite E, <- E1. change (inject_Z (Z.of_N 1)) with 1%Q. ring.
    - rewrite Z2N.id by lia. reflexivity. }
  split; [rewrite Eo; apply Qmult_le_r; done|]. split; [rewrite Eo; apply Qmult_lt_r; done|]. split; [lia|].
  split; [by rewrite Z2N.id|]. destruct (Z.eqb_spec (q + 1) (10 ^ k)) as [E|]; cbn [fst].
  - change (Z.of_N 1) with 1%Z. assert (10 ^ 1 <= 10 ^ k)%Z by (apply Z.pow_le_mono_r; lia). lia.
  - rewrite Z2N.id by lia. lia.
Qed.
(** Between them there is no decimal with [k] digits. *)
Lemma none_between num den dp k n x : (0 < num)%Z -> (0 < den)%Z -> (1 <= k)%Z ->
  (power10 (dp - 1) <= inject_Z num / inject_Z den)%Q -> (inject_Z num / inject_Z den < power10 dp)%Q ->
  (Z.of_N n < 10 ^ k)%Z ->
  let (d, u) := down_up num den dp k in
  (decimal false n x <= decimal false (fst d) (snd d))%Q \/ (decimal false (fst u) (snd u) <= decimal false n x)%Q.
Proof.
  intros Hn Hd Hk Lo Hi B. destruct (neighbours num den dp k Hn Hd Hk Lo Hi) as (q & a & b & _ & _ & _ & _ & Ed & Eu & _ & _ & Bq & _).
  destruct (down_up num den dp k) as [d u]. cbn [fst snd] in *. rewrite Ed, Eu. set (y := (dp - k)%Z) in *. pose proof (power10_pos y) as T.
  unfold decimal. destruct (Z.le_gt_cases y x) as [C|C].
  - assert (E : (power10 x == inject_Z (10 ^ (x - y)) * power10 y)%Q).
    { rewrite <- power10_Z, <- power10_plus by lia. replace (x - y + y)%Z with x by lia. reflexivity. }
    rewrite E, Qmult_assoc, <- inject_Z_mult. set (j := (Z.of_N n * 10 ^ (x - y))%Z).
    destruct (Z.le_gt_cases j q); [left|right]; (apply Qmult_le_r; [done|]; rewrite <- Zle_Qle; lia).
  - left. pose proof (power10_pos x) as X.
    assert (E : (power10 (y - 1) == inject_Z (10 ^ (y - 1 - x)) * power10 x)%Q).
    { rewrite <- power10_Z, <- power10_plus by lia. replace (y - 1 - x + x)%Z with (y - 1)%Z by lia. reflexivity. }
    assert (F : (power10 y == 10 * power10 (y - 1))%Q).
    { replace y with (1 + (y - 1))%Z at 1 by lia. rewrite power10_plus. reflexivity. }
    assert (P : (1 <= 10 ^ (y - 1 - x))%Z) by (assert (0 < 10 ^ (y - 1 - x))%Z by (apply Z.pow_pos_nonneg; lia); lia).
    rewrite F, E. setoid_replace (inject_Z q * (10 * (inject_Z (10 ^ (y - 1 - x)) * power10 x)))%Q
      with (inject_Z (q * 10 * 10 ^ (y - 1 - x)) * power10 x)%Q by (rewrite !inject_Z_mult; change (inject_Z 10) with 10%Q; ring).
    apply Qmult_le_r; [done|]. rewrite <- Zle_Qle. replace k with (1 + (k - 1))%Z in B by lia. rewrite Z.pow_add_r in B by lia. change (10 ^ 1)%Z with 10%Z in B. nia.
Qed.

(** * The search *)

(** Read as [m * 2^e]. *)
Definition taken (m e : Z) (n : N) (x : Z) : Prop :=
  representable (decimal false n x) /\ nearest (decimal false n x) (inject_Z m * power2 e).

Section search.
Context (m e num den dp : Z).
Hypothesis Hm : (0 < m)%Z.
Hypothesis Hf : fraction m e = (num, den).
Hypothesis Lo : (power10 (dp - 1) <= inject_Z num / inject_Z den)%Q.
Hypothesis Hi : (inject_Z num / inject_Z den < power10 dp)%Q.
Let v := (inject_Z m * power2 e)%Q.

Lemma taken_reads n x : (0 < decimal false n x)%Q -> taken m e n x -> reads_as m e (n, x) = true.
Proof. intros P [R N]. by apply nearest_reads. Qed.

Lemma search_step fuel k : (1 <= k)%Z -> exists c, 
  shortest_from (S fuel) (reads_as m e) num den dp k =
  match reads_as m e (fst (down_up num den dp k)), reads_as m e (snd (down_up num den dp k)) with
  | true, true => Some (if c : bool then snd (down_up num den dp k) else fst (down_up num den dp k))
  | true, false => Some (fst (down_up num den dp k))
  | false, true => Some (snd (down_up num den dp k))
  | false, false => shortest_from fuel (reads_as m e) num den dp (k + 1)
  end
  /\ let d := decimal false (fst (fst (down_up num den dp k))) (snd (fst (down_up num den dp k))) in
     let u := decimal false (fst (snd (down_up num den dp k))) (snd (snd (down_up num den dp k))) in
     if c then (u - v <= v - d)%Q else (v - d <= u - v)%Q.
Proof.
  intros Hk. destruct (fraction_value m e num den Hm Hf) as (Hn & Hd & Ev).
  destruct (neighbours num den dp k Hn Hd Hk Lo Hi) as (q & a & b & O & -> & Hb & Eo & Ed & Eu & _).
  exists ((b <? 2 * (a mod b))%Z || ((2 * (a mod b) =? b)%Z && Z.odd (a / b))). split.
  - unfold down_up. cbn [shortest_from]. cbv zeta. rewrite O. reflexivity.
  - cbv zeta. unfold v. set (t := power10 (dp - k)) in *. pose proof (power10_pos (dp - k)) as T. fold t in T.
    pose proof (inject_pos b Hb) as Bp. pose proof (Z.div_mod a b ltac:(lia)) as D.
    set (y := (inject_Z a / inject_Z b)%Q) in *. set (q := (a / b)%Z) in *.
    assert (Y : (y * inject_Z b == inject_Z b * inject_Z q + inject_Z (a mod b))%Q).
    { unfold y. rewrite <- inject_Z_mult, <- inject_Z_plus, <- D. field. by apply positive_nonzero. }
    assert (I : (inject_Z (q + 1) == inject_Z q + 1)%Q) by (rewrite inject_Z_plus; reflexivity).
    assert (X : forall c : bool, (if c then (b <= 2 * (a mod b))%Z else (2 * (a mod b) <= b)%Z) ->
      if c then (inject_Z (q + 1) * t - y * t <= y * t - inject_Z q * t)%Q else (y * t - inject_Z q * t <= inject_Z (q + 1) * t - y * t)%Q).
    { intros [|] H; rewrite Zle_Qle, inject_Z_mult in H; change (inject_Z 2) with 2%Q in H; rewrite I.
      - assert (K : (inject_Z q + 1 - y <= y - inject_Z q)%Q) by (apply (Qmult_le_r _ _ _ Bp); lra).
        apply (Qmult_le_compat_r _ _ t) in K; lra.
      - assert (K : (y - inject_Z q <= inject_Z q + 1 - y)%Q) by (apply (Qmult_le_r _ _ _ Bp); lra).
        apply (Qmult_le_compat_r _ _ t) in K; lra. }
    destruct ((b <? 2 * (a mod b))%Z || ((2 * (a mod b) =? b)%Z && Z.odd q)) eqn:C; rewrite Ed, Eu, Ev, Eo.
    + apply (X true). apply orb_true_iff in C as [C|C]; [lia|]. apply andb_true_iff in C as [C _]. lia.
    + apply (X false). apply orb_false_iff in C as [C _]. lia.
Qed.
Lemma search_shortest fuel : forall k n x, (1 <= k)%Z -> shortest_from fuel (reads_as m e) num den dp k = Some (n, x) ->
  (forall n' x', (Z.of_N n' < 10 ^ (k - 1))%Z -> ~ taken m e n' x') ->
  exists k', (1 <= k')%Z /\ (Z.of_N n < 10 ^ k')%Z /\ (forall n' x', (Z.of_N n' < 10 ^ (k' - 1))%Z -> ~ taken m e n' x')
    /\ forall n' x', (Z.of_N n' < 10 ^ k')%Z -> taken m e n' x' -> (Qabs (decimal false n x - v) <= Qabs (decimal false n' x' - v))%Q.
Proof.
  destruct (fraction_value m e num den Hm Hf) as (Hn & Hd & Ev). fold v in Ev.
  assert (Vp : (0 < v)%Q) by (apply Qmult_lt_0_compat; [by apply inject_pos|apply power2_pos]).
  induction fuel as [|fuel IH]; intros k n x Hk; [done|]. destruct (search_step fuel k Hk) as (c & -> & Hc).
  destruct (neighbours num den dp k Hn Hd Hk Lo Hi) as (q & a & b & _ & _ & _ & _ & Ed & Eu & Ld & Lu & Bq & B1 & B2).
  assert (Nb : forall n' x', (Z.of_N n' < 10 ^ k)%Z -> taken m e n' x' ->
    let (d, u) := down_up num den dp k in
    ((decimal false n' x' <= decimal false (fst d) (snd d))%Q /\ reads_as m e d = true)
    \/ ((decimal false (fst u) (snd u) <= decimal false n' x')%Q /\ reads_as m e u = true)).
  { intros n' x' B [R N]. pose proof (none_between num den dp k n' x' Hn Hd Hk Lo Hi B) as K.
    destruct (down_up num den dp k) as [[dn dx] [un ux]]. cbn [fst snd] in *.
    assert (0 < q)%Z by (assert (0 < 10 ^ (k - 1))%Z by (apply Z.pow_pos_nonneg; lia); lia). pose proof (power10_pos (dp - k)) as T.
    destruct K as [K|K]; [left|right]; (split; [done|]); apply taken_reads.
    - rewrite Ed. apply Qmult_lt_0_compat; [by apply inject_pos|done].
    - assert (Btw : (decimal false n' x' <= decimal false dn dx <= v)%Q) by (rewrite Ed, Ev in *; split; done).
      split; [eapply representable_between; [exact R|exact (proj1 N)|by left]|]. eapply nearest_between; [exact N|by left].
    - rewrite Eu. apply Qmult_lt_0_compat; [apply inject_pos; lia|done].
    - assert (Btw : (v <= decimal false un ux <= decimal false n' x')%Q) by (split; [rewrite Eu, Ev; lra|done]).
      split; [eapply representable_between; [exact R|exact (proj1 N)|by right]|]. eapply nearest_between; [exact N|by right]. }
  assert (Dn : (decimal false (fst (fst (down_up num den dp k))) (snd (fst (down_up num den dp k))) <= v)%Q) by (rewrite Ed, Ev; exact Ld).
  assert (Un : (v < decimal false (fst (snd (down_up num den dp k))) (snd (snd (down_up num den dp k))))%Q) by (rewrite Eu, Ev; exact Lu).
  cbv zeta in Hc. destruct (down_up num den dp k) as [[dn dx] [un ux]]. cbn [fst snd] in *. clear Ed Eu.
  destruct (reads_as m e (dn, dx)) eqn:D, (reads_as m e (un, ux)) eqn:U; intros E H.
  - exists k. split; [done|]. split; [destruct c; injection E as <- <-; done|]. split; [done|].
    intros n' x' B Tk. destruct (Nb n' x' B Tk) as [[K _]|[K _]]; destruct c; injection E as <- <-; abs_lra.
  - injection E as <- <-. exists k. split; [done|]. split; [done|]. split; [done|].
    intros n' x' B Tk. destruct (Nb n' x' B Tk) as [[K _]|[K C]]; [abs_lra|congruence].
  - injection E as <- <-. exists k. split; [done|]. split; [done|]. split; [done|].
    intros n' x' B Tk. destruct (Nb n' x' B Tk) as [[K C]|[K _]]; [congruence|abs_lra].
  - apply (IH (k + 1)%Z n x); [lia|done|]. replace (k + 1 - 1)%Z with k by lia. intros n' x' B Tk.
    destruct (Nb n' x' B Tk) as [[_ C]|[_ C]]; congruence.
Qed.
End search.

(** Where the decimal point is. *)
Definition point (num den : Z) : Z :=
  let d := (digit_count num - digit_count den)%Z in
  if (if (0 <=? d)%Z then (num <? den * 10 ^ d)%Z else (num * 10 ^ (- d) <? den)%Z) then d else (d + 1)%Z.
Lemma point_bounds num den : (0 < num)%Z -> (0 < den)%Z ->
  (power10 (point num den - 1) <= inject_Z num / inject_Z den)%Q /\ (inject_Z num / inject_Z den < power10 (point num den))%Q.
Proof.
  intros Hn Hd. unfold point. cbv zeta.
  set (d := (digit_count num - digit_count den)%Z).
  assert (Dn : forall z, (0 < z)%Z -> (1 <= digit_count z)%Z).
  { intros z Hz. destruct (Z.le_gt_cases 1 (digit_count z)); [done|]. unfold digit_count in *. destruct (digit_count_bounds z Hz) as [_ N2].
    unfold digit_count in N2. replace (Z.of_nat (String.length (pretty z))) with 0%Z in N2 by lia. change (10 ^ 0)%Z with 1%Z in N2. lia. }
  pose proof (Dn num Hn) as D1. pose proof (Dn den Hd) as D2. destruct (digit_count_bounds num Hn) as [N1 N2]. destruct (digit_count_bounds den Hd) as [M1 M2].
  destruct (if (0 <=? d)%Z then _ else _) eqn:L.
    - split; [|by apply less_power10].
      apply Qle_shift_div_l; [by apply inject_pos|]. apply (Qle_trans _ (power10 (d - 1) * power10 (digit_count den))).
      + apply Qmult_le_l; [apply power10_pos|]. rewrite power10_Z by lia. rewrite <- Zle_Qle. lia.
      + rewrite <- power10_plus. replace (d - 1 + digit_count den)%Z with (digit_count num - 1)%Z by (unfold d; lia).
        rewrite power10_Z by lia. by rewrite <- Zle_Qle.
    - replace (d + 1 - 1)%Z with d by lia. split; [apply Qnot_lt_le; rewrite <- (less_power10 num den d) by done; by rewrite L|].
      apply Qlt_shift_div_r; [by apply inject_pos|]. apply (Qlt_le_trans _ (power10 (d + 1) * power10 (digit_count den - 1))).
      + rewrite <- power10_plus. replace (d + 1 + (digit_count den - 1))%Z with (digit_count num) by (unfold d; lia).
        rewrite power10_Z by lia. by rewrite <- Zlt_Qlt.
      + apply Qmult_le_l; [apply power10_pos|]. rewrite power10_Z by lia. by rewrite <- Zle_Qle.
Qed.
Lemma shortest_of_eq most ok num den : shortest_of most ok num den = shortest_from most ok num den (point num den) 1.
Proof. reflexivity. Qed.
Lemma shortest_shortest m e n x : (0 < m)%Z -> shortest m e = Some (n, x) ->
  exists k, (1 <= k)%Z /\ (Z.of_N n < 10 ^ k)%Z /\ (forall n' x', (Z.of_N n' < 10 ^ (k - 1))%Z -> ~ taken m e n' x')
    /\ forall n' x', (Z.of_N n' < 10 ^ k)%Z -> taken m e n' x' ->
       (Qabs (decimal false n x - inject_Z m * power2 e) <= Qabs (decimal false n' x' - inject_Z m * power2 e))%Q.
Proof.
  intros Hm. unfold shortest. destruct (fraction m e) as [num den] eqn:F. destruct (fraction_value m e num den Hm F) as (Hn & Hd & Ev). rewrite shortest_of_eq.
  pose proof (point_bounds num den Hn Hd) as B. generalize dependent (point num den). intros dp B E. apply (search_shortest m e num den dp Hm F (proj1 B) (proj2 B) 17 1 n x); [done|done|].
  change (10 ^ (1 - 1))%Z with 1%Z. intros n' x' H [R N]. assert (n' = 0) as -> by lia.
  assert (0 < inject_Z m * power2 e)%Q as P by (apply Qmult_lt_0_compat; [by apply inject_pos|apply power2_pos]).
  pose proof (positive_nearest _ _ N P) as Q. unfold decimal in Q. change (inject_Z (Z.of_N 0)) with 0%Q in Q. lra.
Qed.

(** * The text *)

Lemma decimal_sign neg n x : (decimal neg n x == if neg then - decimal false n x else decimal false n x)%Q.
Proof. unfold decimal. destruct neg; [|reflexivity]. rewrite inject_Z_opp. ring. Qed.
Lemma decimal_nonneg n x : (0 <= decimal false n x)%Q.
Proof. unfold decimal. apply Qmult_le_0_compat; [change 0%Q with (inject_Z 0); rewrite <- Zle_Qle; lia|]. apply Qlt_le_weak, power10_pos. Qed.
Lemma nearest_sign (neg : bool) n x v : (0 < v)%Q -> nearest (decimal neg n x) v -> neg = false.
Proof.
  intros P N. pose proof (positive_nearest _ _ N P) as Q. destruct neg; [|done]. exfalso. rewrite decimal_sign in Q.
  pose proof (decimal_nonneg n x). lra.
Qed.
Lemma taken_abs m e neg n x : m <> 0%Z -> representable (decimal neg n x) -> nearest (decimal neg n x) (inject_Z m * power2 e) ->
  neg = (m <? 0)%Z /\ taken (Z.abs m) e n x.
Proof.
  intros Hm R N. pose proof (power2_pos e) as P. destruct (Z.ltb_spec m 0) as [C|C].
  - assert (V : (- (inject_Z m * power2 e) == inject_Z (Z.abs m) * power2 e)%Q) by (rewrite Z.abs_neq, inject_Z_opp by lia; ring).
    assert (D : (- decimal neg n x == decimal (negb neg) n x)%Q) by (rewrite !(decimal_sign neg), (decimal_sign (negb neg)); destruct neg; cbn; ring).
    apply nearest_opp in N. apply (nearest_ext _ (decimal (negb neg) n x) _ (inject_Z (Z.abs m) * power2 e) D V) in N.
    assert (S : negb neg = false) by (eapply nearest_sign; [|exact N]; apply Qmult_lt_0_compat; [apply inject_pos; lia|done]).
    rewrite S in N, D. split; [by destruct neg|]. split; [|done]. unfold representable in *. rewrite <- D. by rewrite Qabs_opp.
  - rewrite Z.abs_eq by lia. assert (S : neg = false) by (eapply nearest_sign; [|exact N]; apply Qmult_lt_0_compat; [apply inject_pos; lia|done]).
    by subst neg.
Qed.
Theorem float_shortest m e t : m <> 0%Z -> json_float (FFin m e) = Some t ->
  exists k neg n x n0 x0, jnumber t neg n0 x0 /\ (decimal neg n0 x0 == decimal neg n x)%Q /\ n < 10 ^ k
  /\ forall neg' n' x', representable (decimal neg' n' x') -> nearest (decimal neg' n' x') (inject_Z m * power2 e) ->
     10 ^ (k - 1) <= n'
     /\ (n' < 10 ^ k -> (Qabs (decimal neg n x - inject_Z m * power2 e) <= Qabs (decimal neg' n' x' - inject_Z m * power2 e))%Q).
Proof.
  intros Hm. cbn [json_float]. destruct (Z.eqb_spec m 0) as [|_]; [done|]. cbv zeta. destruct (fraction (Z.abs m) e) as [num den].
  destruct (shortest (Z.abs m) e) as [[n x]|] eqn:S; [|done]. intros [= <-].
  destruct (shortest_reads (Z.abs m) e n x ltac:(lia) S) as [Hn _].
  destruct (shortest_shortest (Z.abs m) e n x ltac:(lia) S) as (k & Hk & Bn & Min & Near).
  destruct (float_text_number (m <? 0)%Z ((num * 2 ^ 72 <? den * 4722366482869645) || (den * 10 ^ 21 <=? num))%Z n x Hn) as (n0 & x0 & J & K).
  exists (Z.to_N k), (m <? 0)%Z, n, x, n0, x0. split; [exact J|].
  assert (P10 : forall z, (0 <= z)%Z -> Z.of_N (10 ^ Z.to_N z) = (10 ^ z)%Z) by (intros z Hz; rewrite N2Z.inj_pow, Z2N.id by done; reflexivity).
  split.
  { rewrite !(decimal_sign (m <? 0)%Z). assert (D : (decimal false n0 x0 == decimal false n x)%Q).
    { destruct K as [[-> ->]|(Hx & -> & ->)]; [reflexivity|]. unfold decimal. rewrite N2Z.inj_mul, P10, inject_Z_mult by done.
      rewrite <- power10_Z by done. change (power10 0) with 1%Q. ring. }
    destruct (m <? 0)%Z; rewrite D; reflexivity. }
  split; [apply N2Z.inj_lt; rewrite P10 by lia; done|]. intros neg' n' x' R N. destruct (taken_abs m e neg' n' x' Hm R N) as [-> Tk].
  split.
  - destruct (N.le_gt_cases (10 ^ (Z.to_N k - 1)) n') as [|C]; [done|]. exfalso. apply (Min n' x'); [|done].
    apply N2Z.inj_lt in C. replace (Z.to_N k - 1) with (Z.to_N (k - 1)) in C by lia. by rewrite P10 in C by lia.
  - intros B. apply N2Z.inj_lt in B. rewrite P10 in B by lia. specialize (Near n' x' B Tk).
    assert (X : forall n x, (Qabs (decimal (m <? 0)%Z n x - inject_Z m * power2 e) == Qabs (decimal false n x - inject_Z (Z.abs m) * power2 e))%Q).
    { intros n1 x1. destruct (Z.ltb_spec m 0).
      - rewrite (decimal_sign true), Z.abs_neq, inject_Z_opp by lia. rewrite <- Qabs_opp.
        assert (E : (- (- decimal false n1 x1 - inject_Z m * power2 e) == decimal false n1 x1 - - inject_Z m * power2 e)%Q) by ring.
        by rewrite E.
      - rewrite Z.abs_eq by lia. reflexivity. }
    rewrite !X. exact Near.
Qed.
Lemma marshal_one f s : json_marshal [VF64 f] = Ok s -> exists t, s = "[" ++ t ++ "]" /\ json_float f = Some t.
Proof.
  unfold json_marshal. cbn [forallb has_text]. destruct (json_float f) as [t|] eqn:E; [|done]. intros [= <-]. exists t. split; [|done].
  cbn [json_text map String.concat]. by rewrite E.
Qed.
Theorem written_shortest m e s : m <> 0%Z -> json_marshal [VF64 (FFin m e)] = Ok s ->
  exists t k neg n x n0 x0, s = "[" ++ t ++ "]" /\ jnumber t neg n0 x0 /\ (decimal neg n0 x0 == decimal neg n x)%Q /\ n < 10 ^ k
  /\ forall neg' n' x', representable (decimal neg' n' x') -> nearest (decimal neg' n' x') (inject_Z m * power2 e) ->
     10 ^ (k - 1) <= n'
     /\ (n' < 10 ^ k -> (Qabs (decimal neg n x - inject_Z m * power2 e) <= Qabs (decimal neg' n' x' - inject_Z m * power2 e))%Q).
Proof. intros Hm H. destruct (marshal_one _ _ H) as (t & -> & E). exists t. destruct (float_shortest m e t Hm E) as (k & neg & n & x & n0 & x0 & K). by exists k, neg, n, x, n0, x0. Qed.
