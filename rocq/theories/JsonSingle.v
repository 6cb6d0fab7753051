(** Proofs: the JSON text of a float32. *)
From Coq Require Import Ascii QArith Qabs Qpower Lqa.
From stdpp Require Import pretty.
From Verif Require Import Prelude Value BaseSpec WireSpec FloatSame PathMatch PathMatchSpec PathUtf8 Encoding EncodingFacts AuthSpec
  JsonSpec JsonFacts JsonSafe Payload Json JsonRound JsonGrammar JsonNumber JsonRead JsonTree JsonFloat JsonShortest.

Local Open Scope string_scope.
Local Open Scope N_scope.

(** * Significand and exponent *)

Definition canonical_single (m e : Z) : Prop := (0 < m < 2 ^ 24 /\ -149 <= e <= 104 /\ (2 ^ 23 <= m \/ e = -149))%Z.
Lemma pow2_le a b : (0 <= a <= b)%Z -> (2 ^ a <= 2 ^ b)%Z.
Proof. intros H. apply Z.pow_le_mono_r; lia. Qed.
Lemma single_form_spec a e m c : (0 < a)%Z -> single_form a e = Some (m, c) ->
  canonical_single m c /\ (inject_Z a * power2 e == inject_Z m * power2 c)%Q.
Proof.
  intros Ha. unfold single_form. cbv zeta. set (L := Z.log2 a). set (c0 := Z.max (L + e - 23) (-149)).
  pose proof (Z.log2_spec a Ha) as [L1 L2]. fold L in L1, L2. replace (Z.succ L) with (L + 1)%Z in L2 by lia.
  pose proof (Z.log2_nonneg a) as L0. fold L in L0. destruct (Z.ltb_spec 104 c0) as [|Hc]; [done|]. destruct (Z.leb_spec (c0 - e) 0) as [K|K].
  - intros [= <- <-]. split.
    + assert (P : (0 < 2 ^ (- (c0 - e)))%Z) by (apply Z.pow_pos_nonneg; lia). split; [split; [lia|]|split; [lia|]].
      * apply (Z.lt_le_trans _ (2 ^ (L + 1) * 2 ^ (- (c0 - e)))); [apply Z.mul_lt_mono_pos_r; done|].
        rewrite <- Z.pow_add_r by lia. apply pow2_le. lia.
      * destruct (Z.le_gt_cases (L + e - 23) (-149)); [right; lia|left].
        apply (Z.le_trans _ (2 ^ L * 2 ^ (- (c0 - e)))); [|apply Z.mul_le_mono_pos_r; done].
        rewrite <- Z.pow_add_r by lia. apply pow2_le. lia.
    + rewrite (power2_split e c0) by lia. replace (- (c0 - e))%Z with (e - c0)%Z by lia. rewrite inject_Z_mult. ring.
  - destruct (Z.eqb_spec (a mod 2 ^ (c0 - e)) 0) as [M|]; [|done]. intros [= <- <-].
    assert (P : (0 < 2 ^ (c0 - e))%Z) by (apply Z.pow_pos_nonneg; lia).
    pose proof (Z.div_mod a (2 ^ (c0 - e)) ltac:(lia)) as D. rewrite M, Z.add_0_r in D. set (q := (a / 2 ^ (c0 - e))%Z) in *. clearbody q.
    split.
    + split; [split; [nia|]|split; [lia|]].
      * destruct (Z.lt_ge_cases q (2 ^ 24)) as [|C]; [done|]. exfalso.
        assert (2 ^ (c0 - e + 24) <= a)%Z by (rewrite Z.pow_add_r by lia; rewrite D; apply Z.mul_le_mono_pos_l; lia).
        assert (2 ^ (L + 1) <= 2 ^ (c0 - e + 24))%Z by (apply pow2_le; lia). lia.
      * destruct (Z.le_gt_cases (L + e - 23) (-149)); [right; lia|left].
        destruct (Z.le_gt_cases (2 ^ 23) q) as [|C]; [done|]. exfalso.
        assert (a < 2 ^ (c0 - e) * 2 ^ 23)%Z by (rewrite D; apply Z.mul_lt_mono_pos_l; done).
        rewrite <- Z.pow_add_r in H0 by lia. replace (c0 - e + 23)%Z with L in H0 by lia. lia.
    + rewrite (power2_split c0 e) by lia. rewrite D at 1. rewrite inject_Z_mult. ring.
Qed.
Lemma single_form_found a e : (0 < a)%Z -> single (inject_Z a * power2 e) -> exists m c, single_form a e = Some (m, c).
Proof.
  intros Ha (m & c & Hm & Hc & E). unfold single_form. cbv zeta. set (L := Z.log2 a). set (c0 := Z.max (L + e - 23) (-149)).
  pose proof (Z.log2_spec a Ha) as [L1 L2]. fold L in L1, L2. pose proof (Z.log2_nonneg a) as L0. fold L in L0.
  assert (Pm : (0 < m)%Z).
  { destruct (Z.le_gt_cases m 0) as [C|]; [|done]. exfalso. pose proof (power2_pos c). pose proof (power2_pos e). pose proof (inject_pos a Ha).
    assert (0 < inject_Z a * power2 e)%Q by (apply Qmult_lt_0_compat; done). rewrite Zle_Qle in C. change (inject_Z 0) with 0%Q in C. nra. }
  pose proof (Z.log2_spec m Pm) as [M1 M2]. set (K := Z.log2 m) in *. pose proof (Z.log2_nonneg m) as M0. fold K in M0.
  assert (K23 : (K <= 23)%Z).
  { destruct (Z.le_gt_cases K 23); [done|]. exfalso. pose proof (pow2_le 24 K ltac:(lia)). lia. }
  (* the exponents of the first bits agree *)
  assert (LK : (L + e = K + c)%Z).
  { assert (X : forall a e m c L K, (0 <= L)%Z -> (0 <= K)%Z -> (2 ^ L <= a)%Z -> (m < 2 ^ Z.succ K)%Z -> (inject_Z a * power2 e == inject_Z m * power2 c)%Q -> (L + e <= K + c)%Z).
    { clear. intros a e m c L K L0 K0 L1 M2 E. destruct (Z.le_gt_cases (L + e) (K + c)) as [|C]; [done|]. exfalso.
      assert (A : (power2 (L + e) <= inject_Z a * power2 e)%Q).
      { rewrite (power2_split (L + e) e) by lia. apply Qmult_le_r; [apply power2_pos|]. rewrite <- Zle_Qle. replace (L + e - e)%Z with L by lia. done. }
      assert (B : (inject_Z m * power2 c < power2 (Z.succ K + c))%Q).
      { rewrite (power2_split (Z.succ K + c) c) by lia. apply Qmult_lt_r; [apply power2_pos|]. rewrite <- Zlt_Qlt. replace (Z.succ K + c - c)%Z with (Z.succ K) by lia. done. }
      pose proof (power2_mono (Z.succ K + c) (L + e) ltac:(lia)). lra. }
    pose proof (X a e m c L K L0 M0 L1 M2 E). assert (E' : (inject_Z m * power2 c == inject_Z a * power2 e)%Q) by (symmetry; exact E).
    pose proof (X m c a e K L M0 L0 M1 L2 E'). lia. }
  destruct (Z.ltb_spec 104 c0); [lia|]. destruct (Z.leb_spec (c0 - e) 0); [by eexists _, _|].
  destruct (Z.eqb_spec (a mod 2 ^ (c0 - e)) 0) as [|C]; [by eexists _, _|]. exfalso. apply C. apply Z.mod_divide; [apply Z.pow_nonzero; lia|].
  (* c0 <= c, so a = m * 2^(c-e) is a multiple *)
  assert (c0 <= c)%Z by lia. exists (m * 2 ^ (c - c0))%Z.
  assert (Ea : (inject_Z a == inject_Z (m * 2 ^ (c - e)))%Q).
  { rewrite (power2_split c e) in E by lia. rewrite inject_Z_mult. pose proof (power2_pos e). apply (Qmult_inj_r _ _ (power2 e)); [lra|].
    rewrite E. ring. }
  rewrite inject_Z_injective in Ea. rewrite Ea, <- Z.mul_assoc, <- Z.pow_add_r by lia. do 2 f_equal. lia.
Qed.

(** * Comparing *)

Lemma split_power10 x : (power10 x * inject_Z (10 ^ Z.max (- x) 0) == inject_Z (10 ^ Z.max x 0))%Q.
Proof. rewrite <- !power10_Z, <- power10_plus by lia. replace (x + Z.max (- x) 0)%Z with (Z.max x 0) by lia. reflexivity. Qed.
Lemma split_power2 s : (power2 s * inject_Z (2 ^ Z.max (- s) 0) == inject_Z (2 ^ Z.max s 0))%Q.
Proof.
  rewrite <- !power2_Z by lia. unfold power2. rewrite <- Qpower_plus by discriminate. replace (s + Z.max (- s) 0)%Z with (Z.max s 0) by lia. reflexivity.
Qed.
Lemma compare_decimal_spec n x c s :
  match compare_decimal n x c s with
  | Lt => (decimal false n x < inject_Z c * power2 s)%Q
  | Eq => (decimal false n x == inject_Z c * power2 s)%Q
  | Gt => (inject_Z c * power2 s < decimal false n x)%Q
  end.
Proof.
  set (F := (inject_Z (10 ^ Z.max (- x) 0) * inject_Z (2 ^ Z.max (- s) 0))%Q).
  assert (FP : (0 < F)%Q) by (apply Qmult_lt_0_compat; apply inject_pos, Z.pow_pos_nonneg; lia).
  set (A := (Z.of_N n * 10 ^ Z.max x 0 * 2 ^ Z.max (- s) 0)%Z). set (B := (c * 2 ^ Z.max s 0 * 10 ^ Z.max (- x) 0)%Z).
  assert (EA : (decimal false n x * F == inject_Z A)%Q).
  { unfold decimal, F, A. rewrite !inject_Z_mult, <- (split_power10 x). ring. }
  assert (EB : (inject_Z c * power2 s * F == inject_Z B)%Q).
  { unfold F, B. rewrite !inject_Z_mult, <- (split_power2 s). ring. }
  unfold compare_decimal. fold A B. destruct (Z.compare_spec A B) as [C|C|C].
  - apply (Qmult_inj_r _ _ F); [lra|]. rewrite EA, EB, C. reflexivity.
  - apply (Qmult_lt_r _ _ F FP). rewrite EA, EB. by rewrite <- Zlt_Qlt.
  - apply (Qmult_lt_r _ _ F FP). rewrite EA, EB. by rewrite <- Zlt_Qlt.
Qed.

(** * Neighbours *)

Definition low_gap (m e : Z) : Q := if (m =? 2 ^ 23)%Z && (-149 <? e)%Z then power2 (e - 1) else power2 e.
Lemma halved e : (power2 e == 2 * power2 (e - 1))%Q.
Proof. rewrite (power2_split e (e - 1)) by lia. replace (e - (e - 1))%Z with 1%Z by lia. reflexivity. Qed.
Lemma low_gap_bounds m e : (power2 (e - 1) <= low_gap m e <= power2 e)%Q.
Proof. unfold low_gap. pose proof (halved e). pose proof (power2_pos (e - 1)). destruct (_ && _); lra. Qed.
Lemma single_above m e w : canonical_single m e -> single w -> (inject_Z m * power2 e < w)%Q -> (inject_Z m * power2 e + power2 e <= w)%Q.
Proof.
  intros (Hm & He & Hc) (n & f & Hn & Hf & E) H. rewrite E in H |- *. pose proof (power2_pos e) as P. pose proof (power2_pos f) as P'.
  destruct (Z.le_gt_cases e f) as [C|C].
  - rewrite (power2_split f e C), Qmult_assoc, <- inject_Z_mult in H |- *. apply Qmult_lt_r in H; [|done]. rewrite <- Zlt_Qlt in H.
    assert (K : (inject_Z (m + 1) <= inject_Z (n * 2 ^ (f - e)))%Q) by (rewrite <- Zle_Qle; lia). rewrite inject_Z_plus in K. change (inject_Z 1) with 1%Q in K.
    apply (Qmult_le_compat_r _ _ (power2 e)) in K; lra.
  - exfalso. assert (2 ^ 23 <= m)%Z by lia. pose proof (power2_mono f (e - 1) ltac:(lia)) as M. pose proof (halved e) as Hv.
    assert (A : (8388608 <= inject_Z m)%Q) by (change 8388608%Q with (inject_Z (2 ^ 23)); by rewrite <- Zle_Qle).
    assert (B : (inject_Z n <= 16777216)%Q) by (change 16777216%Q with (inject_Z (2 ^ 24)); rewrite <- Zle_Qle; lia).
    assert (inject_Z n * power2 f <= 16777216 * power2 f)%Q by (apply Qmult_le_compat_r; lra).
    assert (8388608 * power2 e <= inject_Z m * power2 e)%Q by (apply Qmult_le_compat_r; lra). lra.
Qed.
Lemma single_below m e w : canonical_single m e -> single w -> (w < inject_Z m * power2 e)%Q -> (w <= inject_Z m * power2 e - low_gap m e)%Q.
Proof.
  intros (Hm & He & Hc) (n & f & Hn & Hf & E) H. rewrite E in H |- *. pose proof (power2_pos e) as P. pose proof (power2_pos f) as P'.
  pose proof (low_gap_bounds m e) as [G1 G2]. destruct (Z.le_gt_cases e f) as [C|C].
  - rewrite (power2_split f e C), Qmult_assoc, <- inject_Z_mult in H |- *. apply Qmult_lt_r in H; [|done]. rewrite <- Zlt_Qlt in H.
    assert (K : (inject_Z (n * 2 ^ (f - e) + 1) <= inject_Z m)%Q) by (rewrite <- Zle_Qle; lia). rewrite inject_Z_plus in K. change (inject_Z 1) with 1%Q in K.
    apply (Qmult_le_compat_r _ _ (power2 e)) in K; lra.
  - assert (2 ^ 23 <= m)%Z by lia. pose proof (power2_mono f (e - 1) ltac:(lia)) as M. pose proof (halved e) as Hv.
    assert (B : (inject_Z n <= 16777215)%Q) by (change 16777215%Q with (inject_Z (2 ^ 24 - 1)); rewrite <- Zle_Qle; lia).
    assert (inject_Z n * power2 f <= 16777215 * power2 f)%Q by (apply Qmult_le_compat_r; lra).
    unfold low_gap in *. destruct (Z.eqb_spec m (2 ^ 23)) as [->|Hne].
    + destruct (Z.ltb_spec (-149) e); [cbn [andb]|lia]. change (inject_Z (2 ^ 23)) with 8388608%Q. lra.
    + cbn [andb] in *. assert (A : (8388609 <= inject_Z m)%Q) by (change 8388609%Q with (inject_Z (2 ^ 23 + 1)); rewrite <- Zle_Qle; lia).
      assert (8388609 * power2 e <= inject_Z m * power2 e)%Q by (apply Qmult_le_compat_r; lra). lra.
Qed.

(** * What is read as a float32 *)

Lemma reads_as_single_spec m e n x : canonical_single m e ->
  let v := (inject_Z m * power2 e)%Q in let d := decimal false n x in
  reads_as_single m e (n, x) = true <->
  ((v - (1 # 2) * low_gap m e < d)%Q /\ (d < v + (1 # 2) * power2 e)%Q)
  \/ (Z.even m = true /\ (d == v - (1 # 2) * low_gap m e \/ d == v + (1 # 2) * power2 e)%Q).
Proof.
  intros Hc v d. unfold reads_as_single. cbv zeta. cbn [fst snd].
  pose proof (halved e) as H1. pose proof (halved (e - 1)) as H2. replace (e - 1 - 1)%Z with (e - 2)%Z in H2 by lia. pose proof (power2_pos (e - 2)) as P.
  assert (EU : (inject_Z (2 * m + 1) * power2 (e - 1) == v + (1 # 2) * power2 e)%Q).
  { unfold v. rewrite inject_Z_plus, inject_Z_mult. change (inject_Z 2) with 2%Q. change (inject_Z 1) with 1%Q. rewrite H1. ring. }
  set (low := if (m =? 2 ^ 23)%Z && (-149 <? e)%Z then (4 * m - 1, e - 2)%Z else (2 * m - 1, e - 1)%Z).
  assert (EL : (inject_Z (fst low) * power2 (snd low) == v - (1 # 2) * low_gap m e)%Q).
  { unfold low, low_gap, v. destruct (_ && _); cbn [fst snd].
    - replace (4 * m - 1)%Z with (4 * m + -1)%Z by lia. rewrite inject_Z_plus, inject_Z_mult.
      change (inject_Z 4) with 4%Q. change (inject_Z (-1)) with (-1)%Q. rewrite H1, H2. ring.
    - replace (2 * m - 1)%Z with (2 * m + -1)%Z by lia. rewrite inject_Z_plus, inject_Z_mult.
      change (inject_Z 2) with 2%Q. change (inject_Z (-1)) with (-1)%Q. rewrite H1. ring. }
  pose proof (compare_decimal_spec n x (fst low) (snd low)) as CL. pose proof (compare_decimal_spec n x (2 * m + 1) (e - 1)) as CU. fold d in CL, CU.
  pose proof (low_gap_bounds m e) as [G1 G2].
  set (lo := (v - (1 # 2) * low_gap m e)%Q) in *. set (hi := (v + (1 # 2) * power2 e)%Q) in *.
  assert (LH : (lo < hi)%Q) by (unfold lo, hi; lra).
  destruct (compare_decimal n x (fst low) (snd low)), (compare_decimal n x (2 * m + 1) (e - 1)); rewrite EL in CL; rewrite EU in CU; clear EL EU;
    (split; [intros K; try discriminate K; first [left; split; lra|right; split; [exact K|first [left; lra|right; lra]]]
            |intros [[K1 K2]|[K1 [K2|K2]]]; try reflexivity; try exact K1; exfalso; lra]).
Qed.
Lemma even_m_single m e : canonical_single m e -> Z.even m = true -> even_single (inject_Z m * power2 e).
Proof. intros (Hm & He & Hc) E. exists m, e. split; [done|]. split; [lia|]. split; [done|]. split; [lia|]. reflexivity. Qed.
Lemma canonical_is_single m e : canonical_single m e -> single (inject_Z m * power2 e).
Proof. intros (Hm & He & _). exists m, e. split; [lia|]. split; [done|]. reflexivity. Qed.
Lemma single_nearest m e d : canonical_single m e ->
  let v := (inject_Z m * power2 e)%Q in
  ((v - (1 # 2) * low_gap m e < d)%Q /\ (d < v + (1 # 2) * power2 e)%Q)
  \/ (Z.even m = true /\ (d == v - (1 # 2) * low_gap m e \/ d == v + (1 # 2) * power2 e)%Q) -> nearest_single d v.
Proof.
  intros Hc v H. pose proof (low_gap_bounds m e) as [G1 G2]. pose proof (power2_pos (e - 1)) as P. pose proof (halved e) as Hv.
  assert (X : forall w, single w -> (w == v)%Q \/ (v + power2 e <= w)%Q \/ (w <= v - low_gap m e)%Q).
  { intros w Hw. destruct (Q_dec w v) as [[C|C]|C]; [right; right; by apply single_below|right; left; by apply single_above|by left]. }
  split; [by apply canonical_is_single|]. split.
  - intros w Hw. destruct (X w Hw) as [E|[E|E]]; destruct H as [[? ?]|[_ [?|?]]]; abs_lra.
  - intros w Hw E. destruct H as [[? ?]|[Ev _]]; [|right; by apply even_m_single].
    left. destruct (X w Hw) as [K|[K|K]]; [done|exfalso; abs_lra|exfalso; abs_lra].
Qed.

(** * Nine digits are enough *)

Lemma close_reads_single m e n x : canonical_single m e ->
  (Qabs (decimal false n x - inject_Z m * power2 e) < (1 # 4) * power2 e)%Q -> reads_as_single m e (n, x) = true.
Proof.
  intros Hc H. apply reads_as_single_spec; [done|]. left. pose proof (low_gap_bounds m e) as [G1 G2]. pose proof (halved e). split; abs_lra.
Qed.
Lemma enough_digits (ok : N * Z -> bool) num den dp k : (0 < num)%Z -> (0 < den)%Z -> (1 <= k)%Z ->
  (power10 (dp - 1) <= inject_Z num / inject_Z den)%Q -> (inject_Z num / inject_Z den < power10 dp)%Q ->
  (forall n x, (Qabs (decimal false n x - inject_Z num / inject_Z den) <= (1 # 2) * power10 (dp - k))%Q -> ok (n, x) = true) ->
  ok (fst (down_up num den dp k)) = true \/ ok (snd (down_up num den dp k)) = true.
Proof.
  intros Hn Hd Hk Lo Hi H. destruct (neighbours num den dp k Hn Hd Hk Lo Hi) as (q & a & b & _ & _ & _ & _ & Ed & Eu & Ld & Lu & _).
  destruct (down_up num den dp k) as [[dn dx] [un ux]]. cbn [fst snd] in *. pose proof (power10_pos (dp - k)) as T.
  rewrite inject_Z_plus in Eu, Lu. change (inject_Z 1) with 1%Q in Eu, Lu. set (t := power10 (dp - k)) in *. set (v := (inject_Z num / inject_Z den)%Q) in *. clearbody t v.
  destruct (Qlt_le_dec (v - inject_Z q * t) ((1 # 2) * t)); [left|right]; apply H; [abs_lra|].
  assert ((inject_Z q + 1) * t == inject_Z q * t + t)%Q by ring. abs_lra.
Qed.
Lemma found_by (ok : N * Z -> bool) num den dp fuel : forall n, 
  ok (fst (down_up num den dp (n + Z.of_nat fuel))) = true \/ ok (snd (down_up num den dp (n + Z.of_nat fuel))) = true ->
  exists nx, shortest_from (S fuel) ok num den dp n = Some nx.
Proof.
  induction fuel as [|fuel IH]; intros n H.
  - replace (n + Z.of_nat 0)%Z with n in H by lia. revert H. unfold down_up. cbn [shortest_from]. cbv zeta.
    destruct (if (0 <=? dp - n)%Z then _ else _) as [a b]. cbn [fst snd]. intros H.
    do 2 match goal with |- context [match ok ?d with _ => _ end] => destruct (ok d) end; try (by eexists). by destruct H.
  - specialize (IH (n + 1)%Z). replace (n + 1 + Z.of_nat fuel)%Z with (n + Z.of_nat (S fuel))%Z in IH by lia. specialize (IH H).
    destruct IH as [nx IH]. remember (S fuel) as g eqn:Eg. cbn [shortest_from]. cbv zeta. destruct (if (0 <=? dp - n)%Z then _ else _) as [a b].
    do 2 match goal with |- context [match ok ?d with _ => _ end] => destruct (ok d) end; eauto.
Qed.
Lemma found_ok (ok : N * Z -> bool) num den dp fuel : forall n nx, shortest_from fuel ok num den dp n = Some nx -> ok nx = true.
Proof.
  induction fuel as [|fuel IH]; intros n nx; [done|]. cbn [shortest_from]. cbv zeta. destruct (if (0 <=? dp - n)%Z then _ else _) as [a b].
  match goal with |- context [ok ?d] => destruct (ok d) eqn:D end; match goal with |- context [match ok ?u with _ => _ end] => destruct (ok u) eqn:U end;
    try (by intros [= <-]); [|apply IH]. intros [= <-]. by destruct (_ || _).
Qed.
Lemma nine_enough m e num den : canonical_single m e -> fraction m e = (num, den) ->
  exists n x, shortest_of 9 (reads_as_single m e) num den = Some (n, x).
Proof.
  intros Hc F. pose proof Hc as (Hm & He & _). destruct (fraction_value m e num den ltac:(lia) F) as (Hn & Hd & Ev).
  destruct (point_bounds num den Hn Hd) as [Lo Hi]. rewrite shortest_of_eq. set (dp := point num den) in *. clearbody dp.
  destruct (found_by (reads_as_single m e) num den dp 8 1) as [[n x] E]; [|by exists n, x].
  change (1 + Z.of_nat 8)%Z with 9%Z. apply enough_digits; [done..|]. intros n x H. apply close_reads_single; [done|].
  rewrite <- Ev in H. eapply Qle_lt_trans; [exact H|]. rewrite <- Ev in Lo. replace (dp - 1)%Z with (8 + (dp - 9))%Z in Lo by lia.
  rewrite power10_plus in Lo. change (power10 8) with 100000000%Q in Lo. pose proof (power10_pos (dp - 9)). pose proof (power2_pos e).
  assert (B : (inject_Z m <= 16777216)%Q) by (change 16777216%Q with (inject_Z (2 ^ 24)); rewrite <- Zle_Qle; lia).
  assert (inject_Z m * power2 e <= 16777216 * power2 e)%Q by (apply Qmult_le_compat_r; lra). lra.
Qed.
Lemma shortest_single_reads m e num den n x : canonical_single m e -> shortest_of 9 (reads_as_single m e) num den = Some (n, x) ->
  0 < n /\ nearest_single (decimal false n x) (inject_Z m * power2 e)
  /\ (inject_Z m * power2 e - (1 # 2) * low_gap m e <= decimal false n x <= inject_Z m * power2 e + (1 # 2) * power2 e)%Q.
Proof.
  intros Hc E. rewrite shortest_of_eq in E. apply found_ok in E. apply reads_as_single_spec in E; [|done]. pose proof (low_gap_bounds m e) as [G1 G2].
  pose proof (halved e). pose proof (power2_pos (e - 1)). split; [|split; [by apply single_nearest|destruct E as [[? ?]|[_ [?|?]]]; lra]].
  destruct (N.eq_dec n 0) as [->|]; [|lia]. exfalso. destruct Hc as (Hm & _ & _).
  assert (D : (decimal false 0 x == 0)%Q) by (unfold decimal; change (inject_Z (Z.of_N 0)) with 0%Q; ring).
  assert (1 <= inject_Z m)%Q by (change 1%Q with (inject_Z 1); rewrite <- Zle_Qle; lia).
  assert (1 * power2 e <= inject_Z m * power2 e)%Q by (apply Qmult_le_compat_r; lra). destruct E as [[? ?]|[_ [?|?]]]; lra.
Qed.

(** * The text *)

Lemma nearest_single_ext q q' v v' : (q == q')%Q -> (v == v')%Q -> nearest_single q v -> nearest_single q' v'.
Proof.
  intros Eq E ((m & e & Hd & Hm & He) & Hn & Ht). split; [|split].
  - exists m, e. split; [done|]. split; [done|]. by rewrite <- E.
  - intros u Hu. rewrite <- E, <- Eq. by apply Hn.
  - intros u Hu Eu. assert (Eu' : (Qabs (u - q) == Qabs (v - q))%Q) by (rewrite Eq, Eu, E; reflexivity).
    destruct (Ht u Hu Eu') as [K|(m' & e' & ? & ? & ? & ? & E')]; [left; by rewrite K|].
    right. exists m', e'. repeat (split; [done|]). by rewrite <- E.
Qed.
Lemma single_opp w : single w -> single (- w).
Proof. intros (m & e & Hm & He & E). exists (- m)%Z, e. split; [lia|]. split; [done|]. rewrite E, inject_Z_opp. ring. Qed.
Lemma abs_flip a b : (Qabs (- a - - b) == Qabs (a - b))%Q.
Proof. rewrite <- (Qabs_opp (a - b)). assert (- a - - b == - (a - b))%Q as -> by ring. reflexivity. Qed.
Lemma nearest_single_opp q v : nearest_single q v -> nearest_single (- q) (- v).
Proof.
  intros (Hv & Hn & Ht). split; [by apply single_opp|]. split.
  - intros w Hw. pose proof (Hn (- w)%Q (single_opp w Hw)) as H. rewrite <- (abs_flip v q) in H.
    rewrite <- (abs_flip (- w) q) in H. assert (E : (- - w - - q == w - - q)%Q) by ring. by rewrite E in H.
  - intros w Hw E. destruct (Ht (- w)%Q (single_opp w Hw)) as [K|(m & e & H1 & H2 & H3 & H4 & H5)].
    + rewrite <- (abs_flip v q), <- E, <- (abs_flip (- w) q). assert (X : (- - w - - q == w - - q)%Q) by ring. by rewrite X.
    + left. rewrite <- K. ring.
    + right. exists (- m)%Z, e. split; [by rewrite Z.even_opp|]. split; [lia|]. split; [done|]. split; [lia|]. rewrite H5, inject_Z_opp. ring.
Qed.

Lemma same_zero m e : m = 0%Z -> (inject_Z m * power2 e == 0)%Q.
Proof. intros ->. ring. Qed.
(** What the text of a float32 says; and between which float64s. *)
Lemma single_text_bounds f t : json_float32 f = Some t -> exists m e neg n x, f = FFin m e /\ jnumber t neg n x
  /\ nearest_single (decimal neg n x) (inject_Z m * power2 e)
  /\ exists lo hi, double lo /\ double hi /\ (lo <= decimal neg n x <= hi)%Q /\ (lo <= inject_Z m * power2 e <= hi)%Q
     /\ forall w g, single w -> (lo <= g <= hi)%Q -> (Qabs (inject_Z m * power2 e - g) <= Qabs (w - g))%Q.
Proof.
  destruct f as [m e| |]; [|done..]. cbn [json_float32]. destruct (Z.eqb_spec m 0) as [->|Hm].
  { intros [= <-]. exists 0%Z, e, false, 0, 0%Z. split; [done|]. split; [exact (natural_number false 0 (or_intror eq_refl))|].
    assert (Z0 : (inject_Z 0 * power2 e == 0)%Q) by ring. assert (D0 : (decimal false 0 0 == 0)%Q) by reflexivity.
    assert (S0 : single 0) by (exists 0%Z, 0%Z; split; [done|]; split; [done|]; reflexivity).
    assert (N0 : nearest_single 0 0).
    { split; [done|]. split; [intros w _; abs_lra|]. intros w _ E. left. abs_lra. }
    split; [exact (nearest_single_ext 0 _ 0 _ (Qeq_sym _ _ D0) (Qeq_sym _ _ Z0) N0)|].
    exists 0%Q, 0%Q. split; [apply double_zero|]. split; [apply double_zero|]. rewrite D0, Z0. split; [lra|]. split; [lra|].
    intros w g _ [? ?]. rewrite Z0. abs_lra. }
  destruct (single_form (Z.abs m) e) as [[a c]|] eqn:F; [|done]. destruct (single_form_spec (Z.abs m) e a c ltac:(lia) F) as [Hc Ev].
  destruct (fraction a c) as [num den] eqn:Fr. destruct (shortest_of 9 (reads_as_single a c) num den) as [[n x]|] eqn:S; [|done]. intros [= <-].
  destruct (shortest_single_reads a c num den n x Hc S) as (Hn & Near & Lo & Hi).
  destruct (float_text_number (m <? 0)%Z ((num * 2 ^ 43 <? den * 8796093) || (den * 14210855 * 2 ^ 46 <=? num))%Z n x Hn) as (n0 & x0 & J & K).
  assert (D : (decimal false n0 x0 == decimal false n x)%Q).
  { destruct K as [[-> ->]|(Hx & -> & ->)]; [reflexivity|]. unfold decimal. rewrite N2Z.inj_mul, N2Z.inj_pow, Z2N.id, inject_Z_mult by done.
    rewrite <- power10_Z by done. change (power10 0) with 1%Q. ring. }
  exists m, e, (m <? 0)%Z, n0, x0. split; [done|]. split; [exact J|].
  pose proof (low_gap_bounds a c) as [G1 G2]. pose proof (halved c) as H2. pose proof (power2_pos (c - 1)) as P. pose proof Hc as (Ha & Hcc & _).
  set (v := (inject_Z a * power2 c)%Q) in *. set (lo := (v - (1 # 2) * low_gap a c)%Q) in *. set (hi := (v + (1 # 2) * power2 c)%Q) in *.
  assert (Dlo : double lo).
  { unfold lo, v, low_gap. destruct (_ && _).
    - exists (4 * a - 1)%Z, (c - 2)%Z. split; [lia|]. split; [lia|]. replace (4 * a - 1)%Z with (4 * a + -1)%Z by lia. rewrite inject_Z_plus, inject_Z_mult.
      change (inject_Z 4) with 4%Q. change (inject_Z (-1)) with (-1)%Q. rewrite H2. pose proof (halved (c - 1)) as H3. replace (c - 1 - 1)%Z with (c - 2)%Z in H3 by lia. rewrite H3. ring.
    - exists (2 * a - 1)%Z, (c - 1)%Z. split; [lia|]. split; [lia|]. replace (2 * a - 1)%Z with (2 * a + -1)%Z by lia. rewrite inject_Z_plus, inject_Z_mult.
      change (inject_Z 2) with 2%Q. change (inject_Z (-1)) with (-1)%Q. rewrite H2. ring. }
  assert (Dhi : double hi).
  { unfold hi, v. exists (2 * a + 1)%Z, (c - 1)%Z. split; [lia|]. split; [lia|]. rewrite inject_Z_plus, inject_Z_mult.
    change (inject_Z 2) with 2%Q. change (inject_Z 1) with 1%Q. rewrite H2. ring. }
  assert (No : forall w g, single w -> (lo <= g <= hi)%Q -> (Qabs (v - g) <= Qabs (w - g))%Q).
  { intros w g Hw [? ?]. unfold lo, hi in *. clear Dlo Dhi Lo Hi. destruct (Q_dec w v) as [[C|C]|C].
    - pose proof (single_below a c w Hc Hw C). fold v in H1. abs_lra.
    - pose proof (single_above a c w Hc Hw C). fold v in H1. abs_lra.
    - abs_lra. }
  assert (LV : (lo <= v <= hi)%Q) by (unfold lo, hi; lra).
  destruct (Z.ltb_spec m 0) as [C|C].
  - assert (V : (- v == inject_Z m * power2 e)%Q) by (rewrite <- Ev, Z.abs_neq, inject_Z_opp by lia; ring).
    assert (Dn : (decimal true n0 x0 == - decimal false n x)%Q) by (rewrite decimal_sign, D; reflexivity).
    split; [exact (nearest_single_ext _ _ _ _ (Qeq_sym _ _ Dn) V (nearest_single_opp _ _ Near))|].
    assert (Dop : forall d, double d -> double (- d)).
    { intros d (m' & e' & Hm' & He' & E'). exists (- m')%Z, e'. split; [lia|]. split; [done|]. rewrite E', inject_Z_opp. ring. }
    exists (- hi)%Q, (- lo)%Q. split; [by apply Dop|]. split; [by apply Dop|]. split; [rewrite Dn; lra|]. split; [rewrite <- V; lra|].
    intros w g Hw Hg. rewrite <- V. pose proof (No (- w)%Q (- g)%Q (single_opp w Hw) ltac:(lra)) as X. rewrite (abs_flip w g) in X.
    assert (Y : (Qabs (- v - g) == Qabs (v - - g))%Q) by (rewrite <- (abs_flip v (- g)); assert (- v - - - g == - v - g)%Q as -> by ring; reflexivity).
    by rewrite Y.
  - assert (V : (v == inject_Z m * power2 e)%Q) by (rewrite <- Ev, Z.abs_eq by lia; reflexivity).
    split; [exact (nearest_single_ext _ _ _ _ (Qeq_sym _ _ D) V Near)|]. exists lo, hi. split; [done|]. split; [done|]. split; [rewrite D; lra|].
    split; [rewrite <- V; lra|]. intros w g Hw Hg. rewrite <- V. by apply No.
Qed.
Lemma double_representable d : double d -> representable d.
Proof. intros H. apply (representable_between 0 d d); [by vm_compute|done|]. destruct (Qlt_le_dec d 0); [right|left]; lra. Qed.
Lemma representable_in lo q hi : double lo -> double hi -> (lo <= q <= hi)%Q -> representable q.
Proof. intros L H B. pose proof (double_representable hi H) as R. apply (representable_between hi q lo R L). by right. Qed.
Theorem single_text f t : json_float32 f = Some t -> exists m e neg n x, f = FFin m e /\ jnumber t neg n x
  /\ representable (decimal neg n x) /\ nearest_single (decimal neg n x) (inject_Z m * power2 e).
Proof.
  intros E. destruct (single_text_bounds f t E) as (m & e & neg & n & x & -> & J & N & lo & hi & Dl & Dh & B & _).
  exists m, e, neg, n, x. split; [done|]. split; [done|]. split; [exact (representable_in lo _ hi Dl Dh B)|done].
Qed.
Theorem single_has_text f : float32 f -> exists t, json_float32 f = Some t.
Proof.
  intros H. destruct f as [m e| |]; [|destruct H as (? & ? & [] & _)..]. cbn [json_float32].
  destruct (Z.eqb_spec m 0) as [|Hm0]; [by eexists|]. destruct H as (m' & e' & S & H1 & H2). apply same_value in S.
  destruct (single_form_found (Z.abs m) e ltac:(lia)) as (a & c & F).
  { exists (Z.abs m'), e'. split; [lia|]. split; [done|]. pose proof (power2_pos e). pose proof (power2_pos e').
    assert (A : forall k p, (0 < p)%Q -> (inject_Z (Z.abs k) * p == Qabs (inject_Z k * p))%Q).
    { intros k p Hp. rewrite Qabs_Qmult, (Qabs_pos p) by lra. reflexivity. }
    rewrite !A by done. by rewrite S. }
  rewrite F. destruct (single_form_spec (Z.abs m) e a c ltac:(lia) F) as [Hc _]. destruct (fraction a c) as [num den] eqn:Fr.
  destruct (nine_enough a c num den Hc Fr) as (n & x & ->). by eexists.
Qed.

(** * On arrival *)

Lemma marshal_single f s : json_marshal [VF32 f] = Ok s -> exists t, s = "[" ++ t ++ "]" /\ json_float32 f = Some t.
Proof.
  unfold json_marshal. cbn [forallb has_text]. destruct (json_float32 f) as [t|] eqn:E; [|done]. intros [= <-]. exists t. split; [|done].
  cbn [json_text map String.concat]. by rewrite E.
Qed.
Theorem single_marshals f : float32 f -> exists s, json_marshal [VF32 f] = Ok s.
Proof.
  intros H. destruct (single_has_text f H) as [t E]. unfold json_marshal. cbn [forallb has_text]. rewrite E. by eexists.
Qed.
Theorem single_refused f : (exists neg, f = FInf neg) \/ f = FNaN -> exists e, json_marshal [VF32 f] = Err e.
Proof. intros [[neg ->]| ->]; eexists; reflexivity. Qed.
(** No float32 is nearer to the float64 that arrives. *)
Theorem single_arrives f s : json_marshal [VF32 f] = Ok s -> exists m e m' e', f = FFin m e /\ json_unmarshal s = Ok (Some [VF64 (FFin m' e')])
  /\ forall w, single w -> (Qabs (inject_Z m * power2 e - inject_Z m' * power2 e') <= Qabs (w - inject_Z m' * power2 e'))%Q.
Proof.
  intros H. destruct (marshal_single f s H) as (t & -> & E).
  destruct (single_text_bounds f t E) as (m & e & neg & n & x & -> & J & N & lo & hi & Dl & Dh & B & V & No).
  pose proof (unmarshal_number t neg n x J) as U. destruct (json_unmarshal ("[" ++ t ++ "]")) as [l| |].
  - destruct U as (g & -> & m' & e' & -> & R & (_ & Nr & _)). exists m, e, m', e'. split; [done|]. split; [done|].
    intros w Hw. apply No; [done|]. pose proof (Nr lo Dl). pose proof (Nr hi Dh). split; abs_lra.
  - destruct U. exact (representable_in lo _ hi Dl Dh B).
  - done.
Qed.
