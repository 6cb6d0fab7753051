(** Proofs: [nearest_float] is the float64 nearest to a fraction. *)
From Coq Require Import QArith Qabs Qpower Lqa.
From Verif Require Import Prelude Value Json JsonGrammar.

Lemma power2_pos e : (0 < power2 e)%Q.
Proof. apply Qpower_0_lt. reflexivity. Qed.
Lemma power2_plus a b : (power2 (a + b) == power2 a * power2 b)%Q.
Proof. apply Qpower_plus. discriminate. Qed.
Lemma power2_Z e : (0 <= e)%Z -> (power2 e == inject_Z (2 ^ e))%Q.
Proof. intros H. unfold power2. rewrite Zpower_Qpower by done. reflexivity. Qed.

Lemma positive_nonzero (x : Q) : (0 < x)%Q -> ~ (x == 0)%Q.
Proof. intros H E. rewrite E in H. discriminate H. Qed.

Section ROUND.
  Local Open Scope Z_scope.
  Context (a b : Z) (Hb : 0 < b) (Ha : 0 <= a).
  Definition rounded : Z := let q := a / b in let r := 2 * (a mod b) in
    if (b <? r) || ((r =? b) && Z.odd q) then q + 1 else q.
  Lemma rounded_near : a / b <= rounded <= a / b + 1 /\ 2 * Z.abs (rounded * b - a) <= b
    /\ (2 * Z.abs (rounded * b - a) = b -> Z.even rounded = true).
  Proof.
    unfold rounded. pose proof (Z.div_mod a b ltac:(lia)) as E. pose proof (Z.mod_pos_bound a b Hb) as R.
    set (q := a / b) in *. set (r := a mod b) in *. clearbody q r. cbv zeta.
    assert (P0 : q * b - a = - r) by lia. assert (P1 : (q + 1) * b - a = b - r) by lia.
    destruct (Z.ltb_spec b (2 * r)); cbn [orb]; [rewrite P1; repeat split; lia|].
    destruct (Z.eqb_spec (2 * r) b); cbn [andb].
    - destruct (Z.odd q) eqn:O.
      + rewrite P1. repeat split; try lia. intros _. rewrite Z.even_add, <- Z.negb_odd, O. done.
      + rewrite P0. repeat split; try lia. intros _. by rewrite <- Z.negb_odd, O.
    - rewrite P0. repeat split; lia.
  Qed.
  (** No integer is nearer, and neither is anything below the integer part. *)
  Lemma rounded_integer j : Z.abs (rounded * b - a) <= Z.abs (j * b - a).
  Proof.
    destruct rounded_near as (_ & H & _). destruct (Z.lt_trichotomy j rounded) as [C|[->|C]]; [|lia|].
    - assert (1 * b <= (rounded - j) * b) by (apply Z.mul_le_mono_nonneg_r; lia). lia.
    - assert (1 * b <= (j - rounded) * b) by (apply Z.mul_le_mono_nonneg_r; lia). lia.
  Qed.
  Lemma rounded_tie j : Z.abs (rounded * b - a) = Z.abs (j * b - a) -> j = rounded \/ Z.even rounded = true.
  Proof.
    destruct rounded_near as (_ & H & H2). intros E. destruct (Z.lt_trichotomy j rounded) as [C|[->|C]]; [|by left|]; right; apply H2.
    - assert (1 * b <= (rounded - j) * b) by (apply Z.mul_le_mono_nonneg_r; lia). lia.
    - assert (1 * b <= (j - rounded) * b) by (apply Z.mul_le_mono_nonneg_r; lia). lia.
  Qed.
  Lemma rounded_floor : Z.abs (rounded * b - a) <= a - (a / b) * b.
  Proof. pose proof (rounded_integer (a / b)). pose proof (Z.mul_div_le a b Hb). lia. Qed.
End ROUND.

(** Distances, in units of [u / b]. *)
Lemma distance a b u j : (0 < b)%Z -> (0 < u)%Q ->
  (Qabs (inject_Z j * u - inject_Z a / inject_Z b * u) == inject_Z (Z.abs (j * b - a)) * (u / inject_Z b))%Q.
Proof.
  intros Hb Hu. assert (B : (0 < inject_Z b)%Q) by (change 0%Q with (inject_Z 0); by rewrite <- Zlt_Qlt).
  assert (E : (inject_Z j * u - inject_Z a / inject_Z b * u == inject_Z (j * b - a) * (u / inject_Z b))%Q).
  { unfold Zminus. rewrite inject_Z_plus, inject_Z_opp, inject_Z_mult. field. intros C. rewrite C in B. discriminate B. }
  rewrite E, Qabs_Qmult. apply Qmult_comp; [reflexivity|].
  apply Qabs_pos. apply Qlt_le_weak, Qlt_shift_div_l; [done|]. by rewrite Qmult_0_l.
Qed.

(** The heart: rounding [a / b * 2^k] to a multiple of [2^k] gives the nearest double. *)
Lemma rounded_nearest a b k : (0 < b)%Z -> (0 <= a)%Z -> (-1074 <= k <= 971)%Z ->
  (a / b < 2 ^ 53)%Z -> (2 ^ 52 <= a / b \/ k = -1074)%Z -> (rounded a b = 2 ^ 53 -> k < 971)%Z ->
  nearest (inject_Z a / inject_Z b * power2 k) (inject_Z (rounded a b) * power2 k).
Proof.
  intros Hb Ha Hk H53 H52 Htop. pose proof (power2_pos k) as U.
  assert (B : (0 < inject_Z b)%Q) by (change 0%Q with (inject_Z 0); by rewrite <- Zlt_Qlt).
  assert (V : (0 < power2 k / inject_Z b)%Q). { apply Qlt_shift_div_l; [done|]. by rewrite Qmult_0_l. }
  destruct (rounded_near a b Hb) as (R1 & R2 & R3).
  assert (Hq : (0 <= a / b)%Z) by (apply Z.div_pos; lia).
  assert (Split : forall w, double w -> (exists j, w == inject_Z j * power2 k)%Q
     \/ ((2 ^ 52 <= a / b)%Z /\ w < inject_Z (2 ^ 52) * power2 k)%Q).
  { intros w (m & e & Hm & He & E). destruct (Z.le_gt_cases k e) as [C|C].
    - left. exists (m * 2 ^ (e - k))%Z. rewrite E. replace e with ((e - k) + k)%Z at 1 by lia.
      rewrite power2_plus, inject_Z_mult, (power2_Z (e - k)) by lia. ring.
    - right. split; [lia|]. rewrite E. replace k with ((k - e - 1) + (1 + e))%Z by lia. rewrite !power2_plus.
      rewrite (power2_Z (k - e - 1)), (power2_Z 1) by lia.
      assert (P : (1 <= inject_Z (2 ^ (k - e - 1)))%Q).
      { change 1%Q with (inject_Z 1). rewrite <- Zle_Qle. change 1%Z with (2 ^ 0)%Z. apply Z.pow_le_mono_r; lia. }
      pose proof (power2_pos e) as U'.
      assert (M : (inject_Z m < inject_Z (2 ^ 53))%Q) by (rewrite <- Zlt_Qlt; lia).
      apply (Qlt_le_trans _ (inject_Z (2 ^ 53) * power2 e)); [by apply Qmult_lt_r|].
      setoid_replace (inject_Z (2 ^ 52) * (inject_Z (2 ^ (k - e - 1)) * (inject_Z (2 ^ 1) * power2 e)))%Q
        with (inject_Z (2 ^ (k - e - 1)) * (inject_Z (2 ^ 53) * power2 e))%Q.
      2:{ change (2 ^ 53)%Z with (2 ^ 52 * 2 ^ 1)%Z. rewrite (inject_Z_mult (2 ^ 52) (2 ^ 1)). ring. }
      rewrite <- (Qmult_1_l (inject_Z (2 ^ 53) * power2 e)) at 1.
      apply Qmult_le_compat_r; [done|]. apply Qlt_le_weak, Qmult_lt_0_compat; [reflexivity|done]. }
  (* numbers below the integer part are farther away *)
  assert (Far : forall w, (2 ^ 52 <= a / b)%Z -> (w < inject_Z (2 ^ 52) * power2 k)%Q ->
     (Qabs (inject_Z (rounded a b) * power2 k - inject_Z a / inject_Z b * power2 k)
      < Qabs (w - inject_Z a / inject_Z b * power2 k))%Q).
  { intros w C L. rewrite distance by done.
    apply (Qle_lt_trans _ (inject_Z (a - a / b * b) * (power2 k / inject_Z b))).
    { apply Qmult_le_compat_r; [|by apply Qlt_le_weak]. rewrite <- Zle_Qle. apply rounded_floor; lia. }
    apply (Qlt_le_trans _ (inject_Z a / inject_Z b * power2 k - w)).
    2:{ setoid_replace (w - inject_Z a / inject_Z b * power2 k)%Q with (- (inject_Z a / inject_Z b * power2 k - w))%Q by ring.
        rewrite Qabs_opp. apply Qle_Qabs. }
    assert (E : (inject_Z (a - a / b * b) * (power2 k / inject_Z b)
                 == inject_Z a / inject_Z b * power2 k - inject_Z (a / b) * power2 k)%Q).
    { unfold Zminus. rewrite inject_Z_plus, inject_Z_opp, inject_Z_mult. field. intros D. rewrite D in B. discriminate B. }
    rewrite E. assert (inject_Z (2 ^ 52) * power2 k <= inject_Z (a / b) * power2 k)%Q.
    { apply Qmult_le_compat_r; [by rewrite <- Zle_Qle|by apply Qlt_le_weak]. }
    lra. }
  split; [|split].
  - (* a double *)
    destruct (Z.eq_dec (rounded a b) (2 ^ 53)) as [E|E].
    + exists (2 ^ 52)%Z, (k + 1)%Z. split; [done|]. split; [specialize (Htop E); lia|]. rewrite E, power2_plus, (power2_Z 1) by lia.
      change (2 ^ 53)%Z with (2 ^ 52 * 2 ^ 1)%Z. rewrite (inject_Z_mult (2 ^ 52) (2 ^ 1)). ring.
    + exists (rounded a b), k. split; [lia|]. split; [lia|]. reflexivity.
  - intros w Hw. destruct (Split w Hw) as [[j Ej]|[C L]].
    + rewrite Ej, !distance by done. apply Qmult_le_compat_r; [|by apply Qlt_le_weak]. rewrite <- Zle_Qle. by apply rounded_integer.
    + apply Qlt_le_weak. by apply Far.
  - intros w Hw E. destruct (Split w Hw) as [[j Ej]|[C L]].
    + rewrite Ej, !distance in E by done. apply Qmult_inj_r in E; [|intros D; rewrite D in V; discriminate V].
      apply -> inject_Z_injective in E.
      destruct (rounded_tie a b Hb j) as [->|Ev]; [by symmetry|left; exact Ej|]. right.
      destruct (Z.eq_dec (rounded a b) (2 ^ 53)) as [G|G].
      * exists (2 ^ 52)%Z, (k + 1)%Z. split; [done|]. split; [done|]. split; [specialize (Htop G); lia|]. split; [by left|].
        rewrite G, power2_plus, (power2_Z 1) by lia.
        change (2 ^ 53)%Z with (2 ^ 52 * 2 ^ 1)%Z. rewrite (inject_Z_mult (2 ^ 52) (2 ^ 1)). ring.
      * exists (rounded a b), k. split; [done|]. split; [lia|]. split; [lia|]. split; [|reflexivity].
        destruct H52; [left; lia|by right].
    + exfalso. pose proof (Far w C L) as G. rewrite E in G. by apply Qlt_irrefl in G.
Qed.

Lemma nearest_ext q q' v v' : (q == q')%Q -> (v == v')%Q -> nearest q v -> nearest q' v'.
Proof.
  intros E E' (D & N & T). split; [|split].
  - destruct D as (m & e & H1 & H2 & H3). exists m, e. split; [done|]. split; [done|]. by rewrite <- E'.
  - intros w Hw. rewrite <- E, <- E'. by apply N.
  - intros w Hw H. assert (H' : (Qabs (w - q) == Qabs (v - q))%Q) by (rewrite E, E'; exact H).
    destruct (T w Hw H') as [H1|(m & e & H1 & H2 & H3 & H4 & H5)]; [left; by rewrite <- E'|right].
    exists m, e. do 4 (split; [done|]). by rewrite <- E'.
Qed.
Lemma double_opp v : double v -> double (- v).
Proof.
  intros (m & e & H1 & H2 & H3). exists (- m)%Z, e. split; [lia|]. split; [done|]. rewrite H3, inject_Z_opp. ring.
Qed.
Lemma abs_opp_minus w q : (Qabs (- w - q) == Qabs (w - - q))%Q.
Proof. rewrite <- Qabs_opp. apply Qabs_wd. ring. Qed.
Lemma nearest_opp q v : nearest q v -> nearest (- q) (- v).
Proof.
  intros (D & N & T). split; [by apply double_opp|split].
  - intros w Hw. specialize (N (- w)%Q (double_opp _ Hw)). rewrite abs_opp_minus in N |- *.
    by rewrite Qopp_involutive.
  - intros w Hw H. assert (H' : (Qabs (- w - q) == Qabs (v - q))%Q).
    { rewrite abs_opp_minus, H, abs_opp_minus. apply Qabs_wd. ring. }
    destruct (T (- w)%Q (double_opp _ Hw) H') as [H1|(m & e & H1 & H2 & H3 & H4 & H5)].
    + left. rewrite <- H1. ring.
    + right. exists (- m)%Z, e. rewrite Z.even_opp. split; [done|]. split; [lia|]. split; [done|]. split; [lia|].
      rewrite H5, inject_Z_opp. ring.
Qed.

(** [over], inside [nearest_float]. *)
Definition over_ (num den k : Z) : Z * Z :=
  if (0 <=? k)%Z then (num, den * 2 ^ k)%Z else (num * 2 ^ (- k), den)%Z.
Lemma over_spec num den k a b : (0 < num)%Z -> (0 < den)%Z -> over_ num den k = (a, b) ->
  (0 < a)%Z /\ (0 < b)%Z /\ (inject_Z a / inject_Z b * power2 k == inject_Z num / inject_Z den)%Q.
Proof.
  intros Hn Hd. unfold over_. assert (D : (0 < inject_Z den)%Q) by (change 0%Q with (inject_Z 0); by rewrite <- Zlt_Qlt).
  destruct (Z.leb_spec 0 k) as [C|C]; intros [= <- <-].
  - assert (P : (0 < 2 ^ k)%Z) by lia. split; [done|]. split; [lia|]. rewrite power2_Z, inject_Z_mult by done.
    assert (B : (0 < inject_Z (2 ^ k))%Q) by (change 0%Q with (inject_Z 0); by rewrite <- Zlt_Qlt).
    field. split; by apply positive_nonzero.
  - assert (P : (0 < 2 ^ (- k))%Z) by lia. split; [lia|]. split; [done|]. rewrite inject_Z_mult, <- (power2_Z (- k)) by lia.
    assert (E : (power2 (- k) * power2 k == 1)%Q) by (rewrite <- power2_plus; by replace (- k + k)%Z with 0%Z by lia).
    setoid_replace (inject_Z num * power2 (- k) / inject_Z den * power2 k)%Q
      with (inject_Z num / inject_Z den * (power2 (- k) * power2 k))%Q.
    + rewrite E. ring.
    + field. intros F. rewrite F in D. discriminate D.
Qed.
Lemma floor_le a b k q z : (0 < b)%Z -> (inject_Z a / inject_Z b * power2 k == q)%Q ->
  (z <= a / b)%Z <-> (inject_Z z * power2 k <= q)%Q.
Proof.
  intros Hb E. assert (B : (0 < inject_Z b)%Q) by (change 0%Q with (inject_Z 0); by rewrite <- Zlt_Qlt).
  pose proof (power2_pos k) as U. rewrite <- E, Qmult_le_r by done.
  assert (F : (z <= a / b <-> z * b <= a)%Z).
  { split; intros H; [pose proof (Z.mul_div_le a b Hb); nia|apply Z.div_le_lower_bound; lia]. }
  rewrite F, Zle_Qle, inject_Z_mult. split; intros H.
  - by apply Qle_shift_div_l.
  - apply (Qmult_le_compat_r _ _ (inject_Z b)) in H; [|by apply Qlt_le_weak].
    setoid_replace (inject_Z a / inject_Z b * inject_Z b)%Q with (inject_Z a) in H; [done|].
    field. intros G. rewrite G in B. discriminate B.
Qed.
Lemma power2_mono a b : (a <= b)%Z -> (power2 a <= power2 b)%Q.
Proof.
  intros H. replace b with (b - a + a)%Z by lia. rewrite power2_plus, (power2_Z (b - a)) by lia.
  rewrite <- (Qmult_1_l (power2 a)) at 1. apply Qmult_le_compat_r; [|apply Qlt_le_weak, power2_pos].
  change 1%Q with (inject_Z 1). rewrite <- Zle_Qle. lia.
Qed.
Lemma inject_power2 c k : (0 <= c)%Z -> (inject_Z (2 ^ c) * power2 k == power2 (c + k))%Q.
Proof. intros H. by rewrite power2_plus, (power2_Z c). Qed.

Definition exponent_of (num den : Z) : Z :=
  let k0 := (Z.log2 num - Z.log2 den - 52)%Z in
  let '(a, b) := over_ num den k0 in if (a / b <? 2 ^ 52)%Z then (k0 - 1)%Z else k0.
Lemma exponent_spec num den q : (0 < num)%Z -> (0 < den)%Z -> (q == inject_Z num / inject_Z den)%Q ->
  (power2 (52 + exponent_of num den) <= q /\ q < power2 (53 + exponent_of num den))%Q.
Proof.
  intros Hn Hd E. destruct (Z.log2_spec num Hn) as [N1 N2]. destruct (Z.log2_spec den Hd) as [D1 D2].
  pose proof (Z.log2_nonneg num) as N0. pose proof (Z.log2_nonneg den) as D0.
  set (ln := Z.log2 num) in *. set (ld := Z.log2 den) in *.
  assert (D : (0 < inject_Z den)%Q) by (change 0%Q with (inject_Z 0); by rewrite <- Zlt_Qlt).
  assert (L : (power2 (ln - ld - 1) < q)%Q).
  { rewrite E. apply Qlt_shift_div_l; [done|]. apply (Qlt_le_trans _ (power2 (ln - ld - 1) * power2 (Z.succ ld))).
    - apply Qmult_lt_l; [apply power2_pos|]. rewrite power2_Z by lia. by rewrite <- Zlt_Qlt.
    - rewrite <- power2_plus. replace (ln - ld - 1 + Z.succ ld)%Z with ln by lia. rewrite power2_Z by lia. by rewrite <- Zle_Qle. }
  assert (U : (q < power2 (ln - ld + 1))%Q).
  { rewrite E. apply Qlt_shift_div_r; [done|]. apply (Qlt_le_trans _ (power2 (ln - ld + 1) * power2 ld)).
    - rewrite <- power2_plus. replace (ln - ld + 1 + ld)%Z with (Z.succ ln) by lia. rewrite power2_Z by lia. by rewrite <- Zlt_Qlt.
    - apply Qmult_le_l; [apply power2_pos|]. rewrite power2_Z by lia. by rewrite <- Zle_Qle. }
  unfold exponent_of. fold ln ld. set (k0 := (ln - ld - 52)%Z).
  destruct (over_ num den k0) as [a b] eqn:O. apply over_spec in O as (Ha & Hb & O); [|done|done]. rewrite <- E in O.
  destruct (Z.ltb_spec (a / b) (2 ^ 52)) as [C|C].
  - apply Z.lt_nge in C. rewrite (floor_le a b k0 q) in C by done. rewrite inject_power2 in C by lia. apply Qnot_le_lt in C.
    replace (52 + (k0 - 1))%Z with (ln - ld - 1)%Z by (unfold k0; lia).
    replace (53 + (k0 - 1))%Z with (52 + k0)%Z by lia. split; [by apply Qlt_le_weak|done].
  - rewrite (floor_le a b k0 q), inject_power2 in C by (done || lia). split; [done|].
    replace (53 + k0)%Z with (ln - ld + 1)%Z by (unfold k0; lia). done.
Qed.

Lemma nearest_zero q : (q == 0)%Q -> representable q /\ nearest q (inject_Z 0 * power2 0).
Proof.
  intros E. split; [unfold representable; rewrite E; reflexivity|].
  apply (nearest_ext 0 q 0 (inject_Z 0 * power2 0)); [by rewrite E|reflexivity|]. split; [|split].
  - exists 0%Z, 0%Z. split; [done|]. split; [lia|]. reflexivity.
  - intros w _. apply Qabs_nonneg.
  - intros w _ H. left. change (Qabs (0 - 0)) with 0%Q in H.
    setoid_replace w with (w - 0)%Q by ring. destruct (Qabs_Qle_condition (w - 0) 0) as [L _]. 
    destruct L as [L1 L2]; [rewrite H; apply Qle_refl|]. apply Qle_antisym; [done|]. exact L1.
Qed.

Lemma nearest_float_eq num den : num <> 0%Z -> nearest_float num den =
    let k := Z.max (exponent_of num den) (-1074) in
    let '(a, b) := over_ num den k in
    let q := rounded a b in
    if (0 <=? k)%Z then
      if (2 ^ 1024 <=? q * 2 ^ k)%Z then None else Some (FFin (q * 2 ^ k) 0)
    else if (q mod 2 ^ (- k) =? 0)%Z then Some (FFin (q / 2 ^ (- k)) 0)
    else Some (FFin q k).
Proof. intros H. unfold nearest_float. destruct (Z.eqb_spec num 0); [done|]. reflexivity. Qed.

Theorem nearest_float_spec num den q : (0 <= num)%Z -> (0 < den)%Z -> (q == inject_Z num / inject_Z den)%Q ->
  match nearest_float num den with
  | Some f => exists m e, f = FFin m e /\ representable q /\ nearest q (inject_Z m * power2 e)
  | None => ~ representable q
  end.
Proof.
  intros Hn Hd E. destruct (Z.eq_dec num 0) as [->|Hn0].
  { exists 0%Z, 0%Z. split; [done|]. apply nearest_zero. rewrite E. unfold Qdiv. ring. }
  assert (Hpos : (0 < num)%Z) by lia.
  pose proof (exponent_spec num den q Hpos Hd E) as [X1 X2].
  rewrite nearest_float_eq by done. set (k1 := exponent_of num den) in *. clearbody k1. cbv zeta. set (k := Z.max k1 (-1074)).
  destruct (over_ num den k) as [a b] eqn:O. apply over_spec in O as (Ha & Hb & O); [|done|done]. rewrite <- E in O.
  assert (F53 : (a / b < 2 ^ 53)%Z).
  { apply Z.lt_nge. rewrite (floor_le a b k q) by done. rewrite inject_power2 by lia. apply Qlt_not_le.
    apply (Qlt_le_trans _ _ _ X2). apply power2_mono. lia. }
  assert (F52 : (2 ^ 52 <= a / b \/ k = -1074)%Z).
  { destruct (Z.le_gt_cases (-1074) k1); [|right; lia]. left. rewrite (floor_le a b k q), inject_power2 by (done || lia).
    by replace k with k1 by lia. }
  assert (Q0 : (0 < q)%Q) by (eapply Qlt_le_trans; [apply power2_pos|exact X1]).
  assert (Ab : (Qabs q == q)%Q) by (apply Qabs_pos, Qlt_le_weak, Q0).
  destruct (rounded_near a b Hb) as (R1 & R2 & R3).
  assert (X2' : (q < power2 (53 + k))%Q) by (eapply Qlt_le_trans; [exact X2|apply power2_mono; lia]).
  assert (Small : (k <= 970)%Z -> representable q).
  { intros H. unfold representable. rewrite Ab. apply (Qlt_le_trans _ _ _ X2').
    apply (Qle_trans _ (power2 1023)); [apply power2_mono; lia|]. rewrite power2_Z by lia. rewrite <- Zle_Qle.
    apply Z.leb_le. reflexivity. }
  assert (Near : (k <= 971)%Z -> (rounded a b = 2 ^ 53 -> k < 971)%Z -> nearest q (inject_Z (rounded a b) * power2 k)).
  { intros H H'. apply (nearest_ext (inject_Z a / inject_Z b * power2 k) q (inject_Z (rounded a b) * power2 k) _ O); [reflexivity|].
    apply rounded_nearest; (done || lia). }
  set (qq := rounded a b) in *. clearbody qq.
  destruct (Z.leb_spec 0 k) as [Hk|Hk].
  - assert (G52 : (2 ^ 52 <= a / b)%Z) by lia. clear F52.
    assert (P0 : (0 < 2 ^ k)%Z) by (apply Z.pow_pos_nonneg; lia).
    destruct (Z.leb_spec (2 ^ 1024) (qq * 2 ^ k)) as [C|C].
    + (* beyond *)
      intros R. unfold representable in R. rewrite Ab in R. revert R. apply Qle_not_lt.
      assert (K971 : (971 <= k)%Z).
      { destruct (Z.le_gt_cases 971 k); [done|]. exfalso. assert (2 ^ k <= 2 ^ 970)%Z by (apply Z.pow_le_mono_r; lia).
        assert (qq * 2 ^ k <= 2 ^ 53 * 2 ^ 970)%Z by (apply Z.mul_le_mono_nonneg; lia).
        assert (2 ^ 53 * 2 ^ 970 < 2 ^ 1024)%Z by (apply Z.ltb_lt; reflexivity). lia. }
      destruct (Z.eq_dec k 971) as [K|K].
      * assert (Hqq : (2 ^ 53 <= qq)%Z).
        { rewrite K in C. apply Z.le_ngt. intros L. assert (qq * 2 ^ 971 <= (2 ^ 53 - 1) * 2 ^ 971)%Z by (apply Z.mul_le_mono_nonneg_r; lia).
          assert ((2 ^ 53 - 1) * 2 ^ 971 < 2 ^ 1024)%Z by (apply Z.ltb_lt; reflexivity). lia. }
        assert (A : ((2 ^ 54 - 1) * b <= 2 * a)%Z).
        { assert (2 ^ 53 * b <= qq * b)%Z by (apply Z.mul_le_mono_nonneg_r; lia). lia. }
        rewrite <- O, K. change (2 ^ 1024 - 2 ^ 970)%Z with ((2 ^ 54 - 1) * 2 ^ 970)%Z. rewrite inject_Z_mult, <- (power2_Z 970) by lia.
        replace 971%Z with (1 + 970)%Z by lia. rewrite power2_plus, (power2_Z 1), Qmult_assoc by lia.
        apply Qmult_le_compat_r; [|apply Qlt_le_weak, power2_pos].
        assert (B : (0 < inject_Z b)%Q) by (change 0%Q with (inject_Z 0); by rewrite <- Zlt_Qlt).
        setoid_replace (inject_Z a / inject_Z b * inject_Z (2 ^ 1))%Q with (inject_Z (2 * a) / inject_Z b)%Q.
        -- apply Qle_shift_div_l; [done|]. by rewrite <- inject_Z_mult, <- Zle_Qle.
        -- rewrite inject_Z_mult. change (2 ^ 1)%Z with 2%Z. field. intros D. rewrite D in B. discriminate B.
      * rewrite (floor_le a b k q), inject_power2 in G52 by (done || lia). apply (Qle_trans _ (power2 1024)).
        -- rewrite power2_Z by lia. rewrite <- Zle_Qle. apply Z.leb_le. reflexivity.
        -- apply (Qle_trans _ (power2 (52 + k))); [apply power2_mono; lia|done].
    + assert (K971 : (k <= 971)%Z).
      { destruct (Z.le_gt_cases k 971); [done|]. exfalso. assert (2 ^ 972 <= 2 ^ k)%Z by (apply Z.pow_le_mono_r; lia).
        assert (2 ^ 52 * 2 ^ 972 <= qq * 2 ^ k)%Z by (apply Z.mul_le_mono_nonneg; lia).
        assert (2 ^ 1024 <= 2 ^ 52 * 2 ^ 972)%Z by (apply Z.leb_le; reflexivity). lia. }
      assert (Htop : (qq = 2 ^ 53 -> k < 971)%Z).
      { intros ->. destruct (Z.eq_dec k 971) as [K|]; [|lia]. exfalso. rewrite K in C.
        assert (2 ^ 1024 <= 2 ^ 53 * 2 ^ 971)%Z by (apply Z.leb_le; reflexivity). lia. }
      exists (qq * 2 ^ k)%Z, 0%Z. split; [done|]. split.
      * destruct (Z.eq_dec k 971) as [K|]; [|apply Small; lia].
        assert (Hqq : (qq <= 2 ^ 53 - 1)%Z) by lia.
        assert (A : (2 * a < (2 ^ 54 - 1) * b)%Z).
        { assert (qq * b <= (2 ^ 53 - 1) * b)%Z by (apply Z.mul_le_mono_nonneg_r; lia).
          destruct (Z.eq_dec (2 * a) ((2 ^ 54 - 1) * b)) as [T|T]; [|lia]. exfalso.
          assert (qq * b = (2 ^ 53 - 1) * b)%Z as S by lia. apply Z.mul_reg_r in S; [|lia].
          assert (Z.even qq = true) as Ev by (apply R3; lia). rewrite S in Ev. discriminate Ev. }
        unfold representable. rewrite Ab, <- O, K. change (2 ^ 1024 - 2 ^ 970)%Z with ((2 ^ 54 - 1) * 2 ^ 970)%Z.
        rewrite inject_Z_mult, <- (power2_Z 970) by lia.
        replace 971%Z with (1 + 970)%Z by lia. rewrite power2_plus, (power2_Z 1), Qmult_assoc by lia.
        apply Qmult_lt_r; [apply power2_pos|].
        assert (B : (0 < inject_Z b)%Q) by (change 0%Q with (inject_Z 0); by rewrite <- Zlt_Qlt).
        setoid_replace (inject_Z a / inject_Z b * inject_Z (2 ^ 1))%Q with (inject_Z (2 * a) / inject_Z b)%Q.
        -- apply Qlt_shift_div_r; [done|]. by rewrite <- inject_Z_mult, <- Zlt_Qlt.
        -- rewrite inject_Z_mult. change (2 ^ 1)%Z with 2%Z. field. intros D. rewrite D in B. discriminate B.
      * apply (nearest_ext q q (inject_Z qq * power2 k)); [reflexivity| |by apply Near].
        rewrite inject_Z_mult, <- (power2_Z k) by done. change (power2 0) with 1%Q. ring.
  - assert (S := Small ltac:(lia)). assert (N := Near ltac:(lia) ltac:(lia)).
    destruct (Z.eqb_spec (qq mod 2 ^ (- k)) 0) as [C|C]; [|exists qq, k; done].
    exists (qq / 2 ^ (- k))%Z, 0%Z. split; [done|]. split; [done|].
    apply (nearest_ext q q (inject_Z qq * power2 k)); [reflexivity| |done].
    assert (P0 : (0 < 2 ^ (- k))%Z) by (apply Z.pow_pos_nonneg; lia).
    assert (G : qq = (qq / 2 ^ (- k) * 2 ^ (- k))%Z) by (pose proof (Z.div_mod qq (2 ^ (- k)) ltac:(lia)); lia).
    rewrite G at 1. rewrite inject_Z_mult, <- (power2_Z (- k)), <- Qmult_assoc, <- power2_plus by lia.
    replace (- k + k)%Z with 0%Z by lia. reflexivity.
Qed.

(** ** The number a text says *)
Lemma power10_Z e : (0 <= e)%Z -> (Qpower 10 e == inject_Z (10 ^ e))%Q.
Proof. intros H. rewrite Zpower_Qpower by done. reflexivity. Qed.
Lemma decimal_fraction n x : exists num den, value_of n x = nearest_float num den /\ (0 <= num)%Z /\ (0 < den)%Z
  /\ (decimal false n x == inject_Z num / inject_Z den)%Q.
Proof.
  unfold value_of, decimal. destruct (Z.leb_spec 0 x) as [C|C].
  - exists (Z.of_N n * 10 ^ x)%Z, 1%Z. split; [done|]. split; [apply Z.mul_nonneg_nonneg; [lia|by apply Z.pow_nonneg]|].
    split; [done|]. rewrite power10_Z, inject_Z_mult by done. field.
  - exists (Z.of_N n), (10 ^ (- x))%Z. assert (P : (0 < 10 ^ (- x))%Z) by (apply Z.pow_pos_nonneg; lia).
    split; [done|]. split; [lia|]. split; [done|].
    assert (E : (Qpower 10 x == / inject_Z (10 ^ (- x)))%Q).
    { rewrite <- power10_Z by lia. rewrite Qpower_opp. by rewrite Qinv_involutive. }
    rewrite E. reflexivity.
Qed.
Lemma number_spec neg n x :
  match value_of n x with
  | Some f => stands_for (decimal neg n x) (negate neg f)
  | None => ~ representable (decimal neg n x)
  end.
Proof.
  destruct (decimal_fraction n x) as (num & den & -> & Hn & Hd & E).
  pose proof (nearest_float_spec num den _ Hn Hd E) as S.
  assert (D : (decimal neg n x == if neg then - decimal false n x else decimal false n x)%Q).
  { unfold decimal. destruct neg; [|reflexivity]. rewrite inject_Z_opp. ring. }
  assert (R : representable (decimal neg n x) <-> representable (decimal false n x)).
  { unfold representable. rewrite D. destruct neg; [by rewrite Qabs_opp|done]. }
  destruct (nearest_float num den) as [f|]; [|by rewrite R].
  destruct S as (m & e & -> & Rq & Nq). exists (if neg then - m else m)%Z, e. split; [done|]. split; [by rewrite R|].
  destruct neg; [|done]. apply (nearest_ext (- decimal false n x) _ (- (inject_Z m * power2 e))).
  - by rewrite D.
  - rewrite inject_Z_opp. ring.
  - by apply nearest_opp.
Qed.
