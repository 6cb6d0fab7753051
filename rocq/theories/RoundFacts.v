(** [round53] rounds to the nearest float64, ties to even. *)
From Verif Require Import Prelude Value BaseSpec.

Lemma nearest_even_opp z f : nearest_even z f -> nearest_even (- z) (- f).
Proof.
  assert (forall f, float_int f -> float_int (- f)) as Ho.
  { intros g (m & e & H1 & H2 & ->). exists (- m)%Z, e. lia. }
  intros (H1 & H2 & H3). split; [by apply Ho|]. split.
  - intros g Hg. specialize (H2 (- g)%Z (Ho _ Hg)). lia.
  - intros g Hg E Hn. destruct (H3 (- g)%Z (Ho _ Hg)) as (m & e & He & Hm & Hev & ->); [lia|lia|].
    exists (- m)%Z, e. split; [done|]. split; [lia|]. split; [|lia].
    destruct Hev as [k ->]. exists (- k)%Z. lia.
Qed.

Lemma round53_pos z : (2 ^ 53 <= z)%Z -> nearest_even z (round53 z).
Proof.
  intros Hz. unfold round53. rewrite (Z.abs_eq z) by lia.
  destruct (Z.ltb_spec z (2 ^ 53)); [lia|].
  assert (53 <= Z.log2 z)%Z as Hlog.
  { apply Z.log2_le_pow2; [|done]. assert (0 < 2 ^ 53)%Z by done. lia. }
  set (e := (Z.log2 z - 52)%Z). assert (1 <= e)%Z as He by lia.
  assert (Hz2 : (2 ^ 52 * 2 ^ e <= z < 2 ^ 53 * 2 ^ e)%Z).
  { rewrite <- !Z.pow_add_r by lia. replace (52 + e)%Z with (Z.log2 z) by lia.
    replace (53 + e)%Z with (Z.succ (Z.log2 z)) by lia. apply Z.log2_spec.
    assert (0 < 2 ^ 53)%Z by done. lia. }
  assert (Hh : (2 ^ e = 2 * 2 ^ (e - 1))%Z).
  { rewrite <- Z.pow_succ_r by lia. f_equal. lia. }
  assert (Hhp : (0 < 2 ^ (e - 1))%Z) by (apply Z.pow_pos_nonneg; lia).
  set (h := (2 ^ (e - 1))%Z) in *.
  assert (Hsep : forall q g, (2 ^ 52 <= q)%Z -> float_int g -> (g <= q * 2 ^ e \/ (q + 1) * 2 ^ e <= g)%Z).
  { intros q g Hq (m & k & Hk & Hm & ->). destruct (Z.le_gt_cases e k) as [Hek|Hek].
    - replace k with (e + (k - e))%Z by lia. rewrite Z.pow_add_r by lia.
      set (x := (m * 2 ^ (k - e))%Z). replace (m * (2 ^ e * 2 ^ (k - e)))%Z with (x * 2 ^ e)%Z by (unfold x; ring).
      rewrite Hh. destruct (Z.le_gt_cases x q); [left|right]; nia.
    - left. replace e with (k + 1 + (e - k - 1))%Z by lia. rewrite !Z.pow_add_r by lia.
      assert (0 < 2 ^ k)%Z by (apply Z.pow_pos_nonneg; lia).
      assert (0 < 2 ^ (e - k - 1))%Z by (apply Z.pow_pos_nonneg; lia).
      change (2 ^ 1)%Z with 2%Z.
      assert (m * 2 ^ k <= 2 ^ 53 * 2 ^ k)%Z by (apply Z.mul_le_mono_nonneg_r; lia).
      change (2 ^ 53)%Z with (2 ^ 52 * 2)%Z in *.
      assert (2 ^ 52 * 2 * 2 ^ k <= q * 2 * 2 ^ k)%Z by (apply Z.mul_le_mono_nonneg_r; lia).
      assert (q * 2 * 2 ^ k * 1 <= q * 2 * 2 ^ k * 2 ^ (e - k - 1))%Z.
      { apply Z.mul_le_mono_nonneg_l; [|lia]. assert (0 < 2 ^ 52)%Z by done. nia. }
      lia. }
  pose proof (Z.div_mod z (2 ^ e)) as Hdm. pose proof (Z.mod_pos_bound z (2 ^ e)) as Hmb.
  set (q := (z / 2 ^ e)%Z) in *. set (r := (z mod 2 ^ e)%Z) in *. rewrite Hh in *.
  assert (Hq : (2 ^ 52 <= q < 2 ^ 53)%Z).
  { assert (0 < 2 ^ 52)%Z by done. assert (2 ^ 53 = 2 * 2 ^ 52)%Z by done. set (P := (2 ^ 52)%Z) in *. nia. }
  assert (Hfl : forall q', (0 <= q' <= 2 ^ 53)%Z -> float_int (q' * (2 * h))%Z).
  { intros q' Hq'. destruct (Z.eq_dec q' (2 ^ 53)) as [->|Hne].
    - exists (2 ^ 52)%Z, (e + 1)%Z. split; [lia|]. split; [done|].
      rewrite Z.pow_add_r, Hh by lia. change (2 ^ 53)%Z with (2 ^ 52 * 2)%Z. change (2 ^ 1)%Z with 2%Z. ring.
    - exists q', e. split; [lia|]. split; [lia|]. by rewrite Hh. }
  assert (Hsg : Z.sgn z = 1%Z) by (apply Z.sgn_pos; lia). rewrite Hsg, Z.mul_1_l.
  assert (Hup : forall q', (q <= q' <= q + 1)%Z -> Z.Even q' ->
     exists m e0, (0 <= e0 /\ 2 ^ 52 <= Z.abs m <= 2 ^ 53 /\ Z.Even m /\ q' * (2 * h) = m * 2 ^ e0)%Z).
  { intros q' Hq' Hev. exists q', e. split; [lia|]. split; [lia|]. split; [done|]. by rewrite Hh. }
  assert (Hgo : forall g, float_int g -> (g <= q * (2 * h) \/ (q + 1) * (2 * h) <= g)%Z).
  { intros g Hg. apply (Hsep q g) in Hg; [|lia]. done. }
  specialize (Hdm ltac:(lia)). specialize (Hmb ltac:(lia)).
  destruct (Z.ltb_spec h r) as [Hr|Hr]; cbn [orb].
  - split; [apply Hfl; lia|]. split.
    + intros g Hg. apply Hgo in Hg. lia.
    + intros g Hg E Hn. apply Hgo in Hg. lia.
  - destruct (Z.eqb_spec r h) as [Er|Er]; cbn [andb].
    + destruct (Z.odd q) eqn:Eo.
      * split; [apply Hfl; lia|]. split.
        -- intros g Hg. apply Hgo in Hg. lia.
        -- intros g Hg E Hn. apply Hup; [lia|]. apply Z.odd_spec in Eo as [k ->]. exists (k + 1)%Z. lia.
      * split; [apply Hfl; lia|]. split.
        -- intros g Hg. apply Hgo in Hg. lia.
        -- intros g Hg E Hn. apply Hup; [lia|]. apply Z.even_spec. rewrite <- Z.negb_odd, Eo. done.
    + split; [apply Hfl; lia|]. split.
      * intros g Hg. apply Hgo in Hg. lia.
      * intros g Hg E Hn. apply Hgo in Hg. lia.
Qed.

Lemma round53_nearest z : nearest_even z (round53 z).
Proof.
  destruct (Z.le_gt_cases (2 ^ 53) z) as [H|H]; [by apply round53_pos|].
  destruct (Z.le_gt_cases (2 ^ 53) (- z)) as [H'|H'].
  - replace (round53 z) with (- round53 (- z))%Z.
    + rewrite <- (Z.opp_involutive z) at 1. apply nearest_even_opp. by apply round53_pos.
    + unfold round53. rewrite Z.abs_opp. destruct (Z.ltb_spec (Z.abs z) (2 ^ 53)); [lia|].
      rewrite Z.sgn_opp. lia.
  - assert (round53 z = z) as ->.
    { unfold round53. destruct (Z.ltb_spec (Z.abs z) (2 ^ 53)); [done|lia]. }
    split; [exists z, 0%Z; lia|]. split; [lia|]. intros g _ E Hn. lia.
Qed.
