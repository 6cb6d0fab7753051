(** Proofs: the JSON text of a float is a number that is read as the float. *)
From Coq Require Import Ascii QArith Qabs Qpower Lqa.
From stdpp Require Import pretty.
From Verif Require Import Prelude Value BaseSpec WireSpec FloatSame PathMatch PathMatchSpec PathUtf8 Encoding EncodingFacts AuthSpec
  JsonSpec JsonFacts JsonSafe Payload Json JsonRound JsonGrammar JsonNumber JsonRead.

Local Open Scope string_scope.
Local Open Scope N_scope.

(** * The text *)

Lemma pretty_number n : 0 < n -> all_digits (pretty n) /\ pretty n <> "" /\ (forall s, pretty n = String "0" s -> s = "")
  /\ numeral (pretty n) = n.
Proof.
  intros Hn. destruct (digits_pretty n "" (or_introl eq_refl) Hn) as [k D]. rewrite sapp_nil in D.
  apply digits_inv in D as (d & E & Hd & En & _). rewrite sapp_nil in E.
  destruct (pretty_first n "" Hn) as (c & s' & Hc & F). rewrite sapp_nil in F.
  split; [by rewrite E|]. split; [by rewrite F|]. split; [|rewrite E; symmetry; exact En].
  intros s. rewrite F. intros [= H _]. exfalso.
  assert (c = 1 \/ c = 2 \/ c = 3 \/ c = 4 \/ c = 5 \/ c = 6 \/ c = 7 \/ c = 8 \/ c = 9) as K by lia.
  repeat destruct K as [K|K]; subst c; discriminate H.
Qed.
Lemma natural_number (neg : bool) n : 0 < n \/ neg = false -> jnumber ((if neg then "-" else "") ++ pretty n) neg n 0.
Proof.
  intros H. assert (P : all_digits (pretty n) /\ pretty n <> "" /\ (forall s, pretty n = String "0" s -> s = "") /\ numeral (pretty n) = n).
  { destruct (N.eq_dec n 0) as [->|]; [|apply pretty_number; lia]. split; [by repeat constructor|]. split; [done|]. split; [|done].
    by intros s [= <-]. }
  destruct P as (P1 & P2 & P3 & P4).
  pose proof (jn_number neg (pretty n) "" "" "" 0 P1 P2 P3 jf_none je_none) as J.
  rewrite !sapp_nil, P4 in J. exact J.
Qed.
Lemma pretty_digits n : all_digits (pretty n) /\ pretty n <> "" /\ (forall s, pretty n = String "0" s -> s = "") /\ numeral (pretty n) = n.
Proof.
  destruct (N.eq_dec n 0) as [->|]; [|apply pretty_number; lia]. split; [by repeat constructor|]. split; [done|]. split; [|done].
  by intros s [= <-].
Qed.

Lemma all_digits_app a b : all_digits (a ++ b) <-> all_digits a /\ all_digits b.
Proof. unfold all_digits. rewrite letters_app. apply Forall_app. Qed.
Lemma cut_string n : forall s, (n <= String.length s)%nat ->
  s = String.substring 0 n s ++ sdrop n s /\ String.length (String.substring 0 n s) = n
  /\ String.length (sdrop n s) = (String.length s - n)%nat.
Proof.
  induction n as [|n IH]; intros s H; [destruct s; repeat split|]. destruct s as [|c s]; [cbn in H; lia|].
  cbn [String.length] in H. destruct (IH s) as (E & L1 & L2); [lia|]. cbn [String.substring sdrop String.length].
  change (String c (String.substring 0 n s) ++ sdrop n s) with (String c (String.substring 0 n s ++ sdrop n s)).
  rewrite <- E. repeat split; lia.
Qed.
Lemma zeros_succ n : (0 <= n)%Z -> zeros (n + 1) = String "0" (zeros n).
Proof.
  intros H. unfold zeros. replace (Z.to_nat (n + 1)) with (S (Z.to_nat n)) by lia. cbn [repeat].
  destruct (repeat "0" (Z.to_nat n)) eqn:E; [done|]. done.
Qed.
Lemma zeros_spec n : (0 <= n)%Z -> all_digits (zeros n) /\ String.length (zeros n) = Z.to_nat n
  /\ forall a, numeral_from a (zeros n) = a * 10 ^ Z.to_N n.
Proof.
  intros H. revert n H. apply natlike_ind.
  - split; [constructor|]. split; [done|]. intros a. change (a = a * 1). lia.
  - intros n H (D & L & V). change (Z.succ n) with (n + 1)%Z. rewrite zeros_succ by done. split; [|split].
    + apply Forall_cons. split; [done|exact D].
    + cbn [String.length]. rewrite L. lia.
    + intros a. change (numeral_from a (String "0" (zeros n))) with (numeral_from (a * 10 + (48 - 48)) (zeros n)).
      rewrite V. replace (Z.to_N (n + 1)) with (N.succ (Z.to_N n)) by lia. rewrite N.pow_succ_r'. lia.
Qed.

Lemma float_text_number neg sci n x : 0 < n -> exists n' x', jnumber (float_text neg sci n x) neg n' x'
  /\ (n' = n /\ x' = x \/ (0 <= x)%Z /\ n' = n * 10 ^ Z.to_N x /\ x' = 0%Z).
Proof.
  intros Hn. destruct (pretty_number n Hn) as (P1 & P2 & P3 & P4). unfold float_text. cbv zeta.
  set (ds := pretty n) in *. clearbody ds. set (k := Z.of_nat (String.length ds)). set (dp := (k + x)%Z).
  assert (Hk : (1 <= k)%Z) by (unfold k; destruct ds; [done|cbn [String.length]; lia]).
  destruct sci.
  - exists n, x. split; [|by left]. destruct (cut_string 1 ds) as (E & L1 & L2); [unfold k in Hk; lia|].
    set (w := String.substring 0 1 ds) in *. set (t := sdrop 1 ds) in *. clearbody w t.
    assert (W : all_digits w /\ all_digits t) by (apply all_digits_app; by rewrite <- E).
    assert (X : jexponent ("e" ++ (if (1 <=? dp)%Z then "+" else "-") ++ pretty (Z.abs_N (dp - 1))) (dp - 1)).
    { destruct (pretty_digits (Z.abs_N (dp - 1))) as (D1 & D2 & _ & D4). destruct (Z.leb_spec 1 dp).
      - replace (dp - 1)%Z with (Z.of_N (numeral (pretty (Z.abs_N (dp - 1))))) at 2 by (rewrite D4; lia).
        apply (je_plus "e" "+"); [left|right; left|done|done].
      - replace (dp - 1)%Z with (- Z.of_N (numeral (pretty (Z.abs_N (dp - 1)))))%Z at 2 by (rewrite D4; lia).
        apply (je_minus "e"); [left|done|done]. }
    assert (F : exists d, jfraction (if (1 <? k)%Z then "." ++ t else "") d /\ w ++ d = ds /\ Z.of_nat (String.length d) = (k - 1)%Z).
    { destruct (Z.ltb_spec 1 k).
      - exists t. split; [constructor; [by apply W|]|]; [|split; [done|unfold k in *; lia]].
        intros ->. cbn [String.length] in L2. unfold k in *. lia.
      - exists "". split; [constructor|]. rewrite sapp_nil. split; [|cbn; lia]. destruct t; [by rewrite sapp_nil in E|].
        cbn [String.length] in L2. unfold k in *. lia. }
    destruct F as (d & F & Ew & Ld).
    assert (J := jn_number neg w _ d _ _ (proj1 W) ltac:(by intros ->) ltac:(intros s ->; destruct s; [done|by cbn in L1; lia]) F X).
    rewrite Ew, P4, Ld in J. replace (dp - 1 - (k - 1))%Z with x in J by (unfold dp; lia). exact J.
  - destruct (Z.leb_spec dp 0) as [C|C]; [|destruct (Z.ltb_spec dp k) as [C2|C2]].
    + exists n, x. split; [|by left]. destruct (zeros_spec (- dp)) as (Z1 & Z2 & Z3); [lia|].
      assert (F : jfraction ("." ++ zeros (- dp) ++ ds) (zeros (- dp) ++ ds)).
      { constructor; [by apply all_digits_app|]. intros H. destruct (zeros (- dp)); [by apply P2|done]. }
      assert (J := jn_number neg "0" _ _ "" 0 ltac:(by repeat constructor) ltac:(done) ltac:(by intros s [= <-]) F je_none).
      assert (V : numeral ("0" ++ zeros (- dp) ++ ds) = n).
      { rewrite <- numeral_app, numeral_from_app, Z3. change (numeral "0") with 0. rewrite N.mul_0_l. exact P4. }
      rewrite V, slength_app, sapp_nil in J. replace (0 - Z.of_nat _)%Z with x in J by (unfold dp, k in *; lia). exact J.
    + exists n, x. split; [|by left]. destruct (cut_string (Z.to_nat dp) ds) as (E & L1 & L2); [unfold k in *; lia|].
      set (w := String.substring 0 (Z.to_nat dp) ds) in *. set (t := sdrop (Z.to_nat dp) ds) in *. clearbody w t.
      assert (W : all_digits w /\ all_digits t) by (apply all_digits_app; by rewrite <- E).
      assert (F : jfraction ("." ++ t) t).
      { constructor; [apply W|]. intros ->. cbn [String.length] in L2. unfold k in *. lia. }
      assert (W0 : forall s, w = String "0" s -> s = "").
      { intros s ->. specialize (P3 (s ++ t) E). by destruct s. }
      assert (J := jn_number neg w _ _ "" 0 (proj1 W) ltac:(intros ->; cbn in L1; lia) W0 F je_none).
      rewrite <- E, P4, sapp_nil in J. replace (0 - Z.of_nat _)%Z with x in J by (unfold dp, k in *; lia). exact J.
    + assert (Hx : (0 <= x)%Z) by (unfold dp in *; lia). exists (n * 10 ^ Z.to_N x), 0%Z. split; [|by right].
      replace (dp - k)%Z with x by (unfold dp; lia). destruct (zeros_spec x Hx) as (Z1 & Z2 & Z3).
      assert (J := jn_number neg (ds ++ zeros x) "" "" "" 0 ltac:(by apply all_digits_app) ltac:(by destruct ds)).
      rewrite !sapp_nil in J. rewrite <- numeral_app, Z3, P4 in J. apply J; [|constructor|constructor].
      intros s E. destruct ds as [|c ds]; [done|]. injection E as -> E. specialize (P3 ds eq_refl). subst ds.
      change (numeral "0" = n) in P4. vm_compute in P4. lia.
Qed.
Lemma value_of_shift n x : (0 <= x)%Z -> value_of (n * 10 ^ Z.to_N x) 0 = value_of n x.
Proof.
  intros H. unfold value_of. destruct (Z.leb_spec 0 x); [|lia]. change (0 <=? 0)%Z with true. cbv iota. f_equal.
  change (10 ^ 0)%Z with 1%Z. rewrite Z.mul_1_r, N2Z.inj_mul, N2Z.inj_pow. f_equal. f_equal. lia.
Qed.

(** * Two floats *)

Lemma inject_pos z : (0 < z)%Z -> (0 < inject_Z z)%Q.
Proof. intros H. change 0%Q with (inject_Z 0). by rewrite <- Zlt_Qlt. Qed.
Lemma power2_split e c : (c <= e)%Z -> (power2 e == inject_Z (2 ^ (e - c)) * power2 c)%Q.
Proof. intros H. rewrite inject_power2 by lia. by replace (e - c + c)%Z with e by lia. Qed.
Lemma same_value m e m' e' : float_same (FFin m e) (FFin m' e') <-> (inject_Z m * power2 e == inject_Z m' * power2 e')%Q.
Proof.
  cbn [float_same]. set (c := Z.min e e'). rewrite (power2_split e c), (power2_split e' c) by lia.
  rewrite !Qmult_assoc, <- !inject_Z_mult. split; [by intros ->|]. intros H.
  apply Qmult_inj_r in H; [|apply positive_nonzero, power2_pos]. by apply inject_Z_injective.
Qed.

Definition canonical (m e : Z) : Prop := (0 < m < 2 ^ 53 /\ -1074 <= e <= 971 /\ (2 ^ 52 <= m \/ e = -1074))%Z.
Lemma canonical_form m e : (0 < m < 2 ^ 53)%Z -> (-1074 <= e <= 971)%Z ->
  exists m' e', canonical m' e' /\ (inject_Z m * power2 e == inject_Z m' * power2 e')%Q.
Proof.
  intros Hm He. set (s := Z.min (52 - Z.log2 m) (e + 1074)). destruct (Z.log2_spec m) as [L1 L2]; [lia|].
  pose proof (Z.log2_nonneg m) as L0. assert (L3 : (Z.log2 m < 53)%Z) by (apply Z.log2_lt_pow2; lia).
  assert (Hs : (0 <= s)%Z) by lia. exists (m * 2 ^ s)%Z, (e - s)%Z. split.
  - assert (P : (1 <= 2 ^ s)%Z) by (pose proof (Z.pow_pos_nonneg 2 s); lia).
    assert (U : (m * 2 ^ s < 2 ^ 53)%Z).
    { apply (Z.lt_le_trans _ (2 ^ Z.succ (Z.log2 m) * 2 ^ s)); [apply Z.mul_lt_mono_pos_r; lia|].
      rewrite <- Z.pow_add_r by lia. apply Z.pow_le_mono_r; lia. }
    split; [split; [apply Z.mul_pos_pos; lia|done]|]. split; [lia|]. destruct (Z.le_gt_cases (52 - Z.log2 m) (e + 1074)) as [C|C]; [|right; lia].
    left. replace (2 ^ 52)%Z with (2 ^ Z.log2 m * 2 ^ s)%Z; [apply Z.mul_le_mono_nonneg_r; lia|].
    rewrite <- Z.pow_add_r by lia. f_equal. lia.
  - rewrite (power2_split e (e - s)) by lia. replace (e - (e - s))%Z with s by lia. by rewrite inject_Z_mult, Qmult_assoc.
Qed.

(** Half the distance to the next float64. *)
Definition half_gap (m e : Z) : Q := ((if (m =? 2 ^ 52)%Z then 1 # 4 else 1 # 2) * power2 e)%Q.
Lemma half_gap_pos m e : (0 < half_gap m e)%Q.
Proof. unfold half_gap. pose proof (power2_pos e). destruct (m =? 2 ^ 52)%Z; nra. Qed.
Lemma scaled_distance a b c : (Qabs (inject_Z a * power2 c - inject_Z b * power2 c) == inject_Z (Z.abs (a - b)) * power2 c)%Q.
Proof.
  assert (E : (inject_Z a * power2 c - inject_Z b * power2 c == inject_Z (a - b) * power2 c)%Q).
  { unfold Zminus. rewrite inject_Z_plus, inject_Z_opp. ring. }
  rewrite E, Qabs_Qmult, (Qabs_pos (power2 c)) by apply Qlt_le_weak, power2_pos. reflexivity.
Qed.
Lemma gap m e w : canonical m e -> double w -> ~ (w == inject_Z m * power2 e)%Q ->
  (2 * half_gap m e <= Qabs (w - inject_Z m * power2 e))%Q.
Proof.
  intros (Hm & He & Hc) (m' & e' & Hm' & He' & Ew) Hne. rewrite Ew in Hne |- *. unfold half_gap.
  pose proof (power2_pos e) as P. destruct (Z.le_gt_cases e e') as [C|C].
  - set (j := (m' * 2 ^ (e' - e))%Z). assert (W : (inject_Z m' * power2 e' == inject_Z j * power2 e)%Q).
    { rewrite (power2_split e' e), Qmult_assoc, <- inject_Z_mult by lia. reflexivity. }
    rewrite W in Hne |- *. rewrite scaled_distance. assert (j <> m) by (intros ->; by apply Hne).
    assert (1 <= inject_Z (Z.abs (j - m)))%Q by (change 1%Q with (inject_Z 1); rewrite <- Zle_Qle; lia).
    destruct (m =? 2 ^ 52)%Z; nra.
  - destruct Hc as [Hc|Hc]; [|lia]. set (t := (e - e')%Z).
    assert (W : (inject_Z m * power2 e == inject_Z (m * 2 ^ t) * power2 e')%Q).
    { rewrite (power2_split e e'), Qmult_assoc, <- inject_Z_mult by lia. reflexivity. }
    rewrite W, scaled_distance, (power2_split e e') by lia. fold t. clear W. assert (Ht : (1 <= t)%Z) by lia.
    assert (P2 : (2 <= 2 ^ t)%Z). { change 2%Z with (2 ^ 1)%Z at 1. apply Z.pow_le_mono_r; lia. }
    pose proof (power2_pos e') as P'. set (p := (2 ^ t)%Z) in *. clearbody p.
    assert (K : (2 * (if (m =? 2 ^ 52)%Z then 1 # 4 else 1 # 2) * inject_Z p <= inject_Z (Z.abs (m' - m * p)))%Q).
    { destruct (Z.eqb_spec m (2 ^ 52)) as [->|Hn].
      - assert (p <= 2 * Z.abs (m' - 2 ^ 52 * p))%Z as K by lia. rewrite Zle_Qle, inject_Z_mult in K.
        change (inject_Z 2) with 2%Q in K. lra.
      - assert ((2 ^ 52 + 1) * p <= m * p)%Z by (apply Z.mul_le_mono_nonneg_r; lia).
        assert (p <= Z.abs (m' - m * p))%Z as K by lia. rewrite Zle_Qle in K. lra. }
    set (h := if (m =? 2 ^ 52)%Z then 1 # 4 else 1 # 2) in *. clearbody h.
    assert (2 * h * inject_Z p * power2 e' <= inject_Z (Z.abs (m' - m * p)) * power2 e')%Q; [|lra].
    apply Qmult_le_compat_r; [done|by apply Qlt_le_weak].
Qed.

(** What is nearer than that is read as the float. *)
Lemma close_reads m e n x : canonical m e -> (Qabs (decimal false n x - inject_Z m * power2 e) < half_gap m e)%Q ->
  exists m' e', value_of n x = Some (FFin m' e') /\ (inject_Z m' * power2 e' == inject_Z m * power2 e)%Q.
Proof.
  intros Hc Hq. pose proof (number_spec false n x) as S. set (q := decimal false n x) in *. clearbody q.
  set (v := (inject_Z m * power2 e)%Q) in *.
  assert (R : representable q).
  { destruct Hc as (Hm & He & _). unfold representable. apply Qabs_Qlt_condition in Hq as [Q1 Q2].
    pose proof (power2_mono e 971 ltac:(lia)) as M. pose proof (power2_pos e) as P.
    assert (V : (0 <= v <= inject_Z (2 ^ 53 - 1) * power2 e)%Q).
    { split; unfold v; [apply Qmult_le_0_compat; [change 0%Q with (inject_Z 0); rewrite <- Zle_Qle; lia|lra]|].
      apply Qmult_le_compat_r; [rewrite <- Zle_Qle; lia|lra]. }
    assert (H : (half_gap m e <= (1 # 2) * power2 e)%Q) by (unfold half_gap; destruct (m =? 2 ^ 52)%Z; lra).
    assert (T : (inject_Z (2 ^ 1024 - 2 ^ 970) == (inject_Z (2 ^ 53 - 1) + (1 # 2)) * power2 971)%Q) by (vm_compute; reflexivity).
    assert (B : ((inject_Z (2 ^ 53 - 1) + (1 # 2)) * power2 e <= (inject_Z (2 ^ 53 - 1) + (1 # 2)) * power2 971)%Q).
    { apply Qmult_le_l; [reflexivity|done]. }
    assert (I : (1 <= inject_Z (2 ^ 53 - 1))%Q) by (vm_compute; discriminate).
    rewrite T. set (i := inject_Z (2 ^ 53 - 1)) in *. clearbody i. clearbody v.
    assert (Qn : (- (1 # 2) * power2 e < q)%Q) by lra.
    apply Qabs_case; intros _; [nra|]. assert (0 <= i * power2 e)%Q by (apply Qmult_le_0_compat; lra). lra. }
  destruct (value_of n x) as [f|]; [|by destruct (S R)]. destruct S as (m' & e' & E & _ & N).
  assert (E2 : f = FFin m' e') by (destruct f; exact E). subst f. exists m', e'. split; [done|].
  destruct (Qeq_dec (inject_Z m' * power2 e') v) as [|Hne]; [done|]. exfalso.
  destruct N as (D & L & _). pose proof (gap m e _ Hc D Hne) as G. fold v in G.
  assert (Dv : double v). { destruct Hc as (Hm & He & _). exists m, e. split; [lia|]. by split. }
  specialize (L v Dv). set (w := (inject_Z m' * power2 e')%Q) in *. clearbody w v.
  assert (T : (Qabs (w - v) <= Qabs (w - q) + Qabs (q - v))%Q).
  { setoid_replace (w - v)%Q with ((w - q) + (q - v))%Q by ring. apply Qabs_triangle. }
  rewrite (Qabs_Qminus v q) in L. lra.
Qed.

(** * Digits *)

Notation power10 := (Qpower 10).
Lemma power10_pos x : (0 < power10 x)%Q.
Proof. apply Qpower_0_lt. reflexivity. Qed.
Lemma power10_plus a b : (power10 (a + b) == power10 a * power10 b)%Q.
Proof. apply Qpower_plus. discriminate. Qed.
Lemma numeral_bounds s : forall a, all_digits s ->
  a * 10 ^ N.of_nat (String.length s) <= numeral_from a s < (a + 1) * 10 ^ N.of_nat (String.length s).
Proof.
  induction s as [|c s IH]; intros a H; [change (numeral_from a "") with a; cbn; lia|]. apply Forall_cons in H as [Hc H].
  apply digit_code_bounds in Hc. change (numeral_from a (String c s)) with (numeral_from (a * 10 + (code c - 48)) s).
  destruct (IH (a * 10 + (code c - 48)) H) as [L U]. cbn [String.length]. rewrite Nat2N.inj_succ, N.pow_succ_r'.
  change (code c) with (byte c) in *. nia.
Qed.
Lemma digit_count_bounds n : (0 < n)%Z -> (10 ^ (digit_count n - 1) <= n < 10 ^ digit_count n)%Z.
Proof.
  intros H. unfold digit_count. rewrite pretty_Z. destruct (Z.ltb_spec n 0); [lia|].
  destruct (pretty_number (Z.to_N n)) as (D & Ne & F & V); [lia|]. set (s := pretty (Z.to_N n)) in *. clearbody s.
  destruct s as [|c s]; [done|]. cbn [String.length]. rewrite Nat2Z.inj_succ.
  apply Forall_cons in D as [Hc D]. apply digit_code_bounds in Hc.
  change (numeral (String c s)) with (numeral_from (0 * 10 + (code c - 48)) s) in V.
  destruct (numeral_bounds s (0 * 10 + (code c - 48)) D) as [L U]. rewrite V in L, U. change (code c) with (byte c) in *.
  assert (1 <= byte c - 48) as Hb.
  { destruct (N.eq_dec (byte c) 48) as [E|]; [|lia]. exfalso. assert (c = "0"%char) as -> by (by apply code_char).
    specialize (F s eq_refl). subst s. change (0 = Z.to_N n) in V. lia. }
  assert (P : Z.of_N (10 ^ N.of_nat (String.length s)) = (10 ^ Z.of_nat (String.length s))%Z) by (rewrite N2Z.inj_pow, nat_N_Z; done).
  replace (Z.succ (Z.of_nat (String.length s)) - 1)%Z with (Z.of_nat (String.length s)) by lia.
  rewrite Z.pow_succ_r by lia. nia.
Qed.

Lemma fraction_value m e num den : (0 < m)%Z -> fraction m e = (num, den) ->
  (0 < num)%Z /\ (0 < den)%Z /\ (inject_Z m * power2 e == inject_Z num / inject_Z den)%Q.
Proof.
  intros H. unfold fraction. destruct (Z.leb_spec 0 e); intros [= <- <-].
  - assert (0 < 2 ^ e)%Z by (apply Z.pow_pos_nonneg; lia). split; [lia|]. split; [done|].
    rewrite power2_Z, inject_Z_mult by done. field.
  - assert (P : (0 < 2 ^ (- e))%Z) by (apply Z.pow_pos_nonneg; lia). split; [done|]. split; [done|].
    rewrite <- power2_Z by lia. unfold power2. rewrite Qpower_opp. unfold Qdiv. by rewrite Qinv_involutive.
Qed.
(** A fraction against a power of ten. *)
Lemma less_power10 num den d : (0 < num)%Z -> (0 < den)%Z ->
  (if (0 <=? d)%Z then (num <? den * 10 ^ d)%Z else (num * 10 ^ (- d) <? den)%Z) = true <->
  (inject_Z num / inject_Z den < power10 d)%Q.
Proof.
  intros Hn Hd. pose proof (inject_pos den Hd) as D. assert (X : (inject_Z num / inject_Z den < power10 d)%Q <-> (inject_Z num < power10 d * inject_Z den)%Q).
  { split; [|by apply Qlt_shift_div_r]. intros H. rewrite <- (Qmult_div_r (inject_Z num) (inject_Z den)) by (by apply positive_nonzero).
    rewrite Qmult_comm. by apply Qmult_lt_r. }
  rewrite X. destruct (Z.leb_spec 0 d).
  - rewrite power10_Z, <- inject_Z_mult, <- Zlt_Qlt by done. rewrite Z.mul_comm. apply Z.ltb_lt.
  - assert (P : (power10 d * inject_Z (10 ^ (- d)) == 1)%Q).
    { rewrite <- power10_Z, <- power10_plus by lia. by replace (d + - d)%Z with 0%Z by lia. }
    pose proof (power10_pos d) as Q. rewrite Z.ltb_lt, Zlt_Qlt, inject_Z_mult. split; intros K.
    + setoid_replace (inject_Z num) with (power10 d * (inject_Z num * inject_Z (10 ^ (- d))))%Q; [by apply Qmult_lt_l|].
      setoid_replace (power10 d * (inject_Z num * inject_Z (10 ^ (- d))))%Q with (inject_Z num * (power10 d * inject_Z (10 ^ (- d))))%Q by ring.
      rewrite P. ring.
    + apply (Qmult_lt_l _ _ _ Q). setoid_replace (power10 d * (inject_Z num * inject_Z (10 ^ (- d))))%Q with (inject_Z num * (power10 d * inject_Z (10 ^ (- d))))%Q by ring.
      rewrite P. by rewrite Qmult_1_r.
Qed.

(** * Seventeen digits are enough *)

Lemma reads_as_value m e n x m' e' : value_of n x = Some (FFin m' e') -> (inject_Z m' * power2 e' == inject_Z m * power2 e)%Q ->
  reads_as m e (n, x) = true.
Proof.
  intros V E. unfold reads_as. cbn [fst snd]. rewrite V. apply Z.eqb_eq. symmetry in E. apply same_value in E. exact E.
Qed.
Lemma half_step_reads m e mc ec n x : canonical mc ec -> (inject_Z m * power2 e == inject_Z mc * power2 ec)%Q ->
  (power10 (x + 16) <= inject_Z m * power2 e)%Q ->
  (Qabs (decimal false n x - inject_Z m * power2 e) <= (1 # 2) * power10 x)%Q -> reads_as m e (n, x) = true.
Proof.
  intros Hc E B H. rewrite E in B, H. destruct (close_reads mc ec n x Hc) as (m' & e' & V & Ev).
  - eapply Qle_lt_trans; [exact H|]. rewrite power10_plus in B. change (power10 16) with (inject_Z (10 ^ 16)) in B.
    destruct Hc as (Hm & _ & _). pose proof (power2_pos ec) as P. pose proof (power10_pos x) as T.
    set (t := power10 x) in *. clearbody t. set (p := power2 ec) in *. unfold half_gap. fold p. clearbody p.
    assert (M : (inject_Z mc <= inject_Z (2 ^ 53 - 1))%Q) by (rewrite <- Zle_Qle; lia).
    destruct (Z.eqb_spec mc (2 ^ 52)) as [->|].
    + change (inject_Z (10 ^ 16)) with 10000000000000000%Q in B. change (inject_Z (2 ^ 52)) with 4503599627370496%Q in B. lra.
    + assert (inject_Z mc * p <= inject_Z (2 ^ 53 - 1) * p)%Q by (apply Qmult_le_compat_r; [done|by apply Qlt_le_weak]).
      change (inject_Z (10 ^ 16)) with 10000000000000000%Q in B. change (inject_Z (2 ^ 53 - 1)) with 9007199254740991%Q in *. lra.
  - apply (reads_as_value m e n x m' e' V). by rewrite Ev, E.
Qed.

Lemma over_power10 num den x a b : (0 < num)%Z -> (0 < den)%Z ->
  (if (0 <=? x)%Z then (num, den * 10 ^ x)%Z else (num * 10 ^ (- x), den)%Z) = (a, b) ->
  (0 < a)%Z /\ (0 < b)%Z /\ (inject_Z num / inject_Z den == inject_Z a / inject_Z b * power10 x)%Q.
Proof.
  intros Hn Hd. pose proof (positive_nonzero _ (inject_pos den Hd)). destruct (Z.leb_spec 0 x); intros [= <- <-].
  - assert (P : (0 < 10 ^ x)%Z) by (apply Z.pow_pos_nonneg; lia). split; [done|]. split; [lia|].
    pose proof (positive_nonzero _ (inject_pos _ P)). rewrite power10_Z, inject_Z_mult by done. field. by split.
  - assert (P : (0 < 10 ^ (- x))%Z) by (apply Z.pow_pos_nonneg; lia). split; [lia|]. split; [done|].
    pose proof (positive_nonzero _ (inject_pos _ P)).
    assert (E : (power10 x == / inject_Z (10 ^ (- x)))%Q).
    { rewrite <- power10_Z by lia. rewrite Qpower_opp. by rewrite Qinv_involutive. }
    rewrite E, inject_Z_mult. field. by split.
Qed.
Definition down_up (num den dp n : Z) : (N * Z) * (N * Z) :=
  let x := (dp - n)%Z in
  let '(a, b) := if (0 <=? x)%Z then (num, den * 10 ^ x)%Z else (num * 10 ^ (- x), den)%Z in
  let q := (a / b)%Z in
  ((Z.to_N q, x), if (q + 1 =? 10 ^ n)%Z then (1, dp) else (Z.to_N (q + 1), x)).
Lemma seventeen m e mc ec num den dp : (0 < m)%Z -> fraction m e = (num, den) ->
  canonical mc ec -> (inject_Z m * power2 e == inject_Z mc * power2 ec)%Q ->
  (power10 (dp - 1) <= inject_Z num / inject_Z den)%Q ->
  reads_as m e (fst (down_up num den dp 17)) = true \/ reads_as m e (snd (down_up num den dp 17)) = true.
Proof.
  intros Hm Hf Hc E B. destruct (fraction_value m e num den Hm Hf) as (Hn & Hd & Ev). unfold down_up. cbv zeta.
  set (x := (dp - 17)%Z). replace (dp - 1)%Z with (x + 16)%Z in B by (unfold x; lia).
  destruct (if (0 <=? x)%Z then _ else _) as [a b] eqn:O. destruct (over_power10 num den x a b Hn Hd O) as (Ha & Hb & Eo). cbn [fst snd].
  rewrite <- Ev in B. rewrite <- Ev in Eo. set (v := (inject_Z m * power2 e)%Q) in *. pose proof (power10_pos x) as T.
  set (q := (a / b)%Z). assert (Hq : (0 <= q)%Z) by (apply Z.div_pos; lia). pose proof (inject_pos b Hb) as Bp.
  pose proof (Z.div_mod a b ltac:(lia)) as D. pose proof (Z.mod_pos_bound a b Hb) as R. fold q in D.
  set (y := (inject_Z a / inject_Z b)%Q) in *.
  assert (Y : (y * inject_Z b == inject_Z b * inject_Z q + inject_Z (a mod b))%Q).
  { unfold y. rewrite <- inject_Z_mult, <- inject_Z_plus, <- D. field. by apply positive_nonzero. }
  assert (R0 : (0 <= inject_Z (a mod b))%Q) by (change 0%Q with (inject_Z 0); rewrite <- Zle_Qle; lia).
  assert (R1 : (inject_Z (a mod b) < inject_Z b)%Q) by (rewrite <- Zlt_Qlt; lia).
  assert (Y0 : (inject_Z q <= y)%Q) by (apply (Qmult_le_r _ _ _ Bp); lra).
  assert (Y1 : (y <= inject_Z q + 1)%Q) by (apply (Qmult_le_r _ _ _ Bp); lra).
  assert (Dec : forall z, (0 <= z)%Z -> (decimal false (Z.to_N z) x - v == (inject_Z z - y) * power10 x)%Q).
  { intros z Hz. unfold decimal. rewrite Z2N.id by done. rewrite Eo. ring. }
  assert (A : forall z, (0 <= z)%Z -> (- (1 # 2) <= inject_Z z - y <= 1 # 2)%Q -> reads_as m e (Z.to_N z, x) = true).
  { intros z Hz [H1 H2]. apply (half_step_reads m e mc ec); [done|done|done|]. fold v. rewrite Dec by done.
    apply Qabs_Qle_condition. split.
    - apply (Qmult_le_compat_r _ _ (power10 x)) in H1; [lra|by apply Qlt_le_weak].
    - apply Qmult_le_compat_r; [done|by apply Qlt_le_weak]. }
  destruct (Qlt_le_dec (1 # 2) (y - inject_Z q)) as [C|C].
  - right. assert (I : (inject_Z (q + 1) == inject_Z q + 1)%Q) by (rewrite inject_Z_plus; reflexivity).
    destruct (Z.eqb_spec (q + 1) (10 ^ 17)) as [E17|].
    + assert (Ed : (decimal false 1 dp == decimal false (Z.to_N (q + 1)) x)%Q).
      { unfold decimal. rewrite E17. change (Z.of_N (Z.to_N (10 ^ 17))) with (10 ^ 17)%Z. rewrite <- power10_Z by lia.
        rewrite <- power10_plus. replace (17 + x)%Z with dp by (unfold x; lia). change (inject_Z (Z.of_N 1)) with 1%Q. ring. }
      destruct (close_reads mc ec 1 dp Hc) as (m' & e' & V & E2); [|apply (reads_as_value _ _ _ _ m' e' V); fold v; rewrite E2; by symmetry].
      rewrite Ed. fold v in E. rewrite <- E, Dec by lia.
      assert (H : (Qabs ((inject_Z (q + 1) - y) * power10 x) <= (1 # 2) * power10 x)%Q).
      { apply Qabs_Qle_condition. rewrite I. split; nra. }
      eapply Qle_lt_trans; [exact H|]. clear - B Hc E T. rewrite E in B. rewrite power10_plus in B.
      change (power10 16) with 10000000000000000%Q in B. destruct Hc as (Hm & _ & _). pose proof (power2_pos ec) as P.
      set (t := power10 x) in *. clearbody t. unfold half_gap. set (p := power2 ec) in *. clearbody p.
      assert (M : (inject_Z mc <= inject_Z (2 ^ 53 - 1))%Q) by (rewrite <- Zle_Qle; lia).
      destruct (Z.eqb_spec mc (2 ^ 52)) as [->|].
      * change (inject_Z (2 ^ 52)) with 4503599627370496%Q in B. lra.
      * assert (inject_Z mc * p <= inject_Z (2 ^ 53 - 1) * p)%Q by (apply Qmult_le_compat_r; [done|by apply Qlt_le_weak]).
        change (inject_Z (2 ^ 53 - 1)) with 9007199254740991%Q in *. lra.
    + apply A; [lia|]. rewrite I. lra.
  - left. apply A; [done|]. lra.
Qed.

Lemma shortest_from_S fuel m e num den dp n : exists c, 
  shortest_from (S fuel) (reads_as m e) num den dp n =
  match reads_as m e (fst (down_up num den dp n)), reads_as m e (snd (down_up num den dp n)) with
  | true, true => Some (if c : bool then snd (down_up num den dp n) else fst (down_up num den dp n))
  | true, false => Some (fst (down_up num den dp n))
  | false, true => Some (snd (down_up num den dp n))
  | false, false => shortest_from fuel (reads_as m e) num den dp (n + 1)
  end.
Proof. unfold down_up. cbn [shortest_from]. cbv zeta. destruct (if (0 <=? dp - n)%Z then _ else _) as [a b]. cbn [fst snd]. eexists. reflexivity. Qed.
Lemma shortest_from_reads fuel m e num den dp : forall n nx, shortest_from fuel (reads_as m e) num den dp n = Some nx -> reads_as m e nx = true.
Proof.
  induction fuel as [|fuel IH]; intros n nx; [done|]. destruct (shortest_from_S fuel m e num den dp n) as [c ->].
  destruct (reads_as m e (fst _)) eqn:D, (reads_as m e (snd _)) eqn:U; try (by intros [= <-]); [|apply IH].
  intros [= <-]. by destruct c.
Qed.
Lemma shortest_from_found fuel m e num den dp : forall n, (n + Z.of_nat fuel = 17)%Z ->
  reads_as m e (fst (down_up num den dp 17)) = true \/ reads_as m e (snd (down_up num den dp 17)) = true ->
  exists nx, shortest_from (S fuel) (reads_as m e) num den dp n = Some nx.
Proof.
  induction fuel as [|fuel IH]; intros n Hn H.
  - destruct (shortest_from_S 0 m e num den dp n) as [c' ->]. replace n with 17%Z by lia.
    destruct (reads_as m e (fst _)), (reads_as m e (snd _)); try (by eexists). by destruct H.
  - destruct (shortest_from_S (S fuel) m e num den dp n) as [c' ->].
    destruct (reads_as m e (fst (down_up num den dp n))), (reads_as m e (snd (down_up num den dp n))); try (by eexists).
    apply IH; [lia|done].
Qed.

Lemma shortest_reads m e n x : (0 < m)%Z -> shortest m e = Some (n, x) -> 0 < n /\ reads_as m e (n, x) = true.
Proof.
  intros Hm. unfold shortest. destruct (fraction m e) as [num den]. unfold shortest_of. cbv zeta. intros H%shortest_from_reads. split; [|done].
  destruct (N.eq_dec n 0) as [->|]; [|lia]. exfalso. unfold reads_as in H. cbn [fst snd] in H.
  assert (V : value_of 0 x = Some (FFin 0 0)).
  { unfold value_of, nearest_float. change (Z.of_N 0) with 0%Z. by destruct (0 <=? x)%Z. }
  rewrite V in H. apply Z.eqb_eq in H. rewrite Z.mul_0_l in H. assert (0 < 2 ^ (e - Z.min e 0))%Z by (apply Z.pow_pos_nonneg; lia). nia.
Qed.
Lemma shortest_found m e : (0 < m)%Z -> float64 (FFin m e) -> exists n x, shortest m e = Some (n, x).
Proof.
  intros Hm (m1 & e1 & S & H1 & H2). apply same_value in S.
  assert (P1 : (0 < m1)%Z).
  { assert (0 < inject_Z m1 * power2 e1)%Q as P by (rewrite <- S; apply Qmult_lt_0_compat; [by apply inject_pos|apply power2_pos]).
    destruct (Z.le_gt_cases m1 0) as [C|]; [|done]. exfalso. rewrite Zle_Qle in C. pose proof (power2_pos e1).
    change (inject_Z 0) with 0%Q in C. nra. }
  destruct (canonical_form m1 e1) as (mc & ec & Hc & Ec); [lia|done|]. rewrite <- S in Ec.
  unfold shortest. destruct (fraction m e) as [num den] eqn:F. destruct (fraction_value m e num den Hm F) as (Hn & Hd & Ev). unfold shortest_of. cbv zeta.
  set (d := (digit_count num - digit_count den)%Z).
  destruct (shortest_from_found 16 m e num den (if (if (0 <=? d)%Z then (num <? den * 10 ^ d)%Z else (num * 10 ^ (- d) <? den)%Z) then d else (d + 1)%Z) 1)
    as [[n x] E]; [done| |by exists n, x].
  apply (seventeen m e mc ec); [done..|]. destruct (if (0 <=? d)%Z then _ else _) eqn:L.
  - clear L. destruct (digit_count_bounds num Hn) as [N1 _]. destruct (digit_count_bounds den Hd) as [_ D1].
    apply Qle_shift_div_l; [by apply inject_pos|]. 
    assert (Dn : (1 <= digit_count num)%Z).
    { destruct (Z.le_gt_cases 1 (digit_count num)); [done|]. unfold digit_count in *. destruct (digit_count_bounds num Hn) as [_ N2].
      unfold digit_count in N2. replace (Z.of_nat (String.length (pretty num))) with 0%Z in N2 by lia. change (10 ^ 0)%Z with 1%Z in N2. lia. }
    assert (Dd : (0 <= digit_count den)%Z) by (unfold digit_count; lia).
    apply (Qle_trans _ (power10 (d - 1) * power10 (digit_count den))).
    + apply Qmult_le_l; [apply power10_pos|]. rewrite power10_Z by done. rewrite <- Zle_Qle. lia.
    + rewrite <- power10_plus. replace (d - 1 + digit_count den)%Z with (digit_count num - 1)%Z by (unfold d; lia).
      rewrite power10_Z by lia. by rewrite <- Zle_Qle.
  - replace (d + 1 - 1)%Z with d by lia. apply Qnot_lt_le. rewrite <- (less_power10 num den d) by done. by rewrite L.
Qed.

(** * The text of a float *)

Theorem float_text_read f t : json_float f = Some t ->
  exists neg n x g, jnumber t neg n x /\ value_of n x = Some g /\ float_same f (negate neg g).
Proof.
  destruct f as [m e| |]; [|done..]. cbn [json_float]. destruct (Z.eqb_spec m 0) as [->|Hm].
  { intros [= <-]. exists false, 0, 0%Z, (FFin 0 0). split; [exact (natural_number false 0 (or_intror eq_refl))|]. split; [done|]. cbn. lia. }
  cbv zeta. destruct (fraction (Z.abs m) e) as [num den]. destruct (shortest (Z.abs m) e) as [[n x]|] eqn:S; [|done].
  intros [= <-]. apply shortest_reads in S as [Hn R]; [|lia]. unfold reads_as in R. cbn [fst snd] in R.
  destruct (value_of n x) as [g|] eqn:V; [|done]. destruct g as [m' e'| |]; [|done..]. apply Z.eqb_eq in R.
  destruct (float_text_number (m <? 0)%Z ((num * 2 ^ 72 <? den * 4722366482869645) || (den * 10 ^ 21 <=? num))%Z n x Hn) as (n' & x' & J & K).
  exists (m <? 0)%Z, n', x', (FFin m' e'). split; [exact J|]. split.
  - destruct K as [[-> ->]|(Hx & -> & ->)]; [done|]. by rewrite value_of_shift.
  - cbn [negate float_same]. destruct (Z.ltb_spec m 0).
    + rewrite Z.mul_opp_l, <- R. lia.
    + rewrite <- R. f_equal. lia.
Qed.
Theorem float_has_text f : float64 f -> exists t, json_float f = Some t.
Proof.
  intros H. destruct f as [m e| |]; [|destruct H as (? & ? & [] & _)..]. cbn [json_float].
  destruct (Z.eqb_spec m 0) as [|Hm0]; [by eexists|]. cbv zeta. destruct (fraction (Z.abs m) e) as [num den].
  destruct (shortest_found (Z.abs m) e) as (n & x & ->); [lia| |by eexists].
  destruct H as (m' & e' & S & H1 & H2). exists (Z.abs m'), e'. split; [|split; lia].
  cbn [float_same] in S |- *. rewrite <- (Z.abs_eq (2 ^ (e - Z.min e e'))), <- (Z.abs_eq (2 ^ (e' - Z.min e e'))) by (apply Z.pow_nonneg; lia).
  rewrite <- !Z.abs_mul. by f_equal.
Qed.

Lemma nearest_same q v w : (v == w)%Q -> nearest q v -> nearest q w.
Proof.
  intros E ((m & e & Hd & Hm & He) & Hn & Ht). split; [|split].
  - exists m, e. split; [done|]. split; [done|]. by rewrite <- E.
  - intros u Hu. rewrite <- E. by apply Hn.
  - intros u Hu Eu. assert (Eu' : (Qabs (u - q) == Qabs (v - q))%Q) by (rewrite Eu; by rewrite E).
    destruct (Ht u Hu Eu') as [K|(m' & e' & ? & ? & ? & ? & E')]; [left; by rewrite K|].
    right. exists m', e'. repeat (split; [done|]). by rewrite <- E.
Qed.
