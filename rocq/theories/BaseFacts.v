(** Facts about ids, conversions and the raw socket framing. *)
From Verif Require Import Prelude Value IdGen Rawsocket BaseSpec.

Ltac Zify.zify_post_hook ::= Z.div_mod_to_equations.

(** * Ids *)

(** The values returned by [n] successive NextID calls from counter [c]. *)
Fixpoint calls (n : nat) (c : N) : list N :=
  match n with O => [] | S n => let i := next_id c in i :: calls n i end.

Lemma calls_length n c : length (calls n c) = n.
Proof. revert c; induction n; intros c; cbn; [done|]; f_equal; apply IHn. Qed.

Lemma next_id_closed c : c <= two53 → next_id c = c mod two53 + 1.
Proof.
  unfold next_id, max_id. intros H. destruct (N.eqb_spec c two53) as [->|Hne].
  - by rewrite N.mod_same.
  - rewrite N.mod_small; [done|]. lia.
Qed.

Lemma calls_closed n : forall c i v, c <= two53 →
  calls n c !! i = Some v → v = (c + N.of_nat i) mod two53 + 1.
Proof.
  induction n as [|n IH]; intros c i v Hc H; [done|].
  destruct i as [|i].
  - cbn [calls] in H. rewrite N.add_0_r. injection H as <-. by apply next_id_closed.
  - cbn [calls] in H. change (calls n (next_id c) !! i = Some v) in H.
    pose proof (next_id_closed c Hc) as E.
    assert (next_id c <= two53) as Hn.
    { rewrite E. pose proof (N.mod_lt c two53 ltac:(done)) as Hm.
  revert Hm. generalize (c mod two53). intros; lia. }
    rewrite (IH _ _ _ Hn H), E. f_equal.
    replace (c mod two53 + 1 + N.of_nat i) with (c mod two53 + (1 + N.of_nat i)) by lia.
    rewrite N.add_mod_idemp_l by (unfold two53; lia). f_equal. lia.
Qed.

Lemma next_id_range c : c <= two53 → 1 <= next_id c <= two53.
Proof.
  intros H. rewrite (next_id_closed _ H). pose proof (N.mod_lt c two53 ltac:(done)) as Hm.
  revert Hm. generalize (c mod two53). intros; lia.
Qed.

Lemma next_id_small c : c < two53 → next_id c = c + 1.
Proof.
  intros H. unfold next_id, max_id. destruct (N.eqb_spec c two53); lia.
Qed.

(** * Conversions *)

Section conv.
Context {PL : Platform}.

Lemma wrap64_id z : (0 <= z < two64)%Z → wrap64 z = Z.to_N z.
Proof. intros H. unfold wrap64. by rewrite Z.mod_small. Qed.

Lemma ftrunc_spec m e z : float_trunc (FFin m e) z ↔ ftrunc m e = z.
Proof.
  unfold float_trunc, ftrunc. destruct (Z.leb_spec 0 e); [done|].
  assert (0 < 2 ^ (- e))%Z as Hp by (apply Z.pow_pos_nonneg; lia).
  set (p := (2 ^ (- e))%Z) in *. clearbody p. clear H.
  split.
  - intros [Hb Hs].
    destruct (Z.leb_spec 0 m).
    + assert (0 <= z)%Z.
      { destruct Hs as [->|Hs]; [lia|]. destruct (Z.eq_dec m 0) as [->|]; [nia|].
        destruct z; destruct m; cbn in Hs; lia. }
      rewrite !Z.abs_eq in Hb by lia.
      symmetry. apply (Z.quot_unique m p z (m - z * p)); lia.
    + assert (z <= 0)%Z.
      { destruct Hs as [->|Hs]; [lia|]. destruct z; destruct m; cbn in Hs; lia. }
      rewrite (Z.abs_neq z), (Z.abs_neq m) in Hb by lia.
      assert ((- z) = (- m) ÷ p)%Z as E by (apply (Z.quot_unique _ _ _ (- m + z * p)); lia).
      rewrite Z.quot_opp_l in E by lia. lia.
  - intros <-.
    pose proof (Z.quot_rem' m p) as E.
    pose proof (Z.rem_bound_abs m p ltac:(lia)) as B.
    destruct (Z.leb_spec 0 m).
    + pose proof (Z.rem_bound_pos m p ltac:(lia) ltac:(lia)).
      pose proof (Z.quot_pos m p ltac:(lia) ltac:(lia)).
      split; [nia|].
      destruct (Z.eq_dec (m ÷ p) 0) as [|Hn]; [by left|right].
      rewrite !Z.sgn_pos; nia.
    + pose proof (Z.rem_bound_pos (- m) p ltac:(lia) ltac:(lia)) as B2.
      rewrite Z.rem_opp_l in B2 by lia.
      pose proof (Z.quot_pos (- m) p ltac:(lia) ltac:(lia)) as Q2.
      rewrite Z.quot_opp_l in Q2 by lia.
      split; [nia|].
      destruct (Z.eq_dec (m ÷ p) 0) as [|Hn]; [by left|right].
      rewrite !Z.sgn_neg; nia.
Qed.

Lemma float_is_trunc f z : float_is f z → float_trunc f z.
Proof.
  destruct f as [m e| |]; [|done..]. unfold float_is, float_trunc.
  destruct (Z.leb_spec 0 e); [done|].
  assert (0 < 2 ^ (- e))%Z as Hp by (apply Z.pow_pos_nonneg; lia).
  intros ->. rewrite Z.abs_mul, (Z.abs_eq (2 ^ (- e))) by lia. split; [lia|].
  right. rewrite Z.sgn_mul, (Z.sgn_pos (2 ^ (- e))) by lia. lia.
Qed.

Lemma f2u_trunc f z : float_trunc f z → (0 <= z < two64)%Z → f2u f = Z.to_N z.
Proof.
  destruct f as [m e| |]; [|done..]. intros H Hr.
  apply ftrunc_spec in H. unfold f2u. rewrite H.
  destruct (Z.leb_spec 0 z); [|lia]. by destruct (Z.ltb_spec z two64); [|lia].
Qed.

Lemma f2i_trunc f z : float_trunc f z → (- two63 <= z < two63)%Z → f2i f = z.
Proof.
  destruct f as [m e| |]; [|done..]. intros H Hr.
  apply ftrunc_spec in H. unfold f2i. rewrite H.
  destruct (Z.leb_spec (- two63) z); [|lia]. by destruct (Z.ltb_spec z two63); [|lia].
Qed.

Lemma as_int_int k z : fits k z →
  as_int (VInt k z) = if bool_decide (- two63 <= z < two63)%Z then (z, true) else (0%Z, false).
Proof.
  intros [H1 H2].
  destruct k; cbn [as_int]; unfold kmin, kmax, two63, two64 in *;
    repeat case_bool_decide; repeat case_match; try done; exfalso;
    repeat match goal with
    | H : (_ && _)%bool = true |- _ => apply andb_true_iff in H as [?%Z.leb_le ?%Z.leb_le]
    | H : (_ && _)%bool = false |- _ =>
        apply andb_false_iff in H as [?%Z.leb_gt|?%Z.leb_gt]
    | H : (_ <=? _)%Z = true |- _ => apply Z.leb_le in H
    | H : (_ <=? _)%Z = false |- _ => apply Z.leb_gt in H
    end; lia.
Qed.

Lemma as_uint64_int k z : k ≠ KInt16 → (0 <= z < two64)%Z →
  as_uint64 (VInt k z) = (Z.to_N z, true).
Proof. intros Hk Hz. destruct k; cbn [as_uint64]; try done; by rewrite wrap64_id. Qed.

Lemma as_uint64_float f z : float_is f z → (0 <= z < two64)%Z →
  as_uint64 (VF64 f) = (Z.to_N z, true) /\ as_uint64 (VF32 f) = (Z.to_N z, true).
Proof.
  intros Hf Hz. apply float_is_trunc in Hf. cbn [as_uint64].
  by rewrite (f2u_trunc _ _ Hf Hz).
Qed.

Lemma fits_nonneg_64 k z : fits k z → (z < two64)%Z.
Proof. intros [_ H]. destruct k; unfold kmax, two63, two64 in *; lia. Qed.

Lemma round53_small z : (Z.abs z <= Z.of_N two53)%Z → round53 z = z.
Proof.
  intros H. unfold round53, two53 in *.
  destruct (Z.ltb_spec (Z.abs z) (2 ^ 53)) as [|Hge]; [done|].
  assert (Z.abs z = 2 ^ 53)%Z as -> by lia.
  destruct (Z.abs_eq_or_opp z) as [E|E]; rewrite E in *.
  - assert (z = 2 ^ 53)%Z as -> by lia. vm_compute. done.
  - assert (z = - 2 ^ 53)%Z as -> by lia. vm_compute. done.
Qed.

Lemma as_float64_int k z : k ≠ KInt16 → (Z.abs z <= Z.of_N two53)%Z →
  as_float64 (VInt k z) = (FFin z 0, true).
Proof. intros Hk Hz. destruct k; cbn [as_float64]; try done; by rewrite round53_small. Qed.

Lemma as_uint64_faithful v z n :
  number v z → (0 <= z < two64)%Z → as_uint64 v = (n, true) → Z.of_N n = z.
Proof.
  destruct v as [| |k z'|f|f| | | | | |]; cbn [number]; try done.
  - intros ->. intros Hz. destruct k; cbn [as_uint64]; intros [=<-]; rewrite wrap64_id by done; lia.
  - intros Hf Hz. cbn [as_uint64]. rewrite (f2u_trunc _ _ Hf Hz). intros [=<-]. lia.
  - intros Hf Hz. cbn [as_uint64]. rewrite (f2u_trunc _ _ Hf Hz). intros [=<-]. lia.
Qed.

(** Bounds of the float tests in AsInt against the truncated value. *)
Lemma fbounds m e z : float_trunc (FFin m e) z →
  fge_int m e (- two63) && fle_int m e two63 = true → (- two63 <= z <= two63)%Z.
Proof.
  intros H [H1 H2]%andb_true_iff. unfold fge_int, fle_int, float_trunc in *.
  destruct (Z.leb_spec 0 e).
  - subst. apply Z.leb_le in H1, H2. done.
  - apply Z.leb_le in H1, H2.
    assert (0 < 2 ^ (- e))%Z as Hp by (apply Z.pow_pos_nonneg; lia).
    set (p := (2 ^ (- e))%Z) in *. clearbody p. destruct H as [Hb Hs].
    unfold two63 in *. nia.
Qed.

Lemma as_int_float f z : float_is f z → (- two63 <= z < two63)%Z →
  as_int (VF64 f) = (z, true) /\ as_int (VF32 f) = (z, true).
Proof.
  intros Hf Hz. destruct f as [m e| |]; [|destruct Hf..]. cbn [as_int].
  assert (fge_int m e (- two63) && fle_int m e two63 = true) as ->.
  { unfold fge_int, fle_int, float_is in *. destruct (Z.leb_spec 0 e).
    - apply andb_true_iff. split; apply Z.leb_le; lia.
    - assert (0 < 2 ^ (- e))%Z by (apply Z.pow_pos_nonneg; lia).
      apply andb_true_iff. split; apply Z.leb_le; nia. }
  rewrite (f2i_trunc _ _ (float_is_trunc _ _ Hf) Hz). done.
Qed.

Lemma as_int_faithful v n :
  go_value v → as_int v = (n, true) →
  exists z, number v z /\ (- two63 <= z <= two63)%Z /\ (z < two63 → n = z)%Z.
Proof.
  assert (forall m e,
    (if fge_int m e (- two63) && fle_int m e two63
      then (f2i (FFin m e), true) else (0%Z, false)) = (n, true) →
    exists z, float_trunc (FFin m e) z /\ (- two63 <= z <= two63)%Z /\ (z < two63 → n = z)%Z) as Hfl.
  { intros m e H. destruct (fge_int m e (- two63) && fle_int m e two63) eqn:E; [|done].
    injection H as <-. exists (ftrunc m e).
    assert (float_trunc (FFin m e) (ftrunc m e)) as Ht by by apply ftrunc_spec.
    pose proof (fbounds _ _ _ Ht E) as Hb. repeat split; [done|lia|lia|].
    intros Hlt. apply (f2i_trunc (FFin m e)); [done|lia]. }
  intros Hg H.
  destruct v as [| |k z'|f|f| | | | | |]; try done.
  - exists z'. cbn [number]. cbn [go_value] in Hg.
    rewrite (as_int_int _ _ Hg) in H. case_bool_decide; [|done].
    injection H as <-. repeat split; lia.
  - destruct f; [|done..]. cbn [number]. by apply Hfl.
  - destruct f; [|done..]. cbn [number]. by apply Hfl.
Qed.

(** * Raw socket *)

Lemma land15 z : Z.land z 15 = (z mod 16)%Z.
Proof. change 15%Z with (Z.ones 4). by rewrite Z.land_ones by lia. Qed.

Lemma land255 z : Z.land z 255 = (z mod 256)%Z.
Proof. change 255%Z with (Z.ones 8). by rewrite Z.land_ones by lia. Qed.

Lemma lor_shl a b k : (0 <= k)%Z → (0 <= b < 2 ^ k)%Z →
  Z.lor (Z.shiftl a k) b = (a * 2 ^ k + b)%Z.
Proof.
  intros Hk Hb. assert (Z.land (Z.shiftl a k) b = 0)%Z as E.
  { apply Z.bits_inj'. intros n Hn. rewrite Z.land_spec, Z.bits_0.
    destruct (Z.ltb_spec n k).
    - rewrite Z.shiftl_spec_low by lia. done.
    - destruct (Z.eq_dec b 0) as [->|]; [by rewrite Z.bits_0, andb_false_r|].
      rewrite (Z.bits_above_log2 b n); [by rewrite andb_false_r|lia|].
      apply Z.log2_lt_pow2; [lia|]. apply (Z.lt_le_trans _ (2 ^ k)); [lia|].
      apply Z.pow_le_mono_r; lia. }
  rewrite <- (Z.lxor_lor _ _ E), <- (Z.add_nocarry_lxor _ _ E).
  rewrite Z.shiftl_mul_pow2 by lia. done.
Qed.

Definition hs_byte (k ser : Z) : Z := ((k - 9) * 16 + ser mod 16)%Z.

Lemma send_handshake_legal ser k : (9 <= k <= 24)%Z →
  send_handshake (Handshake ser (2 ^ k)) = Ok [127; hs_byte k ser; 0; 0]%Z.
Proof.
  intros Hk. unfold send_handshake. cbn [hs_max hs_serializer].
  assert (2 ^ k <= 2 ^ 24)%Z by (apply Z.pow_le_mono_r; lia).
  assert (0 < 2 ^ k)%Z by (apply Z.pow_pos_nonneg; lia).
  unfold ProtocolMaxMsgSize. destruct (Z.ltb_spec (2 ^ 24) (2 ^ k)); [lia|].
  unfold int_log2. destruct (Z.ltb_spec 0 (2 ^ k)); [|lia].
  rewrite Z.log2_pow2 by lia. unfold go_shl1.
  destruct (Z.ltb_spec k 0); [lia|]. destruct (Z.ltb_spec k 63); [|lia].
  rewrite Z.eqb_refl. destruct (Z.ltb_spec k 9); [lia|]. cbn [negb orb].
  rewrite land15, lor_shl by lia. unfold to_byte, MAGIC, hs_byte.
  rewrite Z.mod_small by lia. done.
Qed.

Lemma send_handshake_ok_inv hs b : (0 < hs_max hs)%Z →
  send_handshake hs = Ok b → legal_size (hs_max hs).
Proof.
  intros Hpos. unfold send_handshake, ProtocolMaxMsgSize.
  destruct (Z.ltb_spec (2 ^ 24) (hs_max hs)) as [|Hle]; [done|].
  unfold int_log2. destruct (Z.ltb_spec 0 (hs_max hs)); [|lia].
  unfold go_shl1. pose proof (Z.log2_nonneg (hs_max hs)).
  assert (Z.log2 (hs_max hs) <= 24)%Z.
  { rewrite <- (Z.log2_pow2 24) by lia. by apply Z.log2_le_mono. }
  destruct (Z.ltb_spec (Z.log2 (hs_max hs)) 0); [lia|].
  destruct (Z.ltb_spec (Z.log2 (hs_max hs)) 63); [|lia].
  destruct (Z.eqb_spec (2 ^ Z.log2 (hs_max hs)) (hs_max hs)) as [E|]; [|done].
  destruct (Z.ltb_spec (Z.log2 (hs_max hs)) 9); [done|]. cbn [negb orb]. intros _.
  exists (Z.log2 (hs_max hs)). split; [lia|done].
Qed.

Lemma send_handshake_pos_illegal hs : (0 < hs_max hs)%Z → ¬ legal_size (hs_max hs) →
  exists e, send_handshake hs = Err e.
Proof.
  intros Hpos Hill. destruct (send_handshake hs) as [b|e|w] eqn:E.
  - destruct Hill. by eapply send_handshake_ok_inv.
  - by exists e.
  - exfalso. revert E. unfold send_handshake, ProtocolMaxMsgSize.
    destruct (Z.ltb_spec (2 ^ 24) (hs_max hs)) as [|Hle]; [done|].
    unfold int_log2. destruct (Z.ltb_spec 0 (hs_max hs)); [|lia].
    unfold go_shl1. pose proof (Z.log2_nonneg (hs_max hs)).
    destruct (Z.ltb_spec (Z.log2 (hs_max hs)) 0); [lia|].
    repeat case_match; done.
Qed.

Lemma receive_handshake_spec data hs : bytes data →
  receive_handshake data = Ok hs ↔
  exists b, data = [127; b; 0; 0]%Z /\ hs = Handshake (b mod 16) (2 ^ (b / 16 + 9)).
Proof.
  intros Hb. unfold receive_handshake.
  assert (forall d1, (0 <= d1 < 256)%Z →
    Handshake (Z.land d1 15) (2 ^ to_byte (Z.shiftr d1 4 + 9))
    = Handshake (d1 mod 16) (2 ^ (d1 / 16 + 9))) as Heq.
  { intros d1 Hd. rewrite land15, Z.shiftr_div_pow2 by lia. unfold to_byte.
    rewrite (Z.mod_small (d1 / 2 ^ 4 + 9)); [done|]. change (2 ^ 4)%Z with 16%Z. lia. }
  split.
  - destruct data as [|d0 [|d1 [|d2 [|d3 [|]]]]]; try done.
    unfold MAGIC. destruct (Z.eqb_spec d0 127) as [->|]; [|done].
    destruct (Z.eqb_spec d2 0) as [->|]; [|done].
    destruct (Z.eqb_spec d3 0) as [->|]; [|done]. cbn [negb orb]. intros [=<-].
    exists d1. split; [done|]. apply Heq.
    inversion Hb as [|? ? ? Hb2]; subst. by inversion Hb2.
  - intros (b & -> & ->). unfold MAGIC. rewrite !Z.eqb_refl. cbn [negb orb]. rewrite Heq; [done|].
    inversion Hb as [|? ? ? Hb2]; subst. by inversion Hb2.
Qed.

Lemma bytes_to_int3 a b c : (0 <= a < 256)%Z → (0 <= b < 256)%Z → (0 <= c < 256)%Z →
  bytes_to_int [a; b; c] = (a * 65536 + b * 256 + c)%Z.
Proof.
  intros Ha Hb Hc. unfold bytes_to_int. cbn [fold_left].
  assert (forall z, (0 <= z < 2 ^ 32)%Z → wrap_int z = z) as Hw.
  { intros z Hz. unfold wrap_int, two63, two64. rewrite Z.mod_small; lia. }
  assert (forall n v, (0 <= n < 2 ^ 24)%Z → (0 <= v < 256)%Z →
          Z.lor (wrap_int (Z.shiftl n 8)) v = (n * 256 + v)%Z) as Hs.
  { intros n v Hn Hv. rewrite Hw.
    - rewrite lor_shl; lia.
    - rewrite Z.shiftl_mul_pow2 by lia. lia. }
  rewrite (Hs 0 a)%Z by lia. rewrite (Hs _ b) by lia. rewrite (Hs _ c) by lia. lia.
Qed.

Lemma int_to_bytes_closed n :
  int_to_bytes n = [n / 65536 mod 256; n / 256 mod 256; n mod 256]%Z.
Proof.
  unfold int_to_bytes, to_byte. rewrite !land255, !Z.shiftr_div_pow2 by lia.
  rewrite !Z.mod_mod by lia. done.
Qed.

Lemma header_roundtrip k n : (0 <= k < 256)%Z →
  receive_header (send_header (Header k n)) = Ok (Header k (n mod 2 ^ 24)).
Proof.
  intros Hk. unfold receive_header, send_header. cbn [hd_kind hd_length].
  rewrite int_to_bytes_closed, bytes_to_int3 by lia.
  unfold to_byte. rewrite (Z.mod_small k) by lia. do 2 f_equal. lia.
Qed.

End conv.

Lemma anys_to_strings_spec l :
  (forall r, anys_to_strings l = Ok r <-> l = map VStr r)
  /\ ((exists e, anys_to_strings l = Err e) <-> exists v, v ∈ l /\ forall s, v <> VStr s).
Proof.
  induction l as [|v l [IH1 IH2]].
  - split; [|split; [by intros [e [=]]|by intros (v & H & _); apply elem_of_nil in H]].
    intros r. split; [by intros [= <-]|]. by destruct r.
  - destruct v as [| |k z|f|f|s| | | | |]; try (split;
      [intros r; split; [by intros [=]|by destruct r]
      |split; [intros _; eexists; split; [left|by intros ?]|by eexists]]).
    cbn [anys_to_strings]. destruct (anys_to_strings l) as [r'|e|w] eqn:E.
    + assert (l = map VStr r') as -> by by apply IH1. split.
      * intros r. split; [by intros [= <-]|]. destruct r as [|s' r]; [by intros [=]|]. intros [= <- H].
        apply IH1 in H. by injection H as ->.
      * split; [by intros [e [=]]|]. intros (v & Hv & Hn). apply elem_of_cons in Hv as [->|Hv]; [by destruct (Hn s)|].
        destruct IH2 as [_ IH2]. destruct IH2 as [e [=]]. eauto.
    + split.
      * intros r. split; [by intros [=]|]. destruct r as [|s' r]; [by intros [=]|]. intros [= <- H]. by apply IH1 in H.
      * split; [|by eexists]. intros _. destruct IH2 as [IH2 _]. destruct IH2 as (v & Hv & Hn); [by eexists|].
        exists v. split; [by right|done].
    + exfalso. clear -E. revert w E. induction l as [|[] l IH]; intros w E; try discriminate E. cbn in E.
      destruct (anys_to_strings l); [discriminate E..|]. by eapply IH.
Qed.
