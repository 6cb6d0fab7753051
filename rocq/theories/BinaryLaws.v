(** Proofs: CBOR and MessagePack have the laws of BinaryRound.v. *)
From Coq Require Import Ascii ZifyN ZifyNat.
From Verif Require Import Prelude Value Msg BaseSpec WireSpec FloatSame MsgSpec PathMatch PathMatchSpec PathUtf8 Encoding JsonSpec JsonFacts JsonSafe
  Payload Binary BinarySpec BinaryRound.

Local Open Scope string_scope.
Local Open Scope N_scope.

(** * Bytes *)
Lemma byte_ascii n : n < 256 -> byte (ascii_of_N n) = n.
Proof. intros H. unfold byte. by apply N_ascii_embedding. Qed.
Lemma be_length k n : String.length (be k n) = k.
Proof. induction k as [|k IH]; [done|]. cbn [be String.length]. by rewrite IH. Qed.
Lemma be1 n : n < 256 -> be 1 n = byte1 n.
Proof. intros H. unfold byte1. cbn [be]. change (256 ^ N.of_nat 0) with 1. rewrite N.div_1_r, N.mod_small by done. done. Qed.
Definition numb (acc : N) (s : string) : N :=
  fold_left (fun acc c => acc * 256 + N_of_ascii c) (list_ascii_of_string s) acc.
Lemma numb_be k : forall n acc, numb acc (be k n) = acc * 256 ^ N.of_nat k + n mod 256 ^ N.of_nat k.
Proof.
  induction k as [|k IH]; intros n acc.
  - cbn. rewrite N.mod_1_r. lia.
  - unfold numb. cbn [be list_ascii_of_string fold_left]. fold (numb (acc * 256 + N_of_ascii (ascii_of_N (n / 256 ^ N.of_nat k mod 256))) (be k n)).
    rewrite IH. change (N_of_ascii ?c) with (byte c). rewrite byte_ascii by by apply N.mod_lt.
    replace (N.of_nat (S k)) with (N.succ (N.of_nat k)) by lia. rewrite N.pow_succ_r'.
    rewrite (N.mul_comm 256 (256 ^ _)). rewrite N.mod_mul_r by (try apply N.pow_nonzero; done). nia.
Qed.
Lemma number_be k n : n < 256 ^ N.of_nat k -> number (be k n) = n.
Proof. intros H. change (number (be k n)) with (numb 0 (be k n)). rewrite numb_be, N.mod_small by done. lia. Qed.
Lemma read_be_numb s : forall acc r, read_be (String.length s) acc (s ++ r) = Some (numb acc s, r).
Proof. induction s as [|c s IH]; intros acc r; [done|]. exact (IH _ r). Qed.
Lemma read_be_ok k s r : String.length s = k -> read_be k 0 (s ++ r) = Some (number s, r).
Proof. intros <-. apply read_be_numb. Qed.
Lemma read_be_local k : forall acc s n r x, read_be k acc s = Some (n, r) -> read_be k acc (s ++ x) = Some (n, r ++ x).
Proof.
  induction k as [|k IH]; intros acc s n r x H; cbn [read_be] in *; [by injection H as -> ->|].
  destruct s as [|c s]; [done|]. by apply IH.
Qed.
Lemma number_bound s : number s < 256 ^ N.of_nat (String.length s).
Proof.
  assert (H : forall s acc, numb acc s < (acc + 1) * 256 ^ N.of_nat (String.length s)); [|specialize (H s 0); unfold number, numb in *; lia].
  clear s. induction s as [|c s IH]; intros acc; [cbn; lia|]. unfold numb. cbn [list_ascii_of_string fold_left].
  fold (numb (acc * 256 + N_of_ascii c) s). specialize (IH (acc * 256 + N_of_ascii c)).
  cbn [String.length]. replace (N.of_nat (S (String.length s))) with (N.succ (N.of_nat (String.length s))) by lia.
  rewrite N.pow_succ_r'. pose proof (N_ascii_bounded c). pose proof (N.pow_nonzero 256 (N.of_nat (String.length s))). nia.
Qed.
Lemma read_bytes_ok s r : read_bytes (N.of_nat (String.length s)) (s ++ r) = Some (s, r).
Proof.
  unfold read_bytes. rewrite slength_app. destruct (N.leb_spec (N.of_nat (String.length s)) (N.of_nat (String.length s + String.length r))); [|lia].
  rewrite Nat2N.id, stake_app, sdrop_app. done.
Qed.
Lemma stake_app_le n : forall s x, (n <= String.length s)%nat -> stake n (s ++ x) = stake n s /\ sdrop n (s ++ x) = sdrop n s ++ x.
Proof.
  induction n as [|n IH]; intros s x H; [destruct s, x; done|]. destruct s as [|c s]; [cbn in H; lia|]. cbn in H.
  destruct (IH s x) as [E1 E2]; [lia|]. split; [|exact E2]. change (String c (stake n (s ++ x)) = String c (stake n s)). by rewrite E1.
Qed.
Lemma read_bytes_local n s y r x : read_bytes n s = Some (y, r) -> read_bytes n (s ++ x) = Some (y, r ++ x).
Proof.
  unfold read_bytes. rewrite slength_app. destruct (N.leb_spec n (N.of_nat (String.length s))); [|done].
  destruct (N.leb_spec n (N.of_nat (String.length s + String.length x))); [|lia]. intros [= <- <-].
  destruct (stake_app_le (N.to_nat n) s x) as [-> ->]; [lia|]. done.
Qed.

Lemma utf8_some r : (1 <= String.length (utf8 r))%nat.
Proof. unfold utf8. repeat case_match; cbn; lia. Qed.
Lemma rune_error_long : String.length (utf8 rune_error) = 3%nat.
Proof. reflexivity. Qed.
Lemma utf8_valid_text s : text s -> forall fuel, (String.length s <= fuel)%nat -> utf8_valid fuel s = true.
Proof.
  induction 1 as [|r s Hr Hs IH]; intros fuel Hf; [by destruct fuel|]. rewrite slength_app in Hf. pose proof (utf8_some r).
  destruct fuel as [|f]; [lia|]. destruct (utf8 r ++ s) as [|c s'] eqn:E; [done|]. cbn [utf8_valid]. rewrite <- E.
  rewrite decode_utf8 by done. destruct (N.eqb_spec r rune_error) as [->|]; cbn [andb].
  - rewrite rune_error_long. cbn [Nat.eqb]. change 3%nat with (String.length (utf8 rune_error)). rewrite sdrop_app.
    apply IH. lia.
  - rewrite sdrop_app. apply IH. lia.
Qed.
Lemma text_utf8_valid fuel : forall s, utf8_valid fuel s = true -> text s.
Proof.
  induction fuel as [|f IH]; intros s H; destruct s as [|c s]; try done; try constructor.
  cbn [utf8_valid] in H. destruct (decode_inv (String c s)) as [(r & rest & Hr & E & D)|[D _]]; [done| |].
  - rewrite D in H. rewrite E. constructor; [done|]. apply IH.
    replace rest with (sdrop (String.length (utf8 r)) (String c s)) by (rewrite E; apply sdrop_app).
    by destruct ((r =? rune_error) && (String.length (utf8 r) =? 1)%nat).
  - rewrite D in H. done.
Qed.

(** * Floats *)
Section IEEE.
  Context (eb mb : N) (Heb : 2 <= eb) (Hmb : 1 <= mb).
  Notation P := (2 ^ mb).
  Notation Q := (2 ^ eb).
  Lemma P_pos : 0 < P.
  Proof. pose proof (N.pow_nonzero 2 mb). lia. Qed.
  Lemma Q_big : 4 <= Q.
  Proof. change 4 with (2 ^ 2). by apply N.pow_le_mono_r. Qed.
  Lemma ieee_split (neg : bool) e m : e < Q -> m < P ->
    let bits := (if neg then 2 ^ (eb + mb) else 0) + e * P + m in
    (2 ^ (eb + mb) <=? bits) = neg /\ bits / P mod Q = e /\ bits mod P = m.
  Proof.
    intros He Hm bits. subst bits. rewrite N.pow_add_r. pose proof P_pos. pose proof Q_big.
    split; [|split].
    - destruct neg; [apply N.leb_le; lia|]. apply N.leb_gt. nia.
    - replace ((if neg then Q * P else 0) + e * P + m) with (((if neg then Q else 0) + e) * P + m) by (destruct neg; lia).
      rewrite N.div_add_l, N.div_small by lia. rewrite N.add_0_r. destruct neg; [|by rewrite N.mod_small].
      replace (Q + e) with (e + 1 * Q) by lia. rewrite N.mod_add by lia. by rewrite N.mod_small.
    - replace ((if neg then Q * P else 0) + e * P + m) with (m + ((if neg then Q else 0) + e) * P) by (destruct neg; lia).
      rewrite N.mod_add by lia. by rewrite N.mod_small.
  Qed.
  Lemma ieee_value_ok bits f : ieee eb mb bits f -> ieee_value eb mb bits = f.
  Proof.
    pose proof P_pos as HP. pose proof Q_big as HQ.
    intros [neg|neg m Hm|neg e m He Hm|neg|neg m Hm]; unfold ieee_value.
    - replace (if neg then 2 ^ (eb + mb) else 0) with ((if neg then 2 ^ (eb + mb) else 0) + 0 * P + 0) by lia.
      destruct (ieee_split neg 0 0 ltac:(lia) ltac:(lia)) as (-> & -> & ->).
      destruct (N.eqb_spec 0 (Q - 1)); [lia|]. done.
    - replace ((if neg then 2 ^ (eb + mb) else 0) + m) with ((if neg then 2 ^ (eb + mb) else 0) + 0 * P + m) by lia.
      destruct (ieee_split neg 0 m ltac:(lia) ltac:(lia)) as (-> & -> & ->).
      destruct (N.eqb_spec 0 (Q - 1)); [lia|]. destruct (N.eqb_spec m 0); [lia|]. done.
    - destruct (ieee_split neg e (m - P) ltac:(lia) ltac:(lia)) as (-> & -> & ->).
      destruct (N.eqb_spec e (Q - 1)); [lia|]. destruct (N.eqb_spec e 0); [lia|]. unfold signed, ieee_min.
      replace (P + (m - P)) with m by lia. f_equal. lia.
    - replace ((if neg then 2 ^ (eb + mb) else 0) + (Q - 1) * P) with ((if neg then 2 ^ (eb + mb) else 0) + (Q - 1) * P + 0) by lia.
      destruct (ieee_split neg (Q - 1) 0 ltac:(lia) ltac:(lia)) as (-> & -> & ->). rewrite N.eqb_refl. done.
    - destruct (ieee_split neg (Q - 1) m ltac:(lia) ltac:(lia)) as (-> & -> & ->). rewrite N.eqb_refl.
      destruct (N.eqb_spec m 0); [lia|]. done.
  Qed.
  Lemma P_Z : (2 ^ Z.of_N mb)%Z = Z.of_N P.
  Proof. by rewrite N2Z.inj_pow. Qed.
  Lemma ieee_bits_ok bits f : ieee eb mb bits f ->
    exists b, ieee_bits eb mb f = Some b /\ b < 2 * (Q * P) /\ ieee eb mb b f.
  Proof.
    pose proof P_pos as HP. pose proof Q_big as HQ. rewrite <- (N.pow_add_r 2 eb mb).
    assert (E : 2 ^ (eb + mb) = Q * P) by apply N.pow_add_r.
    intros [neg|neg m Hm|neg e m He Hm|neg|neg m Hm]; unfold ieee_bits.
    - exists 0. split; [done|]. split; [nia|]. apply (ie_zero eb mb false).
    - set (z := if neg then (- Z.of_N m)%Z else Z.of_N m).
      assert (Hz : Z.abs z = Z.of_N m) by (destruct neg; lia).
      assert (Hs : (z <? 0)%Z = neg). { subst z. destruct neg; [apply Z.ltb_lt|apply Z.ltb_ge]; lia. }
      destruct (Z.eqb_spec z 0); [lia|]. rewrite Hz, Hs. fold (ieee_min eb mb). rewrite Z.sub_diag.
      assert (Hl : (Z.log2 (Z.of_N m) < Z.of_N mb)%Z). { apply Z.log2_lt_pow2; [lia|]. rewrite P_Z. lia. }
      rewrite Z.min_r by lia. cbn [Z.leb Z.compare]. rewrite Z.pow_0_r, Z.mul_1_r, N2Z.id.
      destruct (N.ltb_spec m P); [|lia]. eexists. split; [reflexivity|]. split; [destruct neg; nia|].
      by apply ie_subnormal.
    - set (z := if neg then (- Z.of_N m)%Z else Z.of_N m).
      assert (Hz : Z.abs z = Z.of_N m) by (destruct neg; lia).
      assert (Hs : (z <? 0)%Z = neg). { subst z. destruct neg; [apply Z.ltb_lt|apply Z.ltb_ge]; lia. }
      destruct (Z.eqb_spec z 0); [lia|]. rewrite Hz, Hs.
      replace (Z.of_N e + 1 - 2 ^ (Z.of_N eb - 1) - Z.of_N mb - ieee_min eb mb)%Z with (Z.of_N e - 1)%Z
        by (unfold ieee_min; lia).
      assert (Hl : Z.log2 (Z.of_N m) = Z.of_N mb).
      { apply Z.log2_unique; [lia|]. rewrite Z.pow_succ_r, P_Z by lia. lia. }
      rewrite Hl, Z.sub_diag, Z.min_l by lia. cbn [Z.leb Z.compare]. rewrite Z.pow_0_r, Z.mul_1_r, N2Z.id, Z.sub_0_r.
      destruct (N.ltb_spec m P); [lia|].
      replace (Z.of_N e + 1 - 2 ^ (Z.of_N eb - 1) - Z.of_N mb - ieee_min eb mb)%Z with (Z.of_N e - 1)%Z
        by (unfold ieee_min; lia).
      replace (Z.to_N (Z.of_N e - 1) + 1) with e by lia. destruct (N.ltb_spec e (Q - 1)); [|lia].
      eexists. split; [reflexivity|]. split; [|by apply ie_normal].
      rewrite E. assert (e * P + (m - P) < Q * P) by nia. destruct neg; lia.
    - eexists. split; [reflexivity|]. split; [|apply ie_inf]. rewrite E. destruct neg; nia.
    - assert (H2 : P = 2 * 2 ^ (mb - 1)). { rewrite <- N.pow_succ_r'. f_equal. lia. }
      assert (0 < 2 ^ (mb - 1)). { pose proof (N.pow_nonzero 2 (mb - 1)). lia. }
      eexists. split; [reflexivity|]. split; [rewrite E; nia|]. apply (ie_nan eb mb false). lia.
  Qed.
End IEEE.

(** * CBOR *)
Lemma byte1_app n r : byte1 n ++ r = String (ascii_of_N n) r.
Proof. reflexivity. Qed.

Lemma cbor_arg_reads major n h : cbor_arg major n h -> major < 8 ->
  h <> "" /\ n < 2 ^ 64 /\ exists info, (info =? 31) = false /\ forall r, cbor_read_head (h ++ r) = Some (major, info, n, r).
Proof.
  intros [n' Hn|i k s Hi Hs] Hm.
  - split; [done|]. split; [lia|]. exists n'. split; [apply N.eqb_neq; lia|]. intros r. rewrite byte1_app. cbn [cbor_read_head]. rewrite byte_ascii by lia.
    replace ((major * 32 + n') / 32) with major by lia. replace ((major * 32 + n') mod 32) with n' by lia.
    destruct (N.ltb_spec n' 24); [done|lia].
  - split; [done|]. split.
    { pose proof (number_bound s) as B. rewrite Hs in B. repeat (apply elem_of_cons in Hi as [[= -> ->]|Hi];
        [eapply N.lt_le_trans; [exact B|apply N.leb_le; reflexivity]|]).
      by apply elem_of_nil in Hi. }
    exists i. split.
    { repeat (apply elem_of_cons in Hi as [[= -> ->]|Hi]; [reflexivity|]). by apply elem_of_nil in Hi. }
    intros r. rewrite sapp_assoc, byte1_app. cbn [cbor_read_head].
    repeat (apply elem_of_cons in Hi as [[= -> ->]|Hi];
      [rewrite byte_ascii by lia;
       match goal with |- context [(major * 32 + ?i) / 32] =>
         replace ((major * 32 + i) / 32) with major by lia; replace ((major * 32 + i) mod 32) with i by lia end;
       cbn [N.ltb N.compare N.eqb Pos.compare Pos.compare_cont Pos.eqb]; cbv iota zeta beta;
       rewrite read_be_ok by done; done|]).
    by apply elem_of_nil in Hi.
Qed.
Lemma cbor_head_arg major n : major < 8 -> n < 2 ^ 64 -> cbor_arg major n (cbor_head major n).
Proof.
  intros Hm Hn. unfold cbor_head.
  assert (L : forall i k, (i, k) ∈ [(24, 1%nat); (25, 2%nat); (26, 4%nat); (27, 8%nat)] -> n < 256 ^ N.of_nat k ->
     cbor_arg major n (be 1 (major * 32 + i) ++ be k n)).
  { intros i k Hi Hk. rewrite be1.
    - rewrite <- (number_be k n) at 1 by done. apply (ca_long major i k); [done|apply be_length].
    - repeat (apply elem_of_cons in Hi as [[= -> ->]|Hi]; [lia|]). by apply elem_of_nil in Hi. }
  destruct (N.ltb_spec n 24).
  { rewrite be1 by lia. by constructor. }
  destruct (N.ltb_spec n (2 ^ 8)); [apply L; [set_solver|done]|].
  destruct (N.ltb_spec n (2 ^ 16)); [apply L; [set_solver|done]|].
  destruct (N.ltb_spec n (2 ^ 32)); [apply L; [set_solver|done]|].
  apply L; [set_solver|done].
Qed.

Lemma cbor_reads_atom : reads_atom cbor cbor_layout.
Proof.
  intros s v H. cbn [la_atom cbor_layout] in H. cbn [fm_token cbor].
  destruct H as [n h A|n h A Hn|h s A|h s A T| | | | |s f Hs Hf|s f Hs Hf|s f Hs Hf];
    try (destruct (cbor_arg_reads _ _ _ A) as (Nh & Bn & info & I31 & R); [done|]);
    (split; [first [done | by apply app_some]|]); intros r; unfold cbor_token; rewrite ?sapp_assoc.
  - rewrite R. cbv zeta. by rewrite I31.
  - rewrite R. cbv zeta. rewrite I31. cbn [N.eqb Pos.eqb andb]. destruct (N.ltb_spec n (2 ^ 63)); [done|lia].
  - rewrite R. cbv zeta. rewrite I31. cbn [N.eqb Pos.eqb andb]. by rewrite read_bytes_ok.
  - rewrite R. cbv zeta. rewrite I31. cbn [N.eqb Pos.eqb andb]. rewrite read_bytes_ok. by rewrite utf8_valid_text.
  - reflexivity.
  - reflexivity.
  - reflexivity.
  - reflexivity.
  - rewrite byte1_app. unfold cbor_read_head. change (byte (ascii_of_N 249) / 32) with 7.
    change (byte (ascii_of_N 249) mod 32) with 25. cbn [N.ltb N.compare N.eqb Pos.compare Pos.compare_cont Pos.eqb].
    cbv iota zeta beta. rewrite read_be_ok by done. cbn [N.eqb Pos.eqb orb andb N.ltb N.leb N.compare Pos.compare Pos.compare_cont]. by rewrite (ieee_value_ok 5 10 ltac:(lia) ltac:(lia) _ f Hf).
  - rewrite byte1_app. unfold cbor_read_head. change (byte (ascii_of_N 250) / 32) with 7.
    change (byte (ascii_of_N 250) mod 32) with 26. cbn [N.ltb N.compare N.eqb Pos.compare Pos.compare_cont Pos.eqb].
    cbv iota zeta beta. rewrite read_be_ok by done. cbn [N.eqb Pos.eqb orb andb N.ltb N.leb N.compare Pos.compare Pos.compare_cont]. by rewrite (ieee_value_ok 8 23 ltac:(lia) ltac:(lia) _ f Hf).
  - rewrite byte1_app. unfold cbor_read_head. change (byte (ascii_of_N 251) / 32) with 7.
    change (byte (ascii_of_N 251) mod 32) with 27. cbn [N.ltb N.compare N.eqb Pos.compare Pos.compare_cont Pos.eqb].
    cbv iota zeta beta. rewrite read_be_ok by done. cbn [N.eqb Pos.eqb orb andb N.ltb N.leb N.compare Pos.compare Pos.compare_cont]. by rewrite (ieee_value_ok 11 52 ltac:(lia) ltac:(lia) _ f Hf).
Qed.
Lemma cbor_reads_list : reads_list cbor cbor_layout 131072.
Proof.
  intros n h A Hn. destruct (cbor_arg_reads _ _ _ A) as (Nh & _ & info & I31 & R); [done|]. split; [done|]. intros r.
  cbn [fm_token cbor]. unfold cbor_token. rewrite R. cbv zeta. rewrite I31. cbn [N.eqb Pos.eqb andb]. destruct (N.leb_spec n 131072); [done|lia].
Qed.
Lemma cbor_reads_dict : reads_dict cbor cbor_layout 131072.
Proof.
  intros n h A Hn. destruct (cbor_arg_reads _ _ _ A) as (Nh & _ & info & I31 & R); [done|]. split; [done|]. intros r.
  cbn [fm_token cbor]. unfold cbor_token. rewrite R. cbv zeta. rewrite I31. cbn [N.eqb Pos.eqb andb]. destruct (N.leb_spec n 131072); [done|lia].
Qed.
Lemma cbor_reads_key : reads_key cbor cbor_layout.
Proof.
  intros k t A. destruct (cbor_reads_atom t (VStr k) A) as [Nt R]. split; [done|]. intros r.
  cbn [fm_read_key cbor]. unfold cbor_read_key. cbn [fm_token cbor] in R. by rewrite R.
Qed.

Definition cbor_str (s : string) : Prop := text s /\ shorter (2 ^ 64) s.
Lemma cbor_string_item s : cbor_str s -> cbor_item_atom (cbor_string 3 s) (VStr s).
Proof. intros [T S]. apply ci_text; [|done]. by apply cbor_head_arg. Qed.
Lemma cbor_writes_str : writes_str cbor cbor_layout cbor_str.
Proof. intros s H. eexists. split; [reflexivity|]. by apply cbor_string_item. Qed.
Lemma ieee_bits_shift eb mb m e j : (0 <= j)%Z -> ieee_bits eb mb (FFin (m * 2 ^ j) e) = ieee_bits eb mb (FFin m (e + j)).
Proof.
  intros Hj. assert (P : (0 < 2 ^ j)%Z) by (apply Z.pow_pos_nonneg; lia). cbn [ieee_bits].
  destruct (Z.eqb_spec m 0) as [->|Hm]; [done|]. destruct (Z.eqb_spec (m * 2 ^ j) 0) as [C|_]; [nia|].
  rewrite Z.abs_mul, (Z.abs_eq (2 ^ j)) by lia. rewrite Z.log2_mul_pow2 by lia. set (a := Z.abs m).
  assert (((m * 2 ^ j <? 0) = (m <? 0))%Z) as ->.
  { destruct (Z.ltb_spec m 0), (Z.ltb_spec (m * 2 ^ j) 0); nia. }
  set (k := Z.min (Z.of_N mb - Z.log2 a) (e + j - ieee_min eb mb)).
  replace (Z.min _ (e - ieee_min eb mb)) with (k - j)%Z by (unfold k; lia).
  replace (e - (k - j))%Z with (e + j - k)%Z by lia. clearbody k a.
  assert ((if (0 <=? k - j) then Some (a * 2 ^ j * 2 ^ (k - j))
           else if (a * 2 ^ j mod 2 ^ (- (k - j)) =? 0) then Some (a * 2 ^ j / 2 ^ (- (k - j))) else None)%Z
        = (if (0 <=? k) then Some (a * 2 ^ k) else if (a mod 2 ^ (- k) =? 0) then Some (a / 2 ^ (- k)) else None)%Z) as ->; [|done].
  destruct (Z.leb_spec 0 (k - j)).
  - destruct (Z.leb_spec 0 k); [|lia]. rewrite <- Z.mul_assoc, <- Z.pow_add_r by lia. by replace (j + (k - j))%Z with k by lia.
  - destruct (Z.leb_spec 0 k).
    + assert (2 ^ j = 2 ^ k * 2 ^ (- (k - j)))%Z as -> by (rewrite <- Z.pow_add_r by lia; f_equal; lia).
      assert (0 < 2 ^ (- (k - j)))%Z by (apply Z.pow_pos_nonneg; lia).
      rewrite Z.mul_assoc, Z.mod_mul, Z.div_mul by lia. done.
    + replace (- (k - j))%Z with (- k + j)%Z by lia. rewrite Z.pow_add_r by lia.
      assert (0 < 2 ^ (- k))%Z by (apply Z.pow_pos_nonneg; lia).
      rewrite Z.mul_mod_distr_r, Z.div_mul_cancel_r by lia.
      destruct (Z.eqb_spec (a mod 2 ^ (- k)) 0) as [->|]; [done|]. destruct (Z.eqb_spec (a mod 2 ^ (- k) * 2 ^ j) 0); [nia|done].
Qed.
Lemma ieee_bits_same eb mb f g : float_same f g -> ieee_bits eb mb f = ieee_bits eb mb g.
Proof.
  destruct f as [m e| |], g as [m' e'| |]; try done; [|by intros ->]. cbn [float_same]. intros E.
  destruct (Z.le_ge_cases e e') as [H|H].
  - rewrite Z.min_l, Z.sub_diag, Z.mul_1_r in E by lia. rewrite E, ieee_bits_shift by lia. by replace (e + (e' - e))%Z with e' by lia.
  - rewrite Z.min_r, Z.sub_diag, Z.mul_1_r in E by lia. rewrite <- E, ieee_bits_shift by lia. by replace (e' + (e - e'))%Z with e by lia.
Qed.
Lemma cbor_float_item (major eb mb : N) (k : nat) f :
  (major, eb, mb, k) = (250, 8, 23, 4%nat) \/ (major, eb, mb, k) = (251, 11, 52, 8%nat) -> ieee_float eb mb f ->
  exists t g, cbor_float major eb mb k f = Some t /\ cbor_item_atom t (VF64 g) /\ float_same f g.
Proof.
  intros Hc (bits & f' & Hf & Sf).
  assert (cbor_float major eb mb k f = cbor_float major eb mb k f') as ->.
  { unfold cbor_float. rewrite (ieee_bits_same eb mb f f' Sf). destruct f, f'; try done. by cbn in Sf; subst. }
  enough (exists t, cbor_float major eb mb k f' = Some t /\ cbor_item_atom t (VF64 f')) as (t & Et & At) by (exists t, f'; done).
  clear f Sf. rename f' into f.
  assert (Hh : forall x g, x < 256 ^ N.of_nat 2 -> ieee 5 10 x g -> cbor_item_atom (be 1 249 ++ be 2 x) (VF64 g)).
  { intros x g Hx Hg. rewrite be1 by done. apply ci_half; [apply be_length|]. by rewrite number_be. }
  assert (Hb : exists t, match ieee_bits eb mb f with Some b => Some (be 1 major ++ be k b) | None => None end = Some t
     /\ cbor_item_atom t (VF64 f)).
  { destruct Hc as [[= -> -> -> ->]|[= -> -> -> ->]].
    - destruct (ieee_bits_ok 8 23 ltac:(lia) ltac:(lia) _ _ Hf) as (b & -> & Hb & Hf'). eexists. split; [reflexivity|].
      rewrite be1 by done. apply ci_single; [apply be_length|]. rewrite number_be; [done|]. exact Hb.
    - destruct (ieee_bits_ok 11 52 ltac:(lia) ltac:(lia) _ _ Hf) as (b & -> & Hb & Hf'). eexists. split; [reflexivity|].
      rewrite be1 by done. apply ci_double; [apply be_length|]. rewrite number_be; [done|]. exact Hb. }
  destruct f as [m e|neg|].
  - exact Hb.
  - cbn [cbor_float]. eexists. split; [reflexivity|]. apply Hh; [by destruct neg|].
    destruct neg; [exact (ie_inf 5 10 true)|exact (ie_inf 5 10 false)].
  - cbn [cbor_float]. eexists. split; [reflexivity|]. apply Hh; [done|]. exact (ie_nan 5 10 false 512 ltac:(lia)).
Qed.
Lemma cbor_writes_atom : writes_atom cbor cbor_layout fits cbor_str (shorter (2 ^ 64)).
Proof.
  intros v P S. cbn [fm_atom cbor la_atom cbor_layout].
  destruct S as [|b|k z Hz|f Hf|f Hf|s Hs|s Hs|s Hs|l Hl|m Hm Hn|l Hl]; cbn [cbor_atom].
  - exists (byte1 246), VNil. split; [done|]. split; constructor.
  - destruct b; [exists (byte1 245), (VBool true)|exists (byte1 244), (VBool false)]; (split; [done|]); split; constructor.
  - assert (Hz' : (- 2 ^ 63 <= z < 2 ^ 64)%Z) by (unfold fits, kmin, kmax, two63, two64 in Hz; destruct k; lia).
    destruct (Z.leb_spec 0 z).
    + eexists _, (VInt KUint64 z). split; [reflexivity|]. split.
      * replace z with (Z.of_N (Z.to_N z)) at 2 by lia. apply ci_unsigned, cbor_head_arg; [done|lia].
      * constructor; [done|]. unfold fits, kmin, kmax, two63, two64. lia.
    + eexists _, (VInt KInt64 z). split; [reflexivity|]. split.
      * replace z with (- 1 - Z.of_N (Z.to_N (- 1 - z)))%Z at 2 by lia. apply ci_negative; [apply cbor_head_arg; [done|lia]|lia].
      * constructor; [done|]. unfold fits, kmin, kmax, two63, two64. lia.
  - destruct (cbor_float_item 250 8 23 4 f) as (t & g & E & A & S); [by left|done|]. exists t, (VF64 g). split; [done|].
    split; [done|by constructor].
  - destruct (cbor_float_item 251 11 52 8 f) as (t & g & E & A & S); [by right|done|]. exists t, (VF64 g). split; [done|].
    split; [done|by constructor].
  - eexists _, (VStr s). split; [reflexivity|]. split; [by apply cbor_string_item|constructor].
  - unfold VMethod. cbn [cbor_atom]. rewrite countable.decode_encode. eexists _, (VStr s). split; [reflexivity|].
    split; [by apply cbor_string_item|constructor].
  - eexists _, (VBytes s). split; [reflexivity|]. split; [|constructor]. apply ci_bytes. by apply cbor_head_arg.
  - destruct l; [done|]. exists (byte1 246), VNil. split; [done|]. split; constructor.
  - destruct m; [done|]. exists (byte1 246), VNil. split; [done|]. split; constructor.
  - destruct l; [done|]. exists (byte1 246), VNil. split; [done|]. split; constructor.
Qed.
Lemma cbor_writes_list : writes_list cbor cbor_layout 131072.
Proof. intros n H. apply cbor_head_arg; [done|lia]. Qed.
Lemma cbor_writes_dict : writes_dict cbor cbor_layout 131072.
Proof. intros n H. apply cbor_head_arg; [done|lia]. Qed.
Lemma cbor_writes_key : writes_key cbor cbor_layout cbor_str.
Proof. intros k H. by apply cbor_string_item. Qed.

Lemma read_be_shrinks k : forall acc s n r, read_be k acc s = Some (n, r) -> (String.length r <= String.length s)%nat.
Proof.
  induction k as [|k IH]; intros acc s n r H; cbn [read_be] in H; [by injection H as -> ->|].
  destruct s as [|c s]; [done|]. apply IH in H. cbn. lia.
Qed.
Lemma sdrop_shrinks n : forall s, (String.length (sdrop n s) <= String.length s)%nat.
Proof. induction n as [|n IH]; intros [|c s]; cbn; try lia. specialize (IH s). lia. Qed.
Lemma read_bytes_shrinks n s x r : read_bytes n s = Some (x, r) -> (String.length r <= String.length s)%nat.
Proof. unfold read_bytes. case_match; [|done]. intros [= <- <-]. apply sdrop_shrinks. Qed.
Lemma cbor_head_local s a x : cbor_read_head s = Some a ->
  cbor_read_head (s ++ x) = Some (let '(m, i, n, r) := a in (m, i, n, r ++ x)).
Proof.
  destruct s as [|c s]; [done|]. change (String c s ++ x) with (String c (s ++ x)). unfold cbor_read_head.
  assert (A : forall k, match read_be k 0 s with Some (n, r) => Some (byte c / 32, byte c mod 32, n, r) | None => None end = Some a ->
    match read_be k 0 (s ++ x) with Some (n, r) => Some (byte c / 32, byte c mod 32, n, r) | None => None end
    = Some (let '(m, i, n, r) := a in (m, i, n, r ++ x))).
  { intros k. destruct (read_be k 0 s) as [[n r]|] eqn:E; [|done]. rewrite (read_be_local _ _ _ _ _ x E). by intros [= <-]. }
  cbv zeta. destruct (_ <? _); [by intros [= <-]|].
  destruct (_ =? 24); [apply A|]. destruct (_ =? 25); [apply A|]. destruct (_ =? 26); [apply A|]. destruct (_ =? 27); [apply A|].
  destruct (_ =? 31); [by intros [= <-]|done].
Qed.
Lemma cbor_head_shrinks s a : cbor_read_head s = Some a -> (String.length (snd a) < String.length s)%nat.
Proof.
  destruct s as [|c s]; [done|]. unfold cbor_read_head. cbn [String.length].
  assert (A : forall k, match read_be k 0 s with Some (n, r) => Some (byte c / 32, byte c mod 32, n, r) | None => None end = Some a ->
    (String.length (snd a) < S (String.length s))%nat).
  { intros k. destruct (read_be k 0 s) as [[n r]|] eqn:E; [|done]. apply read_be_shrinks in E. intros [= <-]. cbn. lia. }
  cbv zeta. destruct (_ <? _); [intros [= <-]; cbn; lia|].
  destruct (_ =? 24); [apply A|]. destruct (_ =? 25); [apply A|]. destruct (_ =? 26); [apply A|]. destruct (_ =? 27); [apply A|].
  destruct (_ =? 31); [intros [= <-]; cbn; lia|done].
Qed.
Lemma cbor_break_local : local_break cbor.
Proof. intros [|c s] x H; [done|]. change (String c s ++ x) with (String c (s ++ x)). cbn [fm_break cbor cbor_break]. by destruct (byte c =? 255). Qed.
Lemma cbor_break_shrinks : shrinks_break cbor.
Proof. intros [|c s] r; [done|]. cbn [fm_break cbor cbor_break String.length]. destruct (byte c =? 255); [|done]. intros [= ->]. lia. Qed.
Lemma cbor_nothing : nothing cbor.
Proof. done. Qed.
Lemma chunks_local f : forall f' major ok s y r x, cbor_chunks f major ok s = Some (y, r) -> (f <= f')%nat ->
  cbor_chunks f' major ok (s ++ x) = Some (y, r ++ x).
Proof.
  induction f as [|f IH]; intros [|f'] major ok s y r x H Hf; [done|done|lia|]. cbn [cbor_chunks] in *.
  destruct s as [|c s]; [done|]. pose proof (cbor_break_local (String c s) x ltac:(done)) as B. cbn [fm_break cbor] in B. rewrite B.
  destruct (cbor_break (String c s)) as [r0|]; [by injection H as <- <-|].
  destruct (cbor_read_head (String c s)) as [[[[m i] n] r0]|] eqn:E; [|done]. rewrite (cbor_head_local _ _ x E).
  destruct (_ && _); [|done]. destruct (read_bytes n r0) as [[z r1]|] eqn:E1; [|done]. rewrite (read_bytes_local _ _ _ _ x E1).
  destruct (ok z); [|done]. destruct (cbor_chunks f major ok r1) as [[y' r2]|] eqn:E2; [|done].
  rewrite (IH f' _ _ _ _ _ x E2) by lia. by injection H as <- <-.
Qed.
Lemma chunks_shrink f : forall major ok s y r, cbor_chunks f major ok s = Some (y, r) -> (String.length r < String.length s)%nat.
Proof.
  induction f as [|f IH]; intros major ok s y r H; [done|]. cbn [cbor_chunks] in H.
  destruct (cbor_break s) as [r0|] eqn:B; [apply (cbor_break_shrinks s) in B; by injection H as <- <-|].
  destruct (cbor_read_head s) as [[[[m i] n] r0]|] eqn:E; [|done]. apply cbor_head_shrinks in E. cbn [snd] in E.
  destruct (_ && _); [|done]. destruct (read_bytes n r0) as [[z r1]|] eqn:E1; [|done]. apply read_bytes_shrinks in E1.
  destruct (ok z); [|done]. destruct (cbor_chunks f major ok r1) as [[y' r2]|] eqn:E2; [|done].
  apply IH in E2. injection H as <- <-. lia.
Qed.
Lemma cbor_local_token : local_token cbor.
Proof.
  intros s t r x. cbn [fm_token cbor]. unfold cbor_token.
  destruct (cbor_read_head s) as [[[[major info] n] r0]|] eqn:E; [|done].
  rewrite (cbor_head_local _ _ x E). cbv zeta. intros H.
  repeat match type of H with
  | (if ?b then _ else _) = _ => destruct b; [try (injection H as <- <-; reflexivity)|]
  | Some _ = Some _ => injection H as <- <-; reflexivity
  | None = _ => discriminate H
  | match read_bytes n r0 with _ => _ end = _ =>
      destruct (read_bytes n r0) as [[y r1]|] eqn:E1; [|discriminate H]; rewrite (read_bytes_local _ _ _ _ x E1)
  | match cbor_chunks ?f ?m ?o r0 with _ => _ end = _ =>
      let E1 := fresh "E" in destruct (cbor_chunks f m o r0) as [[y r1]|] eqn:E1; [|discriminate H];
      rewrite (chunks_local _ (String.length (r0 ++ x) + 1) _ _ _ _ _ x E1) by (rewrite slength_app; lia)
  end; done.
Qed.
Lemma cbor_local_key : local_key cbor.
Proof.
  intros s k r x. cbn [fm_read_key cbor]. unfold cbor_read_key.
  destruct (cbor_token s) as [[t r0]|] eqn:E; [|done]. pose proof (cbor_local_token s t r0 x E) as E'.
  cbn [fm_token cbor] in E'. rewrite E'. destruct t as [[]| |]; try done. by intros [= <- <-].
Qed.

(** * MessagePack *)
Lemma mp_arg_inv b k n h : mp_arg b k n h -> exists s, h = byte1 b ++ s /\ String.length s = k /\ n = number s.
Proof. intros [s H]. eauto. Qed.
Lemma mp_arg_be b k n : b < 256 -> n < 256 ^ N.of_nat k -> mp_arg b k n (be 1 b ++ be k n).
Proof. intros Hb Hn. rewrite be1 by done. rewrite <- (number_be k n) at 1 by done. constructor. apply be_length. Qed.

Lemma twos_bits k n : (1 <= k)%nat ->
  (if (n <? 2 ^ (8 * N.of_nat k - 1))%N then Z.of_N n else Z.of_N n - 2 ^ Z.of_N (8 * N.of_nat k))%Z = twos k n.
Proof.
  intros Hk. unfold twos. assert (E : (256 ^ Z.of_nat k)%Z = (2 ^ Z.of_N (8 * N.of_nat k))%Z).
  { rewrite N2Z.inj_mul, nat_N_Z. rewrite Z.pow_mul_r by lia. done. }
  rewrite E. assert (E2 : (2 ^ Z.of_N (8 * N.of_nat k) = 2 * Z.of_N (2 ^ (8 * N.of_nat k - 1)))%Z).
  { rewrite N2Z.inj_pow. rewrite <- Z.pow_succ_r by lia. f_equal. lia. }
  rewrite E2. destruct (N.ltb_spec n (2 ^ (8 * N.of_nat k - 1)));
    destruct (Z.ltb_spec (2 * Z.of_N n) (2 * Z.of_N (2 ^ (8 * N.of_nat k - 1)))); lia.
Qed.
Lemma mp_reads_atom : reads_atom msgpack mp_layout.
Proof.
  intros s v H. cbn [la_atom mp_layout] in H. cbn [fm_token msgpack].
  destruct H as [n Hn|n Hn|b k kind n h Hb A|b k kind n h Hb A| | | |h n f A Hf|h n f A Hf|s Hs|b k h s Hb A|b k h s Hb A].
  - split; [done|]. intros r. rewrite byte1_app. unfold mp_token. rewrite byte_ascii by lia.
    destruct (N.ltb_spec n 128); [done|lia].
  - split; [done|]. intros r. rewrite byte1_app. unfold mp_token. rewrite byte_ascii by lia.
    assert (E : 224 <= n <= 255) by lia.
    destruct (N.leb_spec 224 n); [|lia].
    repeat match goal with
    | |- context [n <? ?y] => destruct (N.ltb_spec n y); [lia|]
    | |- context [n =? ?y] => destruct (N.eqb_spec n y); [lia|]
    | |- context [n <=? ?y] => destruct (N.leb_spec n y); [lia|]
    end. by rewrite andb_false_r.
  - apply mp_arg_inv in A as (s & -> & Hs & ->). split; [done|]. intros r. rewrite sapp_assoc, byte1_app.
    repeat (apply elem_of_cons in Hb as [[= -> -> ->]|Hb];
      [unfold mp_token; rewrite byte_ascii by done; cbn [N.ltb N.compare N.eqb Pos.compare Pos.compare_cont Pos.eqb orb andb N.leb];
       cbv iota zeta beta; rewrite read_be_ok by done; reflexivity|]). by apply elem_of_nil in Hb.
  - apply mp_arg_inv in A as (s & -> & Hs & ->). split; [done|]. intros r. rewrite sapp_assoc, byte1_app.
    repeat (apply elem_of_cons in Hb as [[= -> -> ->]|Hb];
      [unfold mp_token; rewrite byte_ascii by done; cbn [N.ltb N.compare N.eqb Pos.compare Pos.compare_cont Pos.eqb orb andb N.leb];
       cbv iota zeta beta; rewrite read_be_ok by done; rewrite <- twos_bits by lia; reflexivity|]).
    by apply elem_of_nil in Hb.
  - split; [done|]. reflexivity.
  - split; [done|]. reflexivity.
  - split; [done|]. reflexivity.
  - apply mp_arg_inv in A as (s & -> & Hs & ->). split; [done|]. intros r. rewrite sapp_assoc, byte1_app.
    unfold mp_token; rewrite byte_ascii by done; cbn [N.ltb N.compare N.eqb Pos.compare Pos.compare_cont Pos.eqb orb andb N.leb];
       cbv iota zeta beta; rewrite read_be_ok by done. by rewrite (ieee_value_ok 8 23 ltac:(lia) ltac:(lia) _ f Hf).
  - apply mp_arg_inv in A as (s & -> & Hs & ->). split; [done|]. intros r. rewrite sapp_assoc, byte1_app.
    unfold mp_token; rewrite byte_ascii by done; cbn [N.ltb N.compare N.eqb Pos.compare Pos.compare_cont Pos.eqb orb andb N.leb];
       cbv iota zeta beta; rewrite read_be_ok by done. by rewrite (ieee_value_ok 11 52 ltac:(lia) ltac:(lia) _ f Hf).
  - split; [done|]. intros r. rewrite sapp_assoc, byte1_app. unfold mp_token. set (n := N.of_nat (String.length s)) in *.
    rewrite byte_ascii by lia. destruct (N.ltb_spec (160 + n) 128); [lia|]. destruct (N.ltb_spec (160 + n) 144); [lia|].
    destruct (N.ltb_spec (160 + n) 160); [lia|]. destruct (N.ltb_spec (160 + n) 192); [|lia].
    replace (160 + n - 160) with n by lia. subst n. by rewrite read_bytes_ok.
  - apply mp_arg_inv in A as (x & -> & Hs & El). split; [done|]. intros r. rewrite !sapp_assoc, byte1_app.
    repeat (apply elem_of_cons in Hb as [[= -> ->]|Hb];
      [unfold mp_token; rewrite byte_ascii by done; cbn [N.ltb N.compare N.eqb Pos.compare Pos.compare_cont Pos.eqb orb andb N.leb];
       cbv iota zeta beta; rewrite read_be_ok by done; rewrite <- El; rewrite read_bytes_ok; reflexivity|]).
    by apply elem_of_nil in Hb.
  - apply mp_arg_inv in A as (x & -> & Hs & El). split; [done|]. intros r. rewrite !sapp_assoc, byte1_app.
    repeat (apply elem_of_cons in Hb as [[= -> ->]|Hb];
      [unfold mp_token; rewrite byte_ascii by done; cbn [N.ltb N.compare N.eqb Pos.compare Pos.compare_cont Pos.eqb orb andb N.leb];
       cbv iota zeta beta; rewrite read_be_ok by done; rewrite <- El; rewrite read_bytes_ok; reflexivity|]).
    by apply elem_of_nil in Hb.
Qed.
Lemma mp_reads_list : reads_list msgpack mp_layout (2 ^ 32 - 1).
Proof.
  intros n h A _. cbn [la_list mp_layout] in A. cbn [fm_token msgpack]. destruct A as [n Hn|n h A|n h A].
  - split; [done|]. intros r. rewrite byte1_app. unfold mp_token. rewrite byte_ascii by lia.
    destruct (N.ltb_spec (144 + n) 128); [lia|]. destruct (N.ltb_spec (144 + n) 144); [lia|].
    destruct (N.ltb_spec (144 + n) 160); [|lia]. by replace (144 + n - 144) with n by lia.
  - apply mp_arg_inv in A as (s & -> & Hs & ->). split; [done|]. intros r. rewrite sapp_assoc, byte1_app.
    unfold mp_token; rewrite byte_ascii by done; cbn [N.ltb N.compare N.eqb Pos.compare Pos.compare_cont Pos.eqb orb andb N.leb];
       cbv iota zeta beta; rewrite read_be_ok by done. reflexivity.
  - apply mp_arg_inv in A as (s & -> & Hs & ->). split; [done|]. intros r. rewrite sapp_assoc, byte1_app.
    unfold mp_token; rewrite byte_ascii by done; cbn [N.ltb N.compare N.eqb Pos.compare Pos.compare_cont Pos.eqb orb andb N.leb];
       cbv iota zeta beta; rewrite read_be_ok by done. reflexivity.
Qed.
Lemma mp_reads_dict : reads_dict msgpack mp_layout (2 ^ 32 - 1).
Proof.
  intros n h A _. cbn [la_dict mp_layout] in A. cbn [fm_token msgpack]. destruct A as [n Hn|n h A|n h A].
  - split; [done|]. intros r. rewrite byte1_app. unfold mp_token. rewrite byte_ascii by lia.
    destruct (N.ltb_spec (128 + n) 128); [lia|]. destruct (N.ltb_spec (128 + n) 144); [|lia].
    by replace (128 + n - 128) with n by lia.
  - apply mp_arg_inv in A as (s & -> & Hs & ->). split; [done|]. intros r. rewrite sapp_assoc, byte1_app.
    unfold mp_token; rewrite byte_ascii by done; cbn [N.ltb N.compare N.eqb Pos.compare Pos.compare_cont Pos.eqb orb andb N.leb];
       cbv iota zeta beta; rewrite read_be_ok by done. reflexivity.
  - apply mp_arg_inv in A as (s & -> & Hs & ->). split; [done|]. intros r. rewrite sapp_assoc, byte1_app.
    unfold mp_token; rewrite byte_ascii by done; cbn [N.ltb N.compare N.eqb Pos.compare Pos.compare_cont Pos.eqb orb andb N.leb];
       cbv iota zeta beta; rewrite read_be_ok by done. reflexivity.
Qed.
Lemma mp_reads_key : reads_key msgpack mp_layout.
Proof.
  intros k t A. destruct (mp_reads_atom t (VStr k) A) as [Nt R]. split; [done|]. intros r.
  cbn [fm_read_key msgpack]. unfold mp_read_key. cbn [fm_token msgpack] in R. by rewrite R.
Qed.

Lemma mp_string_item s : shorter (2 ^ 32) s -> mp_item_atom (mp_string s) (VStr s).
Proof.
  unfold shorter, mp_string. intros Hs. set (n := N.of_nat (String.length s)) in *.
  destruct (N.ltb_spec n 32). { rewrite be1 by lia. by apply mi_fixstr. }
  destruct (N.ltb_spec n (2 ^ 8)). { apply (mi_str 217 1); [set_solver|]. by apply mp_arg_be. }
  destruct (N.ltb_spec n (2 ^ 16)). { apply (mi_str 218 2); [set_solver|]. by apply mp_arg_be. }
  apply (mi_str 219 4); [set_solver|]. by apply mp_arg_be.
Qed.
Lemma mp_bytes_item s : shorter (2 ^ 32) s -> mp_item_atom (mp_bytes s) (VBytes s).
Proof.
  unfold shorter, mp_bytes. intros Hs. set (n := N.of_nat (String.length s)) in *.
  destruct (N.ltb_spec n (2 ^ 8)). { apply (mi_bin 196 1); [set_solver|]. by apply mp_arg_be. }
  destruct (N.ltb_spec n (2 ^ 16)). { apply (mi_bin 197 2); [set_solver|]. by apply mp_arg_be. }
  apply (mi_bin 198 4); [set_solver|]. by apply mp_arg_be.
Qed.

(** The kind an integer arrives in. *)
Lemma mp_uint_item n : n < 2 ^ 64 -> exists k, mp_item_atom (mp_uint n) (VInt k (Z.of_N n)) /\ k <> KInt16 /\ fits k (Z.of_N n).
Proof.
  intros Hn. unfold mp_uint, fits.
  destruct (N.leb_spec n 127). { exists KInt8. split; [|split; [done|cbn; lia]]. rewrite be1 by lia. apply mi_positive. lia. }
  destruct (N.ltb_spec n (2 ^ 8)).
  { exists KUint8. split; [|split; [done|cbn; lia]]. eapply (mi_unsigned 204 1); [set_solver|]. by apply mp_arg_be. }
  destruct (N.ltb_spec n (2 ^ 16)).
  { exists KUint16. split; [|split; [done|cbn; lia]]. eapply (mi_unsigned 205 2); [set_solver|]. by apply mp_arg_be. }
  destruct (N.ltb_spec n (2 ^ 32)).
  { exists KUint32. split; [|split; [done|cbn; lia]]. eapply (mi_unsigned 206 4); [set_solver|]. by apply mp_arg_be. }
  exists KUint64. split; [|split; [done|unfold kmin, kmax, two64; lia]]. eapply (mi_unsigned 207 8); [set_solver|]. by apply mp_arg_be.
Qed.
Lemma mp_signed_item b k kind z : (b, k, kind) ∈ [(208, 1%nat, KInt8); (209, 2%nat, KInt16); (210, 4%nat, KInt32); (211, 8%nat, KInt64)] ->
  (- 256 ^ Z.of_nat k <= 2 * z < 256 ^ Z.of_nat k)%Z -> mp_item_atom (be 1 b ++ mp_signed k z) (VInt kind z).
Proof.
  intros Hb Hz. unfold mp_signed. replace (2 ^ (8 * Z.of_nat k))%Z with (256 ^ Z.of_nat k)%Z.
  2: { rewrite Z.pow_mul_r by lia. done. }
  assert (HP : (0 < 256 ^ Z.of_nat k)%Z) by (apply Z.pow_pos_nonneg; lia).
  assert (Hm : (0 <= z mod 256 ^ Z.of_nat k < 256 ^ Z.of_nat k)%Z) by by apply Z.mod_pos_bound.
  replace z with (twos k (Z.to_N (z mod 256 ^ Z.of_nat k))) at 2.
  - eapply mi_signed; [exact Hb|]. apply mp_arg_be.
    + repeat (apply elem_of_cons in Hb as [[= -> -> ->]|Hb]; [done|]). by apply elem_of_nil in Hb.
    + apply N2Z.inj_lt. rewrite N2Z.inj_pow. rewrite Z2N.id by lia. rewrite nat_N_Z. lia.
  - unfold twos. rewrite Z2N.id by lia. destruct (Z.leb_spec 0 z) as [H|H].
    + rewrite Z.mod_small by lia. destruct (Z.ltb_spec (2 * z) (256 ^ Z.of_nat k)); lia.
    + replace z with (z + 256 ^ Z.of_nat k + (-1) * 256 ^ Z.of_nat k)%Z by lia. rewrite Z.mod_add by lia.
      rewrite Z.mod_small by lia. destruct (Z.ltb_spec (2 * (z + 256 ^ Z.of_nat k)) (256 ^ Z.of_nat k)); lia.
Qed.
Lemma mp_number_item k z : not_int16 k z -> exists k', mp_item_atom (mp_number k z) (VInt k' z) /\ k' <> KInt16 /\ fits k' z.
Proof.
  intros (Hf & H16 & Hi).
  assert (Hu : forall b w kind, (b, w, kind) ∈ [(204, 1%nat, KUint8); (205, 2%nat, KUint16); (206, 4%nat, KUint32); (207, 8%nat, KUint64)] ->
      kind = k -> fits kind z -> (0 <= z < 256 ^ Z.of_nat w)%Z ->
      exists k', mp_item_atom (be 1 b ++ be w (Z.to_N z)) (VInt k' z) /\ k' <> KInt16 /\ fits k' z).
  { intros b w kind Hb <- Hk Hz. exists kind. split; [|done]. replace z with (Z.of_N (Z.to_N z)) at 2 by lia.
    eapply mi_unsigned; [exact Hb|]. apply mp_arg_be.
    + repeat (apply elem_of_cons in Hb as [[= -> -> ->]|Hb]; [done|]). by apply elem_of_nil in Hb.
    + apply N2Z.inj_lt. rewrite N2Z.inj_pow. rewrite Z2N.id by lia. rewrite nat_N_Z. lia. }
  destruct k; cbn [mp_number]; try done.
  - assert (Hz : (- 2 ^ 63 <= z < 2 ^ 63)%Z) by (unfold fits, kmin, kmax, two63 in Hf; lia). clear Hu.
    unfold mp_int. destruct (Z.leb_spec 0 z).
    { destruct (mp_uint_item (Z.to_N z)) as (k & A & B & C); [lia|]. rewrite Z2N.id in A, C by lia. eauto. }
    destruct (Z.leb_spec (-32) z).
    { exists KInt8. split; [|split; [done|unfold fits, kmin, kmax; lia]]. unfold mp_signed.
      replace (z mod 2 ^ (8 * Z.of_nat 1))%Z with (z + 256)%Z.
      - rewrite be1 by lia. replace z with (Z.of_N (Z.to_N (z + 256)) - 256)%Z at 2 by lia. apply mi_negative. lia.
      - change (2 ^ (8 * Z.of_nat 1))%Z with 256%Z. lia. }
    destruct (Z.leb_spec (-128) z).
    { exists KInt8. split; [|split; [done|unfold fits, kmin, kmax; lia]]. apply mp_signed_item; [set_solver|lia]. }
    destruct (Z.leb_spec (-32768) z). { exfalso. apply Hi. split; [done|lia]. }
    destruct (Z.leb_spec (-2147483648) z).
    { exists KInt32. split; [|split; [done|unfold fits, kmin, kmax; lia]]. apply mp_signed_item; [set_solver|lia]. }
    exists KInt64. split; [|split; [done|unfold fits, kmin, kmax, two63; lia]]. apply mp_signed_item; [set_solver|lia].
  - exists KInt8. split; [|done]. unfold fits, kmin, kmax in Hf. apply mp_signed_item; [set_solver|lia].
  - exists KInt32. split; [|done]. unfold fits, kmin, kmax in Hf. apply mp_signed_item; [set_solver|lia].
  - exists KInt64. split; [|done]. unfold fits, kmin, kmax, two63 in Hf. apply mp_signed_item; [set_solver|lia].
  - unfold fits, kmin, kmax, two64 in Hf. destruct (mp_uint_item (Z.to_N z)) as (k & A & B & C); [lia|].
    rewrite Z2N.id in A, C by lia. eauto.
  - eapply (Hu 204 1%nat KUint8); [set_solver|done|done|]. unfold fits, kmin, kmax in Hf. lia.
  - eapply (Hu 205 2%nat KUint16); [set_solver|done|done|]. unfold fits, kmin, kmax in Hf. lia.
  - eapply (Hu 206 4%nat KUint32); [set_solver|done|done|]. unfold fits, kmin, kmax in Hf. lia.
  - eapply (Hu 207 8%nat KUint64); [set_solver|done|done|]. unfold fits, kmin, kmax, two64 in Hf. lia.
Qed.
Lemma mp_writes_str : writes_str msgpack mp_layout (shorter (2 ^ 32)).
Proof. intros s H. eexists. split; [reflexivity|]. by apply mp_string_item. Qed.
Lemma mp_writes_atom : writes_atom msgpack mp_layout not_int16 (shorter (2 ^ 32)) (shorter (2 ^ 32)).
Proof.
  intros v P S. cbn [fm_atom msgpack la_atom mp_layout].
  destruct S as [|b|k z Hz|f (bits & g & Hf & Sf)|f (bits & g & Hf & Sf)|s Hs|s Hs|s Hs|l Hl|m Hm Hn|l Hl]; cbn [mp_atom].
  - exists (byte1 192), VNil. split; [done|]. split; constructor.
  - destruct b; [exists (byte1 195), (VBool true)|exists (byte1 194), (VBool false)]; (split; [done|]); split; constructor.
  - destruct (mp_number_item k z Hz) as (k' & A & B & C). eexists _, (VInt k' z). split; [reflexivity|]. split; [done|].
    by constructor.
  - rewrite (ieee_bits_same _ _ _ _ Sf).
    destruct (ieee_bits_ok 8 23 ltac:(lia) ltac:(lia) _ _ Hf) as (b & -> & Hb & Hf'). eexists _, (VF32 g).
    split; [reflexivity|]. split; [|by constructor]. eapply mi_single; [|exact Hf']. apply mp_arg_be; [done|]. exact Hb.
  - rewrite (ieee_bits_same _ _ _ _ Sf).
    destruct (ieee_bits_ok 11 52 ltac:(lia) ltac:(lia) _ _ Hf) as (b & -> & Hb & Hf'). eexists _, (VF64 g).
    split; [reflexivity|]. split; [|by constructor]. eapply mi_double; [|exact Hf']. apply mp_arg_be; [done|]. exact Hb.
  - eexists _, (VStr s). split; [reflexivity|]. split; [by apply mp_string_item|constructor].
  - unfold VMethod. cbn [mp_atom]. rewrite countable.decode_encode. eexists _, (VStr s). split; [reflexivity|].
    split; [by apply mp_string_item|constructor].
  - eexists _, (VBytes s). split; [reflexivity|]. split; [by apply mp_bytes_item|constructor].
  - destruct l; [done|]. exists (byte1 192), VNil. split; [done|]. split; constructor.
  - destruct m; [done|]. exists (byte1 192), VNil. split; [done|]. split; constructor.
  - destruct l; [done|]. exists (byte1 192), VNil. split; [done|]. split; constructor.
Qed.
Lemma mp_writes_list : writes_list msgpack mp_layout (2 ^ 32 - 1).
Proof.
  intros n H. cbn [la_list mp_layout fm_list msgpack]. unfold mp_list.
  destruct (N.ltb_spec n 16). { rewrite be1 by lia. by apply mc_fix. }
  destruct (N.ltb_spec n (2 ^ 16)). { by apply mc_16, mp_arg_be. }
  apply mc_32, mp_arg_be; [done|]. change (256 ^ N.of_nat 4) with (2 ^ 32). lia.
Qed.
Lemma mp_writes_dict : writes_dict msgpack mp_layout (2 ^ 32 - 1).
Proof.
  intros n H. cbn [la_dict mp_layout fm_dict msgpack]. unfold mp_dict.
  destruct (N.ltb_spec n 16). { rewrite be1 by lia. by apply mc_fix. }
  destruct (N.ltb_spec n (2 ^ 16)). { by apply mc_16, mp_arg_be. }
  apply mc_32, mp_arg_be; [done|]. change (256 ^ N.of_nat 4) with (2 ^ 32). lia.
Qed.
Lemma mp_writes_key : writes_key msgpack mp_layout (shorter (2 ^ 32)).
Proof. intros k H. by apply mp_string_item. Qed.

Lemma mp_break_local : local_break msgpack.
Proof. done. Qed.
Lemma mp_break_shrinks : shrinks_break msgpack.
Proof. done. Qed.
Lemma mp_nothing : nothing msgpack.
Proof. done. Qed.
Lemma mp_local_token : local_token msgpack.
Proof.
  intros s t r x. cbn [fm_token msgpack]. destruct s as [|c s]; [done|]. change (String c s ++ x) with (String c (s ++ x)).
  unfold mp_token. intros H.
  repeat match type of H with
  | (if ?b then _ else _) = _ => destruct b; [try (injection H as <- <-; reflexivity)|]
  | Some _ = Some _ => injection H as <- <-; reflexivity
  | None = _ => discriminate H
  | match read_bytes ?n ?r0 with _ => _ end = _ =>
      let E := fresh "E" in
      destruct (read_bytes n r0) as [[? ?]|] eqn:E; [|discriminate H]; rewrite (read_bytes_local _ _ _ _ x E)
  | match read_be ?k 0 ?r0 with _ => _ end = _ =>
      let E := fresh "E" in
      destruct (read_be k 0 r0) as [[? ?]|] eqn:E; [|discriminate H]; rewrite (read_be_local _ _ _ _ _ x E)
  end; done.
Qed.
Lemma mp_local_key : local_key msgpack.
Proof.
  intros s k r x. cbn [fm_read_key msgpack]. unfold mp_read_key.
  destruct (mp_token s) as [[t r0]|] eqn:E; [|done]. pose proof (mp_local_token s t r0 x E) as E'.
  cbn [fm_token msgpack] in E'. rewrite E'. destruct t as [[]| |]; try done; by intros [= <- <-].
Qed.

Lemma cbor_shrinks_token : shrinks_token cbor.
Proof.
  intros s t r. cbn [fm_token cbor]. unfold cbor_token. destruct (cbor_read_head s) as [[[[major info] n] r0]|] eqn:E; [|done].
  assert (L : (String.length r0 < String.length s)%nat) by exact (cbor_head_shrinks _ _ E).
  cbv zeta. intros H.
  repeat match type of H with
  | (if ?b then _ else _) = _ => destruct b; [try (injection H as <- <-; exact L)|]
  | Some _ = Some _ => injection H as <- <-; exact L
  | None = _ => discriminate H
  | match read_bytes n r0 with _ => _ end = _ =>
      let E1 := fresh "E" in destruct (read_bytes n r0) as [[y r1]|] eqn:E1; [|discriminate H]; apply read_bytes_shrinks in E1
  | match cbor_chunks ?f ?m ?o r0 with _ => _ end = _ =>
      let E1 := fresh "E" in destruct (cbor_chunks f m o r0) as [[y r1]|] eqn:E1; [|discriminate H]; apply chunks_shrink in E1
  end; try done; injection H as <- <-; lia.
Qed.
Lemma cbor_shrinks_key : shrinks_key cbor.
Proof.
  intros s k r. cbn [fm_read_key cbor]. unfold cbor_read_key.
  destruct (cbor_token s) as [[t r0]|] eqn:E; [|done]. pose proof (cbor_shrinks_token s t r0 E).
  destruct t as [[]| |]; try done. by intros [= <- <-].
Qed.
Lemma mp_shrinks_token : shrinks_token msgpack.
Proof.
  intros s t r. cbn [fm_token msgpack]. destruct s as [|c s]; [done|]. unfold mp_token. intros H. cbn [String.length].
  repeat match type of H with
  | (if ?b then _ else _) = _ => destruct b; [try (injection H as <- <-; lia)|]
  | Some _ = Some _ => injection H as <- <-; lia
  | None = _ => discriminate H
  | match read_bytes ?n ?r0 with _ => _ end = _ =>
      let E := fresh "E" in destruct (read_bytes n r0) as [[? ?]|] eqn:E; [|discriminate H]; apply read_bytes_shrinks in E
  | match read_be ?k 0 ?r0 with _ => _ end = _ =>
      let E := fresh "E" in destruct (read_be k 0 r0) as [[? ?]|] eqn:E; [|discriminate H]; apply read_be_shrinks in E
  end; try done; injection H as <- <-; lia.
Qed.
Lemma mp_shrinks_key : shrinks_key msgpack.
Proof.
  intros s k r. cbn [fm_read_key msgpack]. unfold mp_read_key.
  destruct (mp_token s) as [[t r0]|] eqn:E; [|done]. pose proof (mp_shrinks_token s t r0 E).
  destruct t as [[]| |]; try done; by intros [= <- <-].
Qed.
(** So [bin_unmarshal] does not depend on it. *)
Lemma cbor_fuel d s f : (2 * String.length s + 2 <= f)%nat -> read_item cbor f d s = read_item cbor (2 * String.length s + 2) d s.
Proof. intros H. apply (fuel_suffices cbor cbor_shrinks_token cbor_shrinks_key cbor_break_shrinks); lia. Qed.
Lemma mp_fuel d s f : (2 * String.length s + 2 <= f)%nat -> read_item msgpack f d s = read_item msgpack (2 * String.length s + 2) d s.
Proof. intros H. apply (fuel_suffices msgpack mp_shrinks_token mp_shrinks_key mp_break_shrinks); lia. Qed.
