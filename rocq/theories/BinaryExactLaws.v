(** Proofs: CBOR and MessagePack have the laws of BinaryExact.v. *)
From Coq Require Import Ascii.
From Verif Require Import Prelude Value Msg BaseSpec WireSpec PathMatchSpec JsonSpec JsonFacts JsonSafe JsonRound JsonGrammar JsonTree PathUtf8
  Payload Encoding PathMatch Binary BinarySpec BinaryRound BinaryLaws BinaryGrammar BinaryExact.

Local Open Scope string_scope.
Local Open Scope N_scope.

Ltac here := repeat (first [apply elem_of_list_here | apply elem_of_list_further]).
Lemma read_be_inv k : forall acc s n r, read_be k acc s = Some (n, r) -> exists x, s = x ++ r /\ String.length x = k /\ n = numb acc x.
Proof.
  induction k as [|k IH]; intros acc s n r; cbn [read_be].
  - intros [= <- <-]. by exists "".
  - destruct s as [|c s]; [done|]. intros (x & -> & Hx & ->)%IH. exists (String c x). split; [done|]. split; [cbn; lia|]. done.
Qed.
Lemma read_be_number k s n r : read_be k 0 s = Some (n, r) -> exists x, s = x ++ r /\ String.length x = k /\ n = number x.
Proof. apply read_be_inv. Qed.
Lemma stake_sdrop n : forall s, s = stake n s ++ sdrop n s.
Proof. induction n as [|n IH]; intros [|c s]; try done. change (String c s = String c (stake n s ++ sdrop n s)). by rewrite <- IH. Qed.
Lemma stake_length n : forall s, (n <= String.length s)%nat -> String.length (stake n s) = n.
Proof. induction n as [|n IH]; intros [|c s] H; cbn in *; [done|done|lia|]. f_equal. apply IH. lia. Qed.
Lemma read_bytes_inv n s x r : read_bytes n s = Some (x, r) -> s = x ++ r /\ n = N.of_nat (String.length x).
Proof.
  unfold read_bytes. destruct (N.leb_spec n (N.of_nat (String.length s))); [|done]. intros [= <- <-].
  split; [apply stake_sdrop|]. rewrite stake_length; lia.
Qed.
Lemma byte_lt c : byte c < 256.
Proof. apply N_ascii_bounded. Qed.
Lemma byte1_byte c s : String c s = byte1 (byte c) ++ s.
Proof. rewrite byte1_app. unfold byte. by rewrite ascii_N_embedding. Qed.
Lemma single_byte s : String.length s = 1%nat -> s = byte1 (number s).
Proof.
  destruct s as [|c [|c' s]]; try done. intros _. unfold byte1, number. cbn [list_ascii_of_string fold_left].
  rewrite N.mul_0_l, N.add_0_l. by rewrite ascii_N_embedding.
Qed.

Lemma ieee_value_is eb mb bits : 2 <= eb -> 1 <= mb -> bits < 2 * 2 ^ (eb + mb) -> ieee eb mb bits (ieee_value eb mb bits).
Proof.
  intros Heb Hmb Hb. pose proof (P_pos eb mb Heb Hmb) as HP. pose proof (Q_big eb Heb) as HQ. assert (E : 2 ^ (eb + mb) = 2 ^ eb * 2 ^ mb) by apply N.pow_add_r.
  set (P := 2 ^ mb) in *. set (Q := 2 ^ eb) in *.
  assert (S : exists (neg : bool) e m, bits = (if neg then 2 ^ (eb + mb) else 0) + e * P + m /\ e < Q /\ m < P).
  { exists (2 ^ (eb + mb) <=? bits), (bits / P mod Q), (bits mod P). rewrite E in *. split; [|split; apply N.mod_lt; lia].
    assert (D : bits = P * (bits / P) + bits mod P) by (apply N.div_mod; lia).
    assert (D2 : bits / P = Q * (bits / P / Q) + (bits / P) mod Q) by (apply N.div_mod; lia).
    assert (Hm : bits mod P < P) by (apply N.mod_lt; lia). assert (He : (bits / P) mod Q < Q) by (apply N.mod_lt; lia).
    set (e := (bits / P) mod Q) in *. set (m := bits mod P) in *. set (g := bits / P / Q) in *.
    rewrite D2 in D. clearbody e m g. clear D2.
    assert (g = 0 \/ g = 1) as [->| ->].
    { assert (g < 2); [|lia]. destruct (N.lt_ge_cases g 2); [done|]. nia. }
    - destruct (N.leb_spec (Q * P) bits); [nia|]. nia.
    - destruct (N.leb_spec (Q * P) bits); [|nia]. nia. }
  destruct S as (neg & e & m & -> & He & Hm). unfold ieee_value.
  destruct (ieee_split eb mb Heb Hmb neg e m He Hm) as (S1 & S2 & S3). fold P Q in S1, S2, S3 |- *. rewrite S1, S2, S3. clear S1 S2 S3.
  destruct (N.eqb_spec e (Q - 1)) as [->|Ne].
  { destruct (N.eqb_spec m 0) as [->|]; [rewrite N.add_0_r; apply ie_inf|]. apply ie_nan. fold P. lia. }
  destruct (N.eqb_spec e 0) as [->|Ne0].
  { rewrite N.mul_0_l, N.add_0_r. destruct (N.eqb_spec m 0) as [->|]; [rewrite N.add_0_r; apply ie_zero|].
    apply ie_subnormal. fold P. lia. }
  pose proof (ie_normal eb mb neg e (P + m) ltac:(fold Q; lia) ltac:(fold P; lia)) as X. fold P in X.
  replace (P + m - P) with m in X by lia. unfold signed, ieee_min.
  replace (2 - 2 ^ (Z.of_N eb - 1) - Z.of_N mb + Z.of_N e - 1)%Z with (Z.of_N e + 1 - 2 ^ (Z.of_N eb - 1) - Z.of_N mb)%Z by lia. done.
Qed.

(** * CBOR *)
Lemma cbor_head_inv s major info n r : cbor_read_head s = Some (major, info, n, r) -> major < 8 /\
  exists h, s = h ++ r /\ ((info = 31 /\ h = byte1 (major * 32 + 31) /\ n = 0) \/ (info < 24 /\ n = info /\ h = byte1 (major * 32 + info))
    \/ exists k x, (info, k) ∈ [(24, 1%nat); (25, 2%nat); (26, 4%nat); (27, 8%nat)] /\ h = byte1 (major * 32 + info) ++ x
       /\ String.length x = k /\ n = number x).
Proof.
  unfold cbor_read_head. destruct s as [|c s]; [done|]. cbv zeta. pose proof (byte_lt c) as B. rewrite byte1_byte.
  assert (X : forall k r0, (byte c mod 32, k) ∈ [(24, 1%nat); (25, 2%nat); (26, 4%nat); (27, 8%nat)] ->
    match read_be k 0 s with Some (n, r') => Some (byte c / 32, byte c mod 32, n, r') | None => None end = Some (major, info, n, r) -> r0 = r ->
    major < 8 /\ exists h, byte1 (byte c) ++ s = h ++ r /\ ((info = 31 /\ h = byte1 (major * 32 + 31) /\ n = 0) \/ (info < 24 /\ n = info /\ h = byte1 (major * 32 + info))
    \/ exists k x, (info, k) ∈ [(24, 1%nat); (25, 2%nat); (26, 4%nat); (27, 8%nat)] /\ h = byte1 (major * 32 + info) ++ x
       /\ String.length x = k /\ n = number x)).
  { intros k r0 Hk. destruct (read_be k 0 s) as [[n' r']|] eqn:E; [|done]. intros [= <- <- -> ->] _. split; [lia|].
    apply read_be_number in E as (x & -> & Hx & ->). exists (byte1 (byte c) ++ x). split; [by rewrite sapp_assoc|]. right. right.
    exists k, x. split; [done|]. split; [|done]. f_equal. f_equal. lia. }
  destruct (N.ltb_spec (byte c mod 32) 24).
  { intros [= <- <- <- <-]. split; [lia|]. exists (byte1 (byte c)). split; [done|]. right. left. split; [done|]. split; [done|]. f_equal. lia. }
  destruct (N.eqb_spec (byte c mod 32) 24) as [E|]; [intros H1; eapply (X 1%nat); [rewrite E; here|exact H1|done]|].
  destruct (N.eqb_spec (byte c mod 32) 25) as [E|]; [intros H1; eapply (X 2%nat); [rewrite E; here|exact H1|done]|].
  destruct (N.eqb_spec (byte c mod 32) 26) as [E|]; [intros H1; eapply (X 4%nat); [rewrite E; here|exact H1|done]|].
  destruct (N.eqb_spec (byte c mod 32) 27) as [E|]; [intros H1; eapply (X 8%nat); [rewrite E; here|exact H1|done]|].
  destruct (N.eqb_spec (byte c mod 32) 31) as [E|]; [|done]. intros [= <- <- <- <-]. split; [lia|]. exists (byte1 (byte c)). split; [done|].
  left. split; [done|]. split; [|done]. f_equal. lia.
Qed.
Lemma cbor_head_arg_inv s major info n r : cbor_read_head s = Some (major, info, n, r) -> (info =? 31) = false ->
  exists h, s = h ++ r /\ cbor_arg major n h.
Proof.
  intros (_ & h & -> & C)%cbor_head_inv N%N.eqb_neq. exists h. split; [done|].
  destruct C as [(-> & _)|[(Hi & -> & ->)|(k & x & Hk & -> & Hx & ->)]]; [done|by constructor|by eapply ca_long].
Qed.
Lemma cbor_break_inv s r : cbor_break s = Some r -> s = byte1 255 ++ r.
Proof. destruct s as [|c s]; [done|]. cbn [cbor_break]. destruct (N.eqb_spec (byte c) 255) as [E|]; [|done]. intros [= ->]. by rewrite byte1_byte, E. Qed.
Definition chunk (c : string * string) : string := fst c ++ snd c.
Lemma chunks_inv f : forall major ok s y r, cbor_chunks f major ok s = Some (y, r) ->
  exists cs, s = (String.concat "" (map chunk cs) ++ byte1 255) ++ r /\ y = String.concat "" (map snd cs)
    /\ Forall (fun c => cbor_arg major (N.of_nat (String.length (snd c))) (fst c) /\ ok (snd c) = true) cs.
Proof.
  induction f as [|f IH]; intros major ok s y r; cbn [cbor_chunks]; [done|].
  destruct (cbor_break s) as [r'|] eqn:B.
  { intros [= <- <-]. exists []. split; [by apply cbor_break_inv|]. split; [done|constructor]. }
  destruct (cbor_read_head s) as [[[[m info] n] r1]|] eqn:E; [|done].
  destruct ((m =? major) && negb (info =? 31)) eqn:C; [|done]. apply andb_true_iff in C as [->%N.eqb_eq C%negb_true_iff].
  destruct (cbor_head_arg_inv _ _ _ _ _ E C) as (h & -> & A).
  destruct (read_bytes n r1) as [[x r2]|] eqn:E1; [|done]. apply read_bytes_inv in E1 as [-> ->].
  destruct (ok x) eqn:O; [|done]. destruct (cbor_chunks f major ok r2) as [[y' r3]|] eqn:E2; [|done]. intros [= <- <-].
  apply IH in E2 as (cs & -> & -> & Hcs). exists ((h, x) :: cs). cbn [map]. rewrite !concat_cons_nil.
  split; [unfold chunk at 2; cbn [fst snd]; by rewrite !sapp_assoc|]. split; [done|]. by constructor.
Qed.
Lemma arg_big major n h : cbor_arg major n h -> n < 2 ^ 64.
Proof.
  intros [n' Hn|i k s Hi Hs]; [lia|]. pose proof (number_bound s) as B. rewrite Hs in B.
  repeat (apply elem_of_cons in Hi as [[= -> ->]|Hi]; [eapply N.lt_le_trans; [exact B|apply N.leb_le; reflexivity]|]).
  by apply elem_of_nil in Hi.
Qed.

Lemma cbor_sound_token : sound_token cbor cbor_dialect.
Proof.
  intros s t r. cbn [fm_token cbor]. unfold cbor_token.
  destruct (cbor_read_head s) as [[[[major info] n] r0]|] eqn:E; [|done]. cbv zeta.
  pose proof (cbor_head_inv _ _ _ _ _ E) as (Hm & h & Es & C). pose proof (cbor_head_arg_inv _ _ _ _ _ E) as A. clear E.
  destruct (info =? 31) eqn:O.
  - apply N.eqb_eq in O as ->. assert (Eh : h = byte1 (major * 32 + 31)).
    { destruct C as [(_ & -> & _)|[(? & _)|(k & x & Hi & _)]]; [done|lia|].
      exfalso. repeat (apply elem_of_cons in Hi as [[=]|Hi]). by apply elem_of_nil in Hi. }
    clear C A. subst h. cbn [andb].
    destruct (N.eqb_spec major 0); [done|]. destruct (N.eqb_spec major 1); [done|]. cbn [orb].
    destruct (N.eqb_spec major 2) as [->|].
    { destruct (cbor_chunks _ _ _ r0) as [[x r']|] eqn:E; [|done]. intros [= <- <-]. apply chunks_inv in E as (cs & -> & -> & H).
      exists (byte1 95 ++ String.concat "" (map chunk cs) ++ byte1 255). split; [by rewrite Es, !sapp_assoc|]. apply cv_bytes.
      eapply Forall_impl; [exact H|]. by intros ? []. }
    destruct (N.eqb_spec major 3) as [->|].
    { destruct (cbor_chunks _ _ _ r0) as [[x r']|] eqn:E; [|done]. intros [= <- <-]. apply chunks_inv in E as (cs & -> & -> & H).
      exists (byte1 127 ++ String.concat "" (map chunk cs) ++ byte1 255). split; [by rewrite Es, !sapp_assoc|]. apply cv_text.
      eapply Forall_impl; [exact H|]. intros ? [? ?]. split; [done|]. by eapply text_utf8_valid. }
    destruct (N.eqb_spec major 4) as [->|]; [intros [= <- <-]; by exists (byte1 159)|].
    destruct (N.eqb_spec major 5) as [->|]; [intros [= <- <-]; by exists (byte1 191)|].
    destruct (N.eqb_spec major 7) as [->|]; done.
  - destruct (A eq_refl) as (h' & Es' & Ha). cbn [andb].
    destruct (N.eqb_spec major 0) as [->|]. { intros [= <- <-]. exists h'. split; [done|]. by apply cv_atom, ci_unsigned. }
    destruct (N.eqb_spec major 1) as [->|].
    { destruct (N.ltb_spec n (2 ^ 63)); intros [= <- <-]; exists h'; (split; [done|]); [by apply cv_atom, ci_negative|by eapply cv_big]. }
    destruct (N.eqb_spec major 2) as [->|].
    { destruct (read_bytes n r0) as [[x r']|] eqn:E; [|done]. apply read_bytes_inv in E as [-> ->]. intros [= <- <-].
      exists (h' ++ x). split; [by rewrite sapp_assoc|]. by apply cv_atom, ci_bytes. }
    destruct (N.eqb_spec major 3) as [->|].
    { destruct (read_bytes n r0) as [[x r']|] eqn:E; [|done]. apply read_bytes_inv in E as [-> ->].
      destruct (utf8_valid (String.length x) x) eqn:U; [|done]. intros [= <- <-].
      exists (h' ++ x). split; [by rewrite sapp_assoc|]. apply cv_atom, ci_text; [done|]. by eapply text_utf8_valid. }
    destruct (N.eqb_spec major 4) as [->|]. { destruct (N.leb_spec n 131072); [|done]. intros [= <- <-]. by exists h'. }
    destruct (N.eqb_spec major 5) as [->|]. { destruct (N.leb_spec n 131072); [|done]. intros [= <- <-]. by exists h'. }
    destruct (N.eqb_spec major 7) as [->|]; [|done]. clear A Es' Ha. subst s.
    destruct C as [(-> & _)|[(Hi & -> & ->)|(k & x & Hi & -> & Hx & ->)]]; [done| |].
    + destruct (N.eqb_spec info 20) as [->|]. { intros [= <- <-]. eexists. split; [done|]. apply cv_atom, ci_false. }
      destruct (N.eqb_spec info 21) as [->|]. { intros [= <- <-]. eexists. split; [done|]. apply cv_atom, ci_true. }
      destruct (N.eqb_spec info 22) as [->|]. { intros [= <- <-]. eexists. split; [done|]. apply cv_atom, ci_null. }
      destruct (N.eqb_spec info 23) as [->|]. { intros [= <- <-]. eexists. split; [done|]. apply cv_atom, ci_undefined. }
      cbn [orb]. destruct (N.ltb_spec info 20); [|lia]. intros [= <- <-]. eexists. split; [done|]. by apply cv_simple.
    + pose proof (number_bound x) as B. rewrite Hx in B.
      repeat (apply elem_of_cons in Hi as [[= -> ->]|Hi]); [| | | |by apply elem_of_nil in Hi];
        cbn [N.eqb Pos.eqb orb andb N.ltb N.compare Pos.compare Pos.compare_cont].
      * destruct (N.leb_spec 32 (number x)); [|done]. intros [= <- <-]. eexists. split; [done|].
        rewrite (single_byte x Hx). apply cv_simple_long. done.
      * intros [= <- <-]. eexists. split; [done|]. apply cv_atom, ci_half; [done|]. apply ieee_value_is; [done|done|]. exact B.
      * intros [= <- <-]. eexists. split; [done|]. apply cv_atom, ci_single; [done|]. apply ieee_value_is; [done|done|]. exact B.
      * intros [= <- <-]. eexists. split; [done|]. apply cv_atom, ci_double; [done|]. apply ieee_value_is; [done|done|]. exact B.
Qed.
Lemma cbor_sound_key : sound_key cbor cbor_dialect.
Proof.
  intros s k r. cbn [fm_read_key cbor]. unfold cbor_read_key. destruct (cbor_token s) as [[[v| |] r']|] eqn:E; [|done|done|done].
  destruct v; try done. intros [= <- <-]. apply (cbor_sound_token s (TVal _)) in E as (h & -> & H). by exists h.
Qed.
Lemma cbor_sound_break : sound_break cbor cbor_dialect.
Proof. intros s r H. exists (byte1 255). split; [by apply cbor_break_inv|done]. Qed.

Lemma chunks_complete major ok cs : major < 7 -> Forall (fun c => cbor_arg major (N.of_nat (String.length (snd c))) (fst c) /\ ok (snd c) = true) cs ->
  forall r f, (length cs < f)%nat -> cbor_chunks f major ok (String.concat "" (map chunk cs) ++ byte1 255 ++ r) = Some (String.concat "" (map snd cs), r).
Proof.
  intros Hm. induction 1 as [|[h x] cs [A O] H IH]; intros r f Hf; (destruct f as [|f]; [cbn in Hf; lia|]); cbn [cbor_chunks].
  - done.
  - cbn [map]. rewrite !concat_cons_nil. change (chunk (h, x)) with (h ++ x). cbn [fst snd] in *. rewrite !sapp_assoc.
    destruct (cbor_arg_reads _ _ _ A ltac:(lia)) as (Nh & _ & info & I31 & R).
    assert (cbor_break (h ++ x ++ String.concat "" (map chunk cs) ++ byte1 255 ++ r) = None) as ->.
    { destruct (cbor_break _) as [z|] eqn:E; [|done]. specialize (R (x ++ String.concat "" (map chunk cs) ++ byte1 255 ++ r)).
      apply cbor_break_inv in E. rewrite E in R. cbn in R. injection R as ? ?. lia. }
    rewrite R, N.eqb_refl, I31. cbn [negb andb]. rewrite read_bytes_ok, O, IH by (cbn in Hf; lia). done.
Qed.
Lemma chunks_length major cs : major < 8 -> Forall (fun c => cbor_arg major (N.of_nat (String.length (snd c))) (fst c)) cs ->
  (length cs <= String.length (String.concat "" (map chunk cs)))%nat.
Proof.
  intros Hm. induction 1 as [|[h x] cs A H IH]; [done|]. cbn [map]. rewrite concat_cons_nil, slength_app. unfold chunk at 1. cbn [fst snd length] in *.
  rewrite slength_app. destruct (cbor_arg_reads _ _ _ A Hm) as (Nh & _). pose proof (some_length h Nh). lia.
Qed.
Lemma cbor_complete_atom : complete_atom cbor cbor_dialect.
Proof.
  intros s v H. cbn [di_atom cbor_dialect] in H. cbn [fm_token cbor]. destruct H as [s v H|n h A Hn|n Hn|n Hn|cs H|cs H].
  - by apply cbor_reads_atom.
  - destruct (cbor_arg_reads _ _ _ A) as (Nh & Bn & info & I31 & R); [done|]. split; [done|]. intros r. unfold cbor_token. rewrite R. cbv zeta.
    rewrite I31. cbn [N.eqb Pos.eqb andb]. destruct (N.ltb_spec n (2 ^ 63)); [lia|done].
  - split; [done|]. intros r. rewrite byte1_app. unfold cbor_token, cbor_read_head. rewrite byte_ascii by lia.
    replace ((7 * 32 + n) / 32) with 7 by lia. replace ((7 * 32 + n) mod 32) with n by lia. destruct (N.ltb_spec n 24); [|lia].
    destruct (N.eqb_spec n 31); [lia|]. cbn [N.eqb Pos.eqb andb].
    destruct (N.eqb_spec n 20); [lia|]. destruct (N.eqb_spec n 21); [lia|]. destruct (N.eqb_spec n 22); [lia|]. destruct (N.eqb_spec n 23); [lia|].
    cbn [orb]. destruct (N.ltb_spec n 20); [done|lia].
  - split; [done|]. intros r. rewrite sapp_assoc, byte1_app. unfold cbor_token, cbor_read_head.
    change (byte (ascii_of_N 248) / 32) with 7. change (byte (ascii_of_N 248) mod 32) with 24.
    cbn [N.ltb N.compare N.eqb Pos.compare Pos.compare_cont Pos.eqb]. cbv iota zeta beta. rewrite read_be_ok by done.
    assert (number (byte1 n) = n) as ->. { unfold number, byte1. cbn [list_ascii_of_string fold_left]. rewrite N_ascii_embedding by lia. lia. }
    cbn [N.eqb Pos.eqb orb andb N.ltb N.compare Pos.compare Pos.compare_cont]. destruct (N.leb_spec 32 n); [done|lia].
  - split; [done|]. intros r. rewrite !sapp_assoc, byte1_app. change (map (fun c : string * string => fst c ++ snd c) cs) with (map chunk cs).
    unfold cbor_token, cbor_read_head. change (byte (ascii_of_N 95) / 32) with 2. change (byte (ascii_of_N 95) mod 32) with 31.
    cbn [N.ltb N.compare N.eqb Pos.compare Pos.compare_cont Pos.eqb orb andb]. cbv iota zeta beta.
    rewrite (chunks_complete 2); [done|done| |].
    + eapply Forall_impl; [exact H|]. by intros.
    + apply chunks_length in H; [|done]. rewrite slength_app. lia.
  - split; [done|]. intros r. rewrite !sapp_assoc, byte1_app. change (map (fun c : string * string => fst c ++ snd c) cs) with (map chunk cs).
    unfold cbor_token, cbor_read_head. change (byte (ascii_of_N 127) / 32) with 3. change (byte (ascii_of_N 127) mod 32) with 31.
    cbn [N.ltb N.compare N.eqb Pos.compare Pos.compare_cont Pos.eqb orb andb]. cbv iota zeta beta.
    rewrite (chunks_complete 3); [done|done| |].
    + eapply Forall_impl; [exact H|]. intros ? [? ?]. split; [done|]. by apply utf8_valid_text.
    + assert (H' : Forall (fun c => cbor_arg 3 (N.of_nat (String.length (snd c))) (fst c)) cs) by (eapply Forall_impl; [exact H|]; by intros ? []).
      apply chunks_length in H'; [|done]. rewrite slength_app. lia.
Qed.
Lemma cbor_complete_list : complete_list cbor cbor_dialect.
Proof. intros n h [A H]. by apply (cbor_reads_list n h A). Qed.
Lemma cbor_complete_dict : complete_dict cbor cbor_dialect.
Proof. intros n h [A H]. by apply (cbor_reads_dict n h A). Qed.
Lemma cbor_complete_open_list : complete_open_list cbor cbor_dialect.
Proof. intros n h [-> H]. split; [done|]. by exists 131072. Qed.
Lemma cbor_complete_open_dict : complete_open_dict cbor cbor_dialect.
Proof. intros n h [-> H]. split; [done|]. by exists 131072. Qed.
Lemma cbor_complete_close : complete_close cbor cbor_dialect.
Proof. intros z E. cbn [di_close cbor_dialect] in E. subst z. split; [done|]. intros r. reflexivity. Qed.
Lemma cbor_complete_key : complete_key cbor cbor_dialect.
Proof.
  intros k t H. apply cbor_complete_atom in H as [N R]. split; [done|]. intros r. cbn [fm_read_key cbor fm_token] in *.
  unfold cbor_read_key. by rewrite R.
Qed.
Lemma cbor_break_alone : break_alone cbor.
Proof. intros s r E. apply cbor_break_inv in E. subst s. split; reflexivity. Qed.

(** * MessagePack *)
Lemma mp_sound_token : sound_token msgpack mp_dialect.
Proof.
  intros s t r. cbn [fm_token msgpack]. destruct s as [|c s]; [done|]. pose proof (byte_lt c) as B. revert B.
  unfold mp_token. rewrite (byte1_byte c s). generalize (byte c). clear c. intros b B. cbv zeta.
  assert (Num : forall k (mk : N -> token) , match read_be k 0 s with Some (n, r') => Some (mk n, r') | None => None end = Some (t, r) ->
    exists x, s = x ++ r /\ String.length x = k /\ t = mk (number x) /\ number x < 256 ^ N.of_nat k).
  { intros k mk. destruct (read_be k 0 s) as [[n r']|] eqn:E; [|done]. apply read_be_number in E as (x & -> & Hx & ->). intros [= <- <-].
    exists x. split; [done|]. split; [done|]. split; [done|]. rewrite <- Hx. apply number_bound. }
  assert (Str : forall n (s0 : string) (mk : string -> value), match read_bytes n s0 with Some (x, r') => Some (TVal (mk x), r') | None => None end = Some (t, r) ->
    exists x, s0 = x ++ r /\ n = N.of_nat (String.length x) /\ t = TVal (mk x)).
  { intros n s0 mk. destruct (read_bytes n s0) as [[x r']|] eqn:E; [|done]. apply read_bytes_inv in E as [-> ->]. intros [= <- <-]. by exists x. }
  assert (Sized : forall k (mk : string -> value), match read_be k 0 s with Some (n, r') => match read_bytes n r' with Some (x, r'0) => Some (TVal (mk x), r'0) | None => None end | None => None end = Some (t, r) ->
    exists y x, s = y ++ x ++ r /\ String.length y = k /\ number y = N.of_nat (String.length x) /\ t = TVal (mk x)).
  { intros k mk. destruct (read_be k 0 s) as [[n r']|] eqn:E; [|done]. apply read_be_number in E as (y & -> & Hy & ->).
    intros (x & -> & En & ->)%Str. by exists y, x. }
  assert (Ext : forall n s0, match read_be 1 0 s0 with
        | Some (id, r') => if (id =? 255) && ((n =? 4) || (n =? 8) || (n =? 12)) then
             match read_bytes n r' with Some (x, r'0) => Some (TVal (VOther 0), r'0) | None => None end else None
        | None => None end = Some (t, r) ->
    exists x, s0 = byte1 255 ++ x ++ r /\ n = N.of_nat (String.length x) /\ (n = 4 \/ n = 8 \/ n = 12) /\ t = TVal (VOther 0)).
  { intros n s0. destruct (read_be 1 0 s0) as [[n1 r']|] eqn:E; [|done]. apply read_be_number in E as (y & -> & Hy & ->).
    destruct (N.eqb_spec (number y) 255) as [Ey|]; [|done]. cbn [andb]. rewrite (single_byte y Hy), Ey.
    destruct ((n =? 4) || (n =? 8) || (n =? 12)) eqn:En; [|done]. intros (x & -> & El & ->)%(Str n r' (fun _ => VOther 0)).
    exists x. split; [done|]. split; [done|]. split; [|done]. rewrite !orb_true_iff, !N.eqb_eq in En. lia. }
  assert (SExt : forall k, match read_be k 0 s with Some (n, r'0) => match read_be 1 0 r'0 with
        | Some (id, r') => if (id =? 255) && ((n =? 4) || (n =? 8) || (n =? 12)) then
             match read_bytes n r' with Some (x, r'0) => Some (TVal (VOther 0), r'0) | None => None end else None
        | None => None end | None => None end = Some (t, r) ->
    exists y x, s = y ++ byte1 255 ++ x ++ r /\ String.length y = k /\ number y = N.of_nat (String.length x)
      /\ (String.length x = 4 \/ String.length x = 8 \/ String.length x = 12)%nat /\ t = TVal (VOther 0)).
  { intros k. destruct (read_be k 0 s) as [[n r']|] eqn:E; [|done]. apply read_be_number in E as (y & -> & Hy & ->).
    intros (x & -> & En & Hn & ->)%Ext. exists y, x. split; [done|]. split; [done|]. split; [done|]. split; [lia|done]. }
  destruct (N.ltb_spec b 128). { intros [= <- <-]. eexists. split; [done|]. by apply mv_atom, mi_positive. }
  destruct (N.ltb_spec b 144). { intros [= <- <-]. eexists. split; [done|]. replace b with (128 + (b - 128)) at 2 by lia. apply mc_fix. lia. }
  destruct (N.ltb_spec b 160). { intros [= <- <-]. eexists. split; [done|]. replace b with (144 + (b - 144)) at 2 by lia. apply mc_fix. lia. }
  destruct (N.ltb_spec b 192).
  { intros (x & -> & En & ->)%Str. exists (byte1 b ++ x). split; [by rewrite sapp_assoc|]. apply mv_atom.
    replace b with (160 + N.of_nat (String.length x)) by lia. apply mi_fixstr. lia. }
  destruct (N.eqb_spec b 192) as [->|]. { intros [= <- <-]. eexists. split; [done|]. apply mv_atom, mi_nil. }
  destruct (N.eqb_spec b 194) as [->|]. { intros [= <- <-]. eexists. split; [done|]. apply mv_atom, mi_false. }
  destruct (N.eqb_spec b 195) as [->|]. { intros [= <- <-]. eexists. split; [done|]. apply mv_atom, mi_true. }
  cbn [orb].
  Ltac bin := let x := fresh "x" in let y := fresh "y" in let Hy := fresh "Hy" in let Hn := fresh "Hn" in
    intros (y & x & -> & Hy & Hn & ->);
    match goal with |- exists h, byte1 ?b ++ _ = _ /\ _ => exists ((byte1 b ++ y) ++ x) end; split; [by rewrite !sapp_assoc|]; apply mv_atom.
  destruct (N.eqb_spec b 196) as [->|]. { intros X%Sized. revert X. bin. eapply (mi_bin 196 1); [here|]. rewrite <- Hn. by constructor. }
  destruct (N.eqb_spec b 197) as [->|]. { intros X%Sized. revert X. bin. eapply (mi_bin 197 2); [here|]. rewrite <- Hn. by constructor. }
  destruct (N.eqb_spec b 198) as [->|]. { intros X%Sized. revert X. bin. eapply (mi_bin 198 4); [here|]. rewrite <- Hn. by constructor. }
  Ltac ext b k := let x := fresh "x" in let y := fresh "y" in let Hy := fresh "Hy" in let Hn := fresh "Hn" in let Hl := fresh "Hl" in
    intros (y & x & -> & Hy & Hn & Hl & ->);
    exists ((byte1 b ++ y) ++ byte1 255 ++ x); split; [by rewrite !sapp_assoc|]; apply mv_time; right; right; split; [done|];
    exists b, k; split; [here|]; rewrite <- Hn; by constructor.
  destruct (N.eqb_spec b 199) as [->|]. { intros X%SExt. revert X. ext 199 1%nat. }
  destruct (N.eqb_spec b 200) as [->|]. { intros X%SExt. revert X. ext 200 2%nat. }
  destruct (N.eqb_spec b 201) as [->|]. { intros X%SExt. revert X. ext 201 4%nat. }
  Ltac num := let x := fresh "x" in let Hx := fresh "Hx" in let B := fresh "B" in intros (x & -> & Hx & -> & B);
    match goal with |- exists h, byte1 ?b ++ _ = _ /\ _ => exists (byte1 b ++ x) end; split; [by rewrite sapp_assoc|].
  destruct (N.eqb_spec b 202) as [->|].
  { intros X%Num. revert X. num. apply mv_atom. eapply mi_single; [by constructor|]. apply ieee_value_is; done. }
  destruct (N.eqb_spec b 203) as [->|].
  { intros X%Num. revert X. num. apply mv_atom. eapply mi_double; [by constructor|]. apply ieee_value_is; done. }
  destruct (N.eqb_spec b 204) as [->|]. { intros X%Num. revert X. num. apply mv_atom. eapply (mi_unsigned 204 1); [here|by constructor]. }
  destruct (N.eqb_spec b 205) as [->|]. { intros X%Num. revert X. num. apply mv_atom. eapply (mi_unsigned 205 2); [here|by constructor]. }
  destruct (N.eqb_spec b 206) as [->|]. { intros X%Num. revert X. num. apply mv_atom. eapply (mi_unsigned 206 4); [here|by constructor]. }
  destruct (N.eqb_spec b 207) as [->|]. { intros X%Num. revert X. num. apply mv_atom. eapply (mi_unsigned 207 8); [here|by constructor]. }
  destruct (N.eqb_spec b 208) as [->|].
  { intros X%Num. revert X. num. apply mv_atom. rewrite (twos_bits 1) by lia. eapply (mi_signed 208 1); [here|by constructor]. }
  destruct (N.eqb_spec b 209) as [->|].
  { intros X%Num. revert X. num. apply mv_atom. rewrite (twos_bits 2) by lia. eapply (mi_signed 209 2); [here|by constructor]. }
  destruct (N.eqb_spec b 210) as [->|].
  { intros X%Num. revert X. num. apply mv_atom. rewrite (twos_bits 4) by lia. eapply (mi_signed 210 4); [here|by constructor]. }
  destruct (N.eqb_spec b 211) as [->|].
  { intros X%Num. revert X. num. apply mv_atom. rewrite (twos_bits 8) by lia. eapply (mi_signed 211 8); [here|by constructor]. }
  destruct ((212 <=? b) && (b <=? 216)) eqn:Eb.
  { apply andb_true_iff in Eb as [?%N.leb_le ?%N.leb_le]. intros (x & -> & En & Hn & ->)%Ext.
    exists (byte1 b ++ byte1 255 ++ x). split; [by rewrite !sapp_assoc|]. apply mv_time.
    assert (b = 212 \/ b = 213 \/ b = 214 \/ b = 215 \/ b = 216) as Hb by lia.
    destruct Hb as [->|[->|[->|[->| ->]]]]; cbn in En, Hn; try lia.
    - left. split; [done|lia].
    - right. left. split; [done|lia]. }
  destruct (N.eqb_spec b 217) as [->|]. { intros X%Sized. revert X. bin. eapply (mi_str 217 1); [here|]. rewrite <- Hn. by constructor. }
  destruct (N.eqb_spec b 218) as [->|]. { intros X%Sized. revert X. bin. eapply (mi_str 218 2); [here|]. rewrite <- Hn. by constructor. }
  destruct (N.eqb_spec b 219) as [->|]. { intros X%Sized. revert X. bin. eapply (mi_str 219 4); [here|]. rewrite <- Hn. by constructor. }
  destruct (N.eqb_spec b 220) as [->|]. { intros X%Num. revert X. num. apply mc_16. by constructor. }
  destruct (N.eqb_spec b 221) as [->|]. { intros X%Num. revert X. num. apply mc_32. by constructor. }
  destruct (N.eqb_spec b 222) as [->|]. { intros X%Num. revert X. num. apply mc_16. by constructor. }
  destruct (N.eqb_spec b 223) as [->|]. { intros X%Num. revert X. num. apply mc_32. by constructor. }
  destruct (N.leb_spec 224 b); [|done]. intros [= <- <-]. eexists. split; [done|]. apply mv_atom, mi_negative. lia.
Qed.
Lemma mp_value_atom s v : mp_value s v -> v <> VOther 0 -> mp_item_atom s v.
Proof. by intros []. Qed.
Lemma mp_sound_key : sound_key msgpack mp_dialect.
Proof.
  intros s k r. cbn [fm_read_key msgpack]. unfold mp_read_key. destruct (mp_token s) as [[[v| |] r']|] eqn:E; [|done|done|done].
  apply (mp_sound_token s (TVal v)) in E as (h & -> & H). cbn [di_atom mp_dialect] in H.
  destruct v; try done; intros [= <- <-]; exists h; (split; [done|]); apply mp_value_atom in H; try done.
  - right. right. inversion H; subst; done.
  - by left.
  - right. by left.
Qed.
Lemma mp_sound_break : sound_break msgpack mp_dialect.
Proof. done. Qed.

Lemma mp_complete_atom : complete_atom msgpack mp_dialect.
Proof.
  intros s v H. cbn [di_atom mp_dialect] in H. destruct H as [s v H|h x H]; [by apply mp_reads_atom|]. cbn [fm_token msgpack].
  destruct H as [[-> Hx]|[[-> Hx]|[Hl (b & k & Hb & A)]]].
  - split; [done|]. intros r. rewrite !sapp_assoc, byte1_app. unfold mp_token. rewrite byte_ascii by done.
    cbn [N.ltb N.compare N.eqb Pos.compare Pos.compare_cont Pos.eqb orb andb N.leb]. cbv iota zeta beta. rewrite read_be_ok by done.
    change (number (byte1 255) =? 255) with true. change (2 ^ (214 - 212)) with (N.of_nat 4). rewrite <- Hx, read_bytes_ok, Hx. done.
  - split; [done|]. intros r. rewrite !sapp_assoc, byte1_app. unfold mp_token. rewrite byte_ascii by done.
    cbn [N.ltb N.compare N.eqb Pos.compare Pos.compare_cont Pos.eqb orb andb N.leb]. cbv iota zeta beta. rewrite read_be_ok by done.
    change (number (byte1 255) =? 255) with true. change (2 ^ (215 - 212)) with (N.of_nat 8). rewrite <- Hx, read_bytes_ok, Hx. done.
  - apply mp_arg_inv in A as (y & -> & Hy & En). split; [done|]. intros r. rewrite !sapp_assoc, byte1_app.
    repeat (apply elem_of_cons in Hb as [[= -> ->]|Hb];
      [unfold mp_token; rewrite byte_ascii by done; cbn [N.ltb N.compare N.eqb Pos.compare Pos.compare_cont Pos.eqb orb andb N.leb];
       cbv iota zeta beta; rewrite read_be_ok by done; rewrite read_be_ok by done; rewrite <- En, read_bytes_ok;
       destruct Hl as [->|[->| ->]]; done|]). by apply elem_of_nil in Hb.
Qed.
Lemma count_bound f a b n h : mp_count f a b n h -> n <= 2 ^ 32 - 1.
Proof.
  intros [n' Hn|n' h' A|n' h' A]; [lia| |]; apply mp_arg_inv in A as (s & _ & Hs & ->); pose proof (number_bound s) as B; rewrite Hs in B.
  - change (256 ^ N.of_nat 2) with 65536 in B. lia.
  - change (256 ^ N.of_nat 4) with 4294967296 in B. lia.
Qed.
Lemma mp_complete_list : complete_list msgpack mp_dialect.
Proof. intros n h A. apply (mp_reads_list n h A). exact (count_bound _ _ _ _ _ A). Qed.
Lemma mp_complete_dict : complete_dict msgpack mp_dialect.
Proof. intros n h A. apply (mp_reads_dict n h A). exact (count_bound _ _ _ _ _ A). Qed.
Lemma mp_complete_open_list : complete_open_list msgpack mp_dialect.
Proof. done. Qed.
Lemma mp_complete_open_dict : complete_open_dict msgpack mp_dialect.
Proof. done. Qed.
Lemma mp_complete_close : complete_close msgpack mp_dialect.
Proof. done. Qed.
Lemma mp_complete_key : complete_key msgpack mp_dialect.
Proof.
  intros k t [H|[H|[-> ->]]]; [| |done]; destruct (mp_reads_atom _ _ H) as [N R]; (split; [done|]); intros r; cbn [fm_read_key msgpack fm_token] in *;
    unfold mp_read_key; by rewrite R.
Qed.
Lemma mp_break_alone : break_alone msgpack.
Proof. done. Qed.

(** * The serializers *)
Theorem cbor_item_iff d s : forall v r, read_item cbor (2 * String.length s + 2) d s = Some (v, r) -> exists t, s = t ++ r /\ stands cbor_dialect d t v.
Proof. intros v r. apply (read_sound cbor cbor_dialect cbor_sound_token cbor_sound_key cbor_sound_break). Qed.
Theorem mp_item_iff d s : forall v r, read_item msgpack (2 * String.length s + 2) d s = Some (v, r) -> exists t, s = t ++ r /\ stands mp_dialect d t v.
Proof. intros v r. apply (read_sound msgpack mp_dialect mp_sound_token mp_sound_key mp_sound_break). Qed.
Theorem cbor_item_complete d s v : stands cbor_dialect d s v -> exists v', alike v v' /\
  forall fuel rest, (2 * String.length s <= fuel)%nat -> read_item cbor fuel d (s ++ rest) = Some (v', rest).
Proof.
  intros H. destruct (stands_reads cbor cbor_dialect cbor_complete_atom cbor_complete_list cbor_complete_dict cbor_complete_open_list
    cbor_complete_open_dict cbor_complete_close cbor_complete_key cbor_break_alone d s v H) as (v' & A & _ & _ & R). by exists v'.
Qed.
Theorem mp_item_complete d s v : stands mp_dialect d s v -> exists v', alike v v' /\
  forall fuel rest, (2 * String.length s <= fuel)%nat -> read_item msgpack fuel d (s ++ rest) = Some (v', rest).
Proof.
  intros H. destruct (stands_reads msgpack mp_dialect mp_complete_atom mp_complete_list mp_complete_dict mp_complete_open_list
    mp_complete_open_dict mp_complete_close mp_complete_key mp_break_alone d s v H) as (v' & A & _ & _ & R). by exists v'.
Qed.

(** The list the bytes stand for. *)
Theorem cbor_unmarshal_sound s l : bin_unmarshal cbor s = Ok l ->
  stands cbor_dialect (Some 32) s (match l with Some l => VSlice (Some l) | None => VNil end).
Proof.
  unfold bin_unmarshal. cbn [fm_levels fm_trailing cbor].
  destruct (read_item cbor _ _ s) as [[v r]|] eqn:E; [|done]. apply cbor_item_iff in E as (t & -> & H).
  destruct (String.eqb_spec r "") as [->|]; [|done]. rewrite sapp_nil. cbn [negb andb].
  destruct v as [| | | | | | |l'|m| |]; try done.
  - by intros [= <-].
  - intros [= <-]. destruct l' as [l'|]; [done|]. inversion H as [? ? ? A| | | |]; subst. inversion A; subst.
    match goal with X : cbor_item_atom _ _ |- _ => inversion X end.
Qed.
Theorem mp_unmarshal_sound s l : bin_unmarshal msgpack s = Ok l ->
  exists t r, s = t ++ r /\ stands mp_dialect None t (match l with Some l => VSlice (Some l) | None => VNil end).
Proof.
  unfold bin_unmarshal. cbn [fm_levels fm_trailing msgpack].
  destruct (read_item msgpack _ _ s) as [[v r]|] eqn:E; [|done]. apply mp_item_iff in E as (t & -> & H). cbn [negb andb].
  destruct v as [| | | | | | |l'|m| |]; try done.
  - intros [= <-]. by exists t, r.
  - intros [= <-]. exists t, r. split; [done|]. destruct l' as [l'|]; [done|]. inversion H as [? ? ? A| | | |]; subst. inversion A; subst.
    match goal with X : mp_item_atom _ _ |- _ => inversion X end.
Qed.
Lemma alike_list l v : alike (VSlice (Some l)) v -> exists l', v = VSlice (Some l') /\ Forall2 alike l l'.
Proof.
  intros H. inversion H; subst; [|eauto]. exists l. split; [done|]. clear H. induction l; constructor; [apply al_same|done].
Qed.
Theorem cbor_unmarshal_complete s l : stands cbor_dialect (Some 32) s (VSlice (Some l)) ->
  exists l', Forall2 alike l l' /\ bin_unmarshal cbor s = Ok (Some l').
Proof.
  intros H. apply cbor_item_complete in H as (v & A & R). apply alike_list in A as (l' & -> & A). exists l'. split; [done|].
  unfold bin_unmarshal. cbn [fm_levels fm_trailing cbor]. pose proof (R (2 * String.length s + 2)%nat "" ltac:(lia)) as E.
  rewrite sapp_nil in E. by rewrite E.
Qed.
Theorem mp_unmarshal_complete s r l : stands mp_dialect None s (VSlice (Some l)) ->
  exists l', Forall2 alike l l' /\ bin_unmarshal msgpack (s ++ r) = Ok (Some l').
Proof.
  intros H. apply mp_item_complete in H as (v & A & R). apply alike_list in A as (l' & -> & A). exists l'. split; [done|].
  unfold bin_unmarshal. cbn [fm_levels fm_trailing msgpack]. rewrite R; [done|]. rewrite slength_app. lia.
Qed.
Theorem cbor_unmarshal_refuses s : (forall l, ~ stands cbor_dialect (Some 32) s (VSlice (Some l))) -> ~ stands cbor_dialect (Some 32) s VNil ->
  exists e, bin_unmarshal cbor s = Err e.
Proof.
  intros N1 N2. destruct (bin_unmarshal cbor s) as [l|e|w] eqn:E; [|by exists e|].
  - apply cbor_unmarshal_sound in E. destruct l; [by eapply N1 in E|done].
  - unfold bin_unmarshal in E. destruct (read_item _ _ _ _) as [[v r]|]; [|done]. destruct (negb _ && _); [done|]. by destruct v.
Qed.
(** Each item stands for one value, and none begins another. *)
Theorem cbor_unambiguous d s x v w : stands cbor_dialect d s v -> stands cbor_dialect d (s ++ x) w -> x = "" /\ exists u, alike v u /\ alike w u.
Proof.
  intros (v' & A & R)%cbor_item_complete (w' & B & R')%cbor_item_complete.
  pose proof (R (2 * String.length (s ++ x))%nat x) as E. rewrite slength_app in E at 1. specialize (E ltac:(lia)).
  pose proof (R' (2 * String.length (s ++ x))%nat "" ltac:(lia)) as E'. rewrite sapp_nil in E'. rewrite E in E'. injection E' as -> ->.
  split; [done|]. by exists w'.
Qed.
Theorem mp_unambiguous d s x v w : stands mp_dialect d s v -> stands mp_dialect d (s ++ x) w -> x = "" /\ exists u, alike v u /\ alike w u.
Proof.
  intros (v' & A & R)%mp_item_complete (w' & B & R')%mp_item_complete.
  pose proof (R (2 * String.length (s ++ x))%nat x) as E. rewrite slength_app in E at 1. specialize (E ltac:(lia)).
  pose proof (R' (2 * String.length (s ++ x))%nat "" ltac:(lia)) as E'. rewrite sapp_nil in E'. rewrite E in E'. injection E' as -> ->.
  split; [done|]. by exists w'.
Qed.

(** Cut bytes and bytes followed by more. *)
Lemma cbor_read_local s v r x : read_item cbor (2 * String.length s + 2) (Some 32) s = Some (v, r) ->
  read_item cbor (2 * String.length (s ++ x) + 2) (Some 32) (s ++ x) = Some (v, r ++ x).
Proof.
  intros E. destruct (read_local cbor cbor_local_token cbor_local_key cbor_break_local cbor_nothing (2 * String.length s + 2) (Some 32)) as (H & _).
  apply (H _ _ _ _ _ E). rewrite slength_app. lia.
Qed.
Lemma mp_read_local s v r x : read_item msgpack (2 * String.length s + 2) None s = Some (v, r) ->
  read_item msgpack (2 * String.length (s ++ x) + 2) None (s ++ x) = Some (v, r ++ x).
Proof.
  intros E. destruct (read_local msgpack mp_local_token mp_local_key mp_break_local mp_nothing (2 * String.length s + 2) None) as (H & _).
  apply (H _ _ _ _ _ E). rewrite slength_app. lia.
Qed.
Theorem cbor_no_more s x l : bin_unmarshal cbor s = Ok l -> x <> "" -> exists e, bin_unmarshal cbor (s ++ x) = Err e.
Proof.
  intros H Hx. unfold bin_unmarshal in *. cbn [fm_levels fm_trailing cbor] in *.
  destruct (read_item cbor _ _ s) as [[v r]|] eqn:E; [|done]. apply (cbor_read_local _ _ _ x) in E. rewrite E.
  destruct (String.eqb_spec r "") as [->|]; [|done]. destruct (String.eqb_spec ("" ++ x) ""); [done|]. eexists. done.
Qed.
Theorem mp_more_ignored s x l : bin_unmarshal msgpack s = Ok l -> bin_unmarshal msgpack (s ++ x) = Ok l.
Proof.
  intros H. unfold bin_unmarshal in *. cbn [fm_levels fm_trailing msgpack] in *.
  destruct (read_item msgpack _ _ s) as [[v r]|] eqn:E; [|done]. apply (mp_read_local _ _ _ x) in E. by rewrite E.
Qed.

(** Deserialize: what is read, or an error. *)
Theorem cbor_deserialize_reads `{PL : Platform} sh1 sh2 s l : stands cbor_dialect (Some 32) s (VSlice (Some l)) ->
  exists l', Forall2 alike l l' /\ cbor_deserialize sh1 sh2 s = deserialize_decoded sh1 sh2 l'.
Proof.
  intros (l' & A & E)%cbor_unmarshal_complete. exists l'. split; [done|]. unfold cbor_deserialize, bin_deserialize. by rewrite E.
Qed.
Theorem cbor_deserialize_only `{PL : Platform} sh1 sh2 s m : cbor_deserialize sh1 sh2 s = Ok m ->
  exists l, stands cbor_dialect (Some 32) s (VSlice (Some l)) /\ deserialize_decoded sh1 sh2 l = Ok m.
Proof.
  unfold cbor_deserialize, bin_deserialize. destruct (bin_unmarshal cbor s) as [l|e|w] eqn:E; [|done|done].
  apply cbor_unmarshal_sound in E. destruct l as [l|]; [|done]. intros D. by exists l.
Qed.
Theorem mp_deserialize_reads `{PL : Platform} sh1 sh2 s r l : stands mp_dialect None s (VSlice (Some l)) ->
  exists l', Forall2 alike l l' /\ msgpack_deserialize sh1 sh2 (s ++ r) = deserialize_decoded sh1 sh2 l'.
Proof.
  intros (l' & A & E)%(mp_unmarshal_complete s r). exists l'. split; [done|]. unfold msgpack_deserialize, bin_deserialize. by rewrite E.
Qed.
Theorem mp_deserialize_only `{PL : Platform} sh1 sh2 s m : msgpack_deserialize sh1 sh2 s = Ok m ->
  exists t r l, s = t ++ r /\ stands mp_dialect None t (VSlice (Some l)) /\ bin_unmarshal msgpack t = Ok (Some l)
    /\ deserialize_decoded sh1 sh2 l = Ok m.
Proof.
  unfold msgpack_deserialize, bin_deserialize, bin_unmarshal at 1. cbn [fm_levels fm_trailing msgpack].
  destruct (read_item msgpack _ _ s) as [[v r]|] eqn:E; [|done]. pose proof E as E'. apply mp_item_iff in E' as (t & -> & H). cbn [negb andb].
  destruct v as [| | | | | | |l| | |]; try done. destruct l as [l|]; [|done]. intros D. exists t, r, l. split; [done|]. split; [done|]. split; [|done].
  pose proof (mp_item_complete _ _ _ H) as (v & _ & R). rewrite R in E by (rewrite slength_app; lia). injection E as ->.
  unfold bin_unmarshal. cbn [fm_levels fm_trailing msgpack]. pose proof (R (2 * String.length t + 2)%nat "" ltac:(lia)) as E.
  rewrite sapp_nil in E. by rewrite E.
Qed.
