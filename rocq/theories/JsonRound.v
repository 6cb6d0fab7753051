(** Proofs: what Marshal wrote is what Unmarshal reads. *)
From Coq Require Import Ascii.
From stdpp Require Import pretty.
From Verif Require Import Prelude Value BaseSpec WireSpec PathMatch PathMatchSpec PathUtf8 Encoding EncodingFacts
  AuthSpec JsonSpec JsonFacts JsonSafe Payload Json.

Local Open Scope string_scope.
Local Open Scope N_scope.
Ltac Zify.zify_post_hook ::= Z.div_mod_to_equations.

(** * Strings *)

Definition ureads (x y : string) : Prop :=
  forall rest, unquote 0 (x ++ rest) = prepend y (unquote 0 rest).
Lemma prepend_app {A} x y (r : option (string * A)) : prepend (x ++ y) r = prepend x (prepend y r).
Proof. destruct r as [[s rest]|]; [|done]. cbn. by rewrite sapp_assoc. Qed.
Lemma ureads_nil : ureads "" "".
Proof. intros rest. change ("" ++ rest) with rest. destruct (unquote 0 rest) as [[x y]|]; reflexivity. Qed.
Lemma ureads_app x y x' y' : ureads x y -> ureads x' y' -> ureads (x ++ x') (y ++ y').
Proof. intros H H' rest. by rewrite sapp_assoc, H, H', prepend_app. Qed.

Lemma unquote_skip a s : unquote (String.length a) (a ++ s) = unquote 0 s.
Proof. induction a as [|c a IH]; [reflexivity|]. cbn [String.length]. exact IH. Qed.

Lemma append_rune_utf8 r : scalar r -> append_rune r = utf8 r.
Proof.
  intros [H1 H2]. unfold append_rune, utf8, chr, octet, of_byte.
  destruct (N.leb_spec 55296 r), (N.leb_spec r 57343); try lia; cbn [andb orb];
    destruct (N.ltb_spec 1114111 r); try lia; repeat case_match; reflexivity.
Qed.

Lemma ureads_escape c : byte c < 128 -> ureads (json_escape (byte c)) (String c "").
Proof.
  intros H rest. destruct c as [[] [] [] [] [] [] [] []]; try discriminate H; vm_compute (json_escape _); reflexivity.
Qed.
Lemma ureads_fffd : ureads (chr 92 ++ "ufffd") (utf8 65533).
Proof. intros rest. reflexivity. Qed.
Lemma ureads_lines r : r = 8232 \/ r = 8233 ->
  ureads (chr 92 ++ "u202" ++ String (digit_at hex_alphabet (r mod 16)) "") (utf8 r).
Proof. intros [->| ->] rest; reflexivity. Qed.

Lemma ureads_high r : scalar r -> 128 <= r -> ureads (utf8 r) (utf8 r).
Proof.
  intros Hr Hb rest. pose proof (decode_utf8 r rest Hr) as D.
  destruct (utf8 r) as [|c u] eqn:E; [unfold utf8 in E; repeat case_match; discriminate E|].
  change (String c u ++ rest) with (String c (u ++ rest)) in D |- *. cbn [unquote].
  assert (Hc : 128 <= byte c).
  { destruct (utf8_first r c (u ++ rest) rest Hr) as [(L & _)|(_ & L)]; [by rewrite E|lia|done]. }
  destruct (N.eqb_spec (byte c) 34); [lia|]. destruct (N.eqb_spec (byte c) 92); [lia|].
  destruct (N.ltb_spec (byte c) 32); [lia|]. destruct (N.ltb_spec (byte c) 128); [lia|].
  rewrite D. rewrite append_rune_utf8, E by done. f_equal.
  cbn [String.length]. replace (S (String.length u) - 1)%nat with (String.length u) by lia. apply unquote_skip.
Qed.

Lemma ureads_body fuel : forall s, (String.length s <= fuel)%nat ->
  exists t, repaired s t /\ ureads (json_body fuel s) t.
Proof.
  induction fuel as [|fuel IH]; intros s Hs.
  { destruct s; [|cbn in Hs; lia]. exists "". split; [constructor|apply ureads_nil]. }
  destruct s as [|c s]; [exists ""; split; [constructor|apply ureads_nil]|].
  cbn [String.length] in Hs. cbn [json_body].
  destruct (decode_inv (String c s)) as [(r & rest & Hr & E & D)|[D Bad]]; [done| |].
  - rewrite D. cbv iota beta.
    replace (sdrop (String.length (utf8 r)) (String c s)) with rest by (rewrite E; by rewrite sdrop_app).
    assert (L : (String.length rest <= fuel)%nat).
    { assert (0 < String.length (utf8 r))%nat by (unfold utf8; repeat case_match; cbn; lia).
      apply (f_equal String.length) in E. rewrite slength_app in E. cbn in E. lia. }
    destruct (IH rest L) as (t & Ht & R). exists (utf8 r ++ t). split; [rewrite E; by constructor|].
    apply ureads_app; [|done]. destruct (utf8_first r c s rest Hr E) as [(L1 & -> & _)|(L1 & L2)].
    + destruct (N.ltb_spec (byte c) 128); [|lia]. unfold utf8. destruct (N.ltb_spec (byte c) 128); [|lia].
      unfold octet. change (byte c) with (N_of_ascii c) at 2. rewrite ascii_N_embedding. by apply ureads_escape.
    + destruct (N.ltb_spec (byte c) 128); [lia|].
      assert ((r =? rune_error) && (String.length (utf8 r) =? 1)%nat = false) as ->.
      { apply andb_false_iff. destruct (N.eqb_spec r rune_error) as [->|]; [right; reflexivity|by left]. }
      destruct (N.eqb_spec r 8232) as [->|]; [cbn [orb]; apply ureads_lines; by left|].
      destruct (N.eqb_spec r 8233) as [->|]; [cbn [orb]; apply ureads_lines; by right|]. cbn [orb].
      rewrite E. rewrite stake_app. by apply ureads_high.
  - rewrite D. cbv iota beta. assert (128 <= byte c).
    { destruct (N.leb_spec 128 (byte c)); [done|]. exfalso. apply (Bad (byte c) s).
      - unfold scalar. lia.
      - unfold utf8. destruct (N.ltb_spec (byte c) 128); [|lia]. unfold octet, byte. by rewrite ascii_N_embedding. }
    destruct (N.ltb_spec (byte c) 128); [lia|]. change ((rune_error =? rune_error) && (1 =? 1)%nat) with true. cbn iota.
    cbn [sdrop]. destruct (IH s) as (t & Ht & R); [lia|]. exists (utf8 65533 ++ t). split; [by constructor|].
    apply ureads_app; [apply ureads_fffd|done].
Qed.

Lemma unquote_literal s : exists t, repaired s t /\
  forall rest, unquote 0 (json_body (String.length s) s ++ chr 34 ++ rest) = Some (t, rest).
Proof.
  destruct (ureads_body (String.length s) s) as (t & Ht & R); [done|]. exists t. split; [done|].
  intros rest. rewrite R. change (Some (t ++ "", rest) = Some (t, rest)). by rewrite sapp_nil.
Qed.
Lemma unquote_text s : text s ->
  forall rest, unquote 0 (json_body (String.length s) s ++ chr 34 ++ rest) = Some (s, rest).
Proof.
  intros H rest. destruct (unquote_literal s) as (t & Ht & R). rewrite R.
  by rewrite (repaired_fun s t s Ht (text_repaired s H)).
Qed.

(** * Numbers *)

Lemma nearest_small n : (0 <= n <= 2 ^ 53)%Z -> nearest_float n 1 = Some (FFin n 0).
Proof.
  intros [H0 H1]. unfold nearest_float. destruct (Z.eqb_spec n 0) as [->|Hn]; [done|].
  destruct (Z.eq_dec n (2 ^ 53)) as [->|Hn2]; [vm_compute; reflexivity|].
  assert (Hpos : (0 < n)%Z) by lia. destruct (Z.log2_spec n Hpos) as [L1 L2].
  pose proof (Z.log2_nonneg n) as L0.
  assert (L3 : (Z.log2 n <= 52)%Z). { apply Z.lt_succ_r. apply Z.log2_lt_pow2; lia. }
  change (Z.log2 1) with 0%Z. rewrite Z.sub_0_r. set (k := (Z.log2 n - 52)%Z).
  assert (Hk : (k <= 0)%Z) by (unfold k; lia).
  destruct (Z.leb_spec 0 k) as [Hk0|Hk0].
  - assert (Z.log2 n = 52)%Z as E by (unfold k in *; lia). rewrite E in L1.
    assert (k = 0)%Z as -> by lia. change (1 * 2 ^ 0)%Z with 1%Z. rewrite Z.div_1_r.
    destruct (Z.ltb_spec n (2 ^ 52)); [lia|]. change (Z.max 0 (-1074)) with 0%Z.
    change (0 <=? 0)%Z with true. cbv iota. rewrite Z.mod_1_r, Z.div_1_r.
    change (2 ^ 0)%Z with 1%Z. change (1 * 1)%Z with 1%Z. rewrite Z.mul_1_r.
    change ((1 <? 2 * 0) || ((2 * 0 =? 1) && Z.odd n))%Z with false. cbv iota.
    destruct (Z.leb_spec (2 ^ 1024) n) as [C|C]; [|done]. exfalso.
    assert (2 ^ 53 <= 2 ^ 1024)%Z by (apply Z.pow_le_mono_r; lia). lia.
  - rewrite Z.div_1_r.
    assert (P : (2 ^ Z.log2 n * 2 ^ (- k) = 2 ^ 52)%Z).
    { rewrite <- Z.pow_add_r by (unfold k; lia). f_equal. unfold k. lia. }
    assert (P0 : (0 < 2 ^ (- k))%Z) by (apply Z.pow_pos_nonneg; lia).
    destruct (Z.ltb_spec (n * 2 ^ (- k)) (2 ^ 52)) as [C|C].
    { exfalso. assert (2 ^ Z.log2 n * 2 ^ (- k) <= n * 2 ^ (- k))%Z by (apply Z.mul_le_mono_nonneg_r; lia). lia. }
    rewrite (Z.max_l k (-1074)) by (unfold k; lia). destruct (Z.leb_spec 0 k); [lia|].
    rewrite Z.mod_1_r, Z.div_1_r. change (1 <? 2 * 0)%Z with false. change (2 * 0 =? 1)%Z with false. cbn [orb andb].
    rewrite Z.mod_mul by lia. change (0 =? 0)%Z with true. cbv iota. rewrite Z.div_mul by lia. done.
Qed.

(** What may follow a number. *)
Definition stops (s : string) : Prop :=
  s = "" \/ exists c r, s = String c r /\ (byte c = 44 \/ byte c = 93 \/ byte c = 125).
Lemma stops_comma r : stops (String "," r).
Proof. right. exists ","%char, r. split; [done|by left]. Qed.
Lemma stops_bracket r : stops (String "]" r).
Proof. right. exists "]"%char, r. split; [done|by right; left]. Qed.
Lemma stops_brace r : stops (String "}" r).
Proof. right. exists "}"%char, r. split; [done|by right; right]. Qed.

Lemma digits_pretty_go x : forall s k, exists k', digits 0 k (pretty_N_go x s) = digits x k' s.
Proof.
  induction (N.lt_wf_0 x) as [x _ IH]; intros s k.
  assert (x = 0 \/ 0 < x) as [->|H] by lia; [rewrite pretty_N_go_0; eauto|].
  rewrite pretty_N_go_step by done. destruct (IH (x / 10)) with (s := String (pretty_N_char (x mod 10)) s) (k := k)
    as [k' E]; [apply N.div_lt; lia|]. rewrite E. exists (k' + 1).
  cbn [digits]. assert (B : byte (pretty_N_char (x mod 10)) = 48 + x mod 10) by (apply digit_code; lia). rewrite B.
  destruct (N.leb_spec 48 (48 + x mod 10)); [|lia]. destruct (N.leb_spec (48 + x mod 10) 57); [|lia].
  cbn [andb]. f_equal. lia.
Qed.
Lemma digits_stop n k s : stops s -> digits n k s = (n, k, s).
Proof.
  intros [->|(c & r & -> & H)]; [done|]. cbn [digits].
  destruct (N.leb_spec 48 (byte c)), (N.leb_spec (byte c) 57); try done; lia.
Qed.

Lemma digits_pretty n s : stops s -> 0 < n -> exists k, digits 0 0 (pretty n ++ s) = (n, k, s).
Proof.
  intros Hs H. unfold pretty, pretty_N. destruct (decide (n = 0)); [lia|]. rewrite pretty_go_app.
  destruct (digits_pretty_go n ("" ++ s) 0) as [k E]. exists k. rewrite E. by apply digits_stop.
Qed.
Lemma pretty_first n s : 0 < n -> exists d s', 0 < d < 10 /\ pretty n ++ s = String (pretty_N_char d) s'.
Proof.
  intros H. unfold pretty, pretty_N. destruct (decide (n = 0)); [lia|]. rewrite pretty_go_app. by apply pretty_go_first.
Qed.
Lemma stops_next c r : stops (String c r) ->
  (byte c =? 46) = false /\ (byte c =? 101) = false /\ (byte c =? 69) = false.
Proof.
  intros [?|(c' & r' & [= <- <-] & H)]; [done|].
  repeat split; apply N.eqb_neq; lia.
Qed.

(** The rest of [read_number], after the digits. *)
Lemma read_number_nat n s : stops s -> (Z.of_N n <= 2 ^ 53)%Z ->
  read_number (pretty n ++ s) = Some (FFin (Z.of_N n) 0, s)
  /\ read_number (String "-" (pretty n ++ s)) = Some (FFin (- Z.of_N n) 0, s).
Proof.
  intros Hs Hn. assert (N0 : nearest_float (Z.of_N n) 1 = Some (FFin (Z.of_N n) 0)) by (apply nearest_small; lia).
  assert (n = 0 \/ 0 < n) as [->|H] by lia.
  - change (pretty 0 ++ s) with (String "0" s). unfold read_number. 
    change (byte "0" =? 45) with false. change (byte "-" =? 45) with true. cbv iota beta zeta.
    change (byte "0" =? 48) with true. cbv iota beta zeta.
    destruct s as [|c r]; [by split|]. destruct (stops_next c r Hs) as (-> & H1 & H2). cbv iota beta zeta.
    rewrite H1, H2. by split.
  - destruct (digits_pretty n s Hs H) as [k E]. destruct (pretty_first n s H) as (d & s' & Hd & F).
    rewrite F in E |- *. unfold read_number. change (byte "-" =? 45) with true.
    assert (B : byte (pretty_N_char d) = 48 + d) by (apply digit_code; lia). rewrite B.
    destruct (N.eqb_spec (48 + d) 45); [lia|]. cbv iota beta zeta. rewrite ?B. destruct (N.eqb_spec (48 + d) 48); [lia|].
    destruct (N.leb_spec 49 (48 + d)); [|lia]. destruct (N.leb_spec (48 + d) 57); [|lia]. cbv iota beta zeta. cbn [andb].
    rewrite E. cbv iota beta zeta.
    assert (M : (Z.of_N n * 10 ^ (0 - Z.of_N 0))%Z = Z.of_N n) by (change (10 ^ (0 - Z.of_N 0))%Z with 1%Z; lia).
    destruct s as [|c r].
    + change (0 <=? 0 - Z.of_N 0)%Z with true. cbv iota beta zeta. rewrite M, N0. by split.
    + destruct (stops_next c r Hs) as (-> & G1 & G2). cbv iota beta zeta. rewrite G1, G2. cbn [orb]. cbv iota beta zeta.
      change (0 <=? 0 - Z.of_N 0)%Z with true. cbv iota beta zeta. rewrite M, N0. by split.
Qed.

Lemma pretty_Z (z : Z) : pretty z = if (z <? 0)%Z then String "-" (pretty (Z.to_N (- z))) else pretty (Z.to_N z).
Proof. destruct z; reflexivity. Qed.

(** [read_number] on an integer; and what its first byte may be. *)
Lemma read_number_Z (z : Z) s : stops s -> (Z.abs z <= 2 ^ 53)%Z ->
  read_number (pretty z ++ s) = Some (FFin z 0, s).
Proof.
  intros Hs Hz. rewrite pretty_Z. destruct (Z.ltb_spec z 0) as [L|L].
  - change (String "-" (pretty (Z.to_N (- z))) ++ s) with (String "-" (pretty (Z.to_N (- z)) ++ s)).
    destruct (read_number_nat (Z.to_N (- z)) s Hs) as [_ R]; [lia|]. rewrite R. repeat f_equal. lia.
  - destruct (read_number_nat (Z.to_N z) s Hs) as [R _]; [lia|]. rewrite R. repeat f_equal. lia.
Qed.
Lemma pretty_Z_first (z : Z) s : exists c r, pretty z ++ s = String c r /\ (byte c = 45 \/ 48 <= byte c <= 57).
Proof.
  assert (P : forall n : N, exists c r, pretty n ++ s = String c r /\ 48 <= byte c <= 57).
  { intros n. assert (n = 0 \/ 0 < n) as [->|H] by lia; [exists "0"%char, s; split; [done|by vm_compute]|].
    destruct (pretty_first n s H) as (d & s' & Hd & E). eexists _, _. split; [exact E|].
    assert (byte (pretty_N_char d) = 48 + d) by (apply digit_code; lia). lia. }
  rewrite pretty_Z. destruct (Z.ltb_spec z 0); [eexists _, _; split; [reflexivity|by left]|].
  destruct (P (Z.to_N z)) as (c & r & E & H1). exists c, r. split; [done|by right].
Qed.

(** * The order of keys *)

Lemma ascii_compare_N a b : Ascii.compare a b = N.compare (byte a) (byte b).
Proof. reflexivity. Qed.
Lemma compare_trans a b c : String.compare a b = Lt -> String.compare b c = Lt -> String.compare a c = Lt.
Proof.
  revert b c. induction a as [|x a IH]; intros [|y b] [|z c]; cbn [String.compare]; try done.
  rewrite !ascii_compare_N. intros H1 H2.
  destruct (N.compare_spec (byte x) (byte y)), (N.compare_spec (byte y) (byte z)), (N.compare_spec (byte x) (byte z));
    try done; try lia. by eapply IH.
Qed.
Lemma compare_refl a : String.compare a a = Eq.
Proof. induction a as [|x a IH]; [done|]. cbn [String.compare]. by rewrite ascii_compare_N, N.compare_refl. Qed.
Lemma compare_gt a b : String.compare a b = Gt -> String.compare b a = Lt.
Proof. intros H. rewrite String.compare_antisym, H. done. Qed.

Section SORT.
  Context {A B : Type}.

  Lemma assoc_insert_key k k' (x : A) l :
    assoc k (insert_key k' x l) = if String.eqb k k' then Some x else assoc k l.
  Proof.
    induction l as [|[k2 y] l IH]; [done|]. cbn [insert_key]. destruct (String.compare k' k2) eqn:E; cbn [assoc].
    - apply String.compare_eq_iff in E as ->. by destruct (String.eqb k k2).
    - done.
    - rewrite IH. destruct (String.eqb_spec k k2) as [->|], (String.eqb_spec k2 k') as [->|]; try done.
      by rewrite compare_refl in E.
  Qed.
  Lemma assoc_sort_keys k (l : list (string * A)) : assoc k (sort_keys l) = assoc k l.
  Proof.
    induction l as [|[k' x] l IH]; [done|]. cbn [sort_keys foldr assoc fst snd].
    rewrite assoc_insert_key. unfold sort_keys in IH. by rewrite IH.
  Qed.

  Definition ordered (l : list (string * A)) : Prop :=
    StronglySorted (fun a b => String.compare (fst a) (fst b) = Lt) l.
  Lemma insert_key_keys k (x : A) l kx : kx ∈ insert_key k x l -> kx = (k, x) \/ kx ∈ l.
  Proof.
    induction l as [|[k2 y] l IH]; cbn [insert_key].
    - rewrite elem_of_list_singleton. by left.
    - destruct (String.compare k k2); rewrite ?elem_of_cons; naive_solver.
  Qed.
  Lemma ordered_insert k (x : A) l : ordered l -> ordered (insert_key k x l).
  Proof.
    unfold ordered. induction 1 as [|[k2 y] l Hl IH Hk]; cbn [insert_key]; [by repeat constructor|].
    destruct (String.compare k k2) eqn:E.
    - apply String.compare_eq_iff in E as ->. by constructor.
    - constructor; [by constructor|]. constructor; [done|].
      eapply Forall_impl; [exact Hk|]. intros [k3 z] H. by eapply compare_trans.
    - constructor; [done|]. apply Forall_forall. intros kx [-> |H]%insert_key_keys.
      + by apply compare_gt.
      + by eapply Forall_forall in Hk.
  Qed.
  Lemma ordered_sort_keys (l : list (string * A)) : ordered (sort_keys l).
  Proof. induction l as [|[k x] l IH]; [constructor|]. by apply ordered_insert. Qed.
  Lemma ordered_NoDup (l : list (string * A)) : ordered l -> NoDup (map fst l).
  Proof.
    induction 1 as [|[k x] l Hl IH Hk]; [constructor|]. cbn [map fst]. constructor; [|done].
    intros ([k' y] & -> & H)%elem_of_list_fmap. eapply Forall_forall in Hk; [|exact H]. cbn in Hk.
    by rewrite compare_refl in Hk.
  Qed.
  Lemma sort_keys_in kx (l : list (string * A)) : kx ∈ sort_keys l -> kx ∈ l.
  Proof.
    induction l as [|[k x] l IH]; [done|]. cbn [sort_keys foldr fst snd]. intros [->|H]%insert_key_keys; [left|].
    right. by apply IH.
  Qed.
  Lemma insert_key_map (f : A -> B) k x l :
    insert_key k (f x) (map (fun kv => (fst kv, f (snd kv))) l)
    = map (fun kv => (fst kv, f (snd kv))) (insert_key k x l).
  Proof.
    induction l as [|[k2 y] l IH]; [done|]. cbn [map insert_key fst snd].
    destruct (String.compare k k2); cbn [map fst snd]; by rewrite ?IH.
  Qed.
  Lemma sort_keys_map (f : A -> B) l :
    sort_keys (map (fun kv => (fst kv, f (snd kv))) l) = map (fun kv => (fst kv, f (snd kv))) (sort_keys l).
  Proof.
    induction l as [|[k x] l IH]; [done|]. cbn [map sort_keys foldr fst snd]. unfold sort_keys in IH. rewrite IH.
    apply insert_key_map.
  Qed.
End SORT.

(** * Values *)

Definition starts (t : string) : Prop :=
  exists c r, t = String c r /\ is_space c = false /\ byte c <> 93 /\ byte c <> 125.
Lemma starts_skip t r : starts t -> skip_space (t ++ r) = t ++ r.
Proof. intros (c & r' & -> & H & _). change (String c r' ++ r) with (String c (r' ++ r)). cbn [skip_space]. by rewrite H. Qed.
Lemma starts_length t : starts t -> (1 <= String.length t)%nat.
Proof. intros (c & r & -> & _). cbn. lia. Qed.
Lemma after_first a r b r' : byte a <> byte b -> after (String a r) (String b r') = None.
Proof. intros H. cbn [after]. destruct (Ascii.eqb_spec a b) as [->|]; [done|done]. Qed.
Lemma starts_bracket t r : starts t -> after "]" (t ++ r) = None.
Proof.
  intros (c & r' & -> & _ & H & _). change (String c r' ++ r) with (String c (r' ++ r)).
  apply after_first. intros E. apply H. by rewrite <- E.
Qed.
Lemma starts_brace t r : starts t -> after "}" (t ++ r) = None.
Proof.
  intros (c & r' & -> & _ & _ & H). change (String c r' ++ r) with (String c (r' ++ r)).
  apply after_first. intros E. apply H. by rewrite <- E.
Qed.
Lemma starts_string s : starts (json_string s).
Proof. unfold json_string. eexists _, _. split; [reflexivity|]. by vm_compute. Qed.
Lemma stops_skip s : stops s -> skip_space s = s.
Proof.
  intros [->|(c & r & -> & H)]; [done|]. cbn [skip_space]. unfold is_space.
  destruct (N.eqb_spec (byte c) 32), (N.eqb_spec (byte c) 9), (N.eqb_spec (byte c) 10), (N.eqb_spec (byte c) 13);
    try lia; done.
Qed.

(** [t] is read as [v] at depth [d], whatever follows. *)
Definition jreads (d : N) (t : string) (v : value) : Prop :=
  forall fuel rest, (2 * String.length t <= fuel)%nat -> stops rest ->
    Json.read_value fuel d (t ++ rest) = Some (v, rest).

Lemma concat_cons sep x y l : String.concat sep (x :: y :: l) = x ++ sep ++ String.concat sep (y :: l).
Proof. reflexivity. Qed.

Lemma elements_read d ts vs : Forall2 (fun t v => starts t /\ jreads d t v) ts vs -> ts <> [] ->
  forall fuel rest, (2 * String.length (String.concat "," ts) + 1 <= fuel)%nat ->
    read_elements fuel d (String.concat "," ts ++ String "]" rest) = Some (vs, rest).
Proof.
  induction 1 as [|t v ts vs [St Rt] H IH]; [done|]. intros _ fuel rest Hf.
  destruct fuel as [|f]; [lia|]. cbn [read_elements].
  inversion H as [|t2 v2 ts2 vs2 H2 H3]; subst.
  - cbn [String.concat] in Hf |- *. rewrite Rt; [|lia|apply stops_bracket]. cbv iota beta.
    rewrite stops_skip by apply stops_bracket. change (byte "]" =? 93) with true. done.
  - rewrite concat_cons in Hf |- *. rewrite !slength_app in Hf. cbn [String.length] in Hf.
    pose proof (starts_length t St). rewrite !sapp_assoc.
    match goal with |- context [t ++ ("," ++ ?x)] => change ("," ++ x) with (String "," x) end.
    rewrite Rt; [|lia|apply stops_comma]. cbv iota beta. rewrite stops_skip by apply stops_comma.
    change (byte "," =? 93) with false. change (byte "," =? 44) with true. cbv iota.
    rewrite IH; [done|done|lia].
Qed.

Lemma concat_starts sep ts : ts <> [] -> Forall starts ts -> starts (String.concat sep ts).
Proof.
  intros Hn H. destruct H as [|t ts (c & r & -> & Hc) H]; [done|]. destruct ts as [|t2 ts].
  - exists c, r. by split.
  - rewrite concat_cons. eexists c, _. split; [reflexivity|done].
Qed.

Lemma list_reads d ts vs : Forall2 (fun t v => starts t /\ jreads d t v) ts vs ->
  jreads (1 + d) ("[" ++ String.concat "," ts ++ "]") (VSlice (Some vs)).
Proof.
  intros H fuel rest Hf Hs. rewrite !sapp_assoc. rewrite !slength_app in Hf. cbn [String.length] in Hf.
  change ("]" ++ rest) with (String "]" rest).
  match goal with |- context ["[" ++ ?x] => change ("[" ++ x) with (String "[" x) end.
  destruct fuel as [|f]; [lia|]. cbn [Json.read_value skip_space].
  change (is_space "[") with false. cbv iota. change (byte "[" =? 34) with false. change (byte "[" =? 91) with true. cbv iota.
  destruct (N.eqb_spec (1 + d) 0); [lia|]. replace (1 + d - 1) with d by lia.
  destruct ts as [|t ts].
  - inversion H; subst. done.
  - assert (Ht : starts (String.concat "," (t :: ts))).
    { apply concat_starts; [done|]. apply Forall_forall. intros x Hx.
      apply elem_of_list_lookup in Hx as [i Hi]. eapply Forall2_lookup_l in H as (y & _ & Hy & _); done. }
    rewrite starts_skip by done. rewrite starts_bracket by done. rewrite (elements_read d _ vs H); [done|done|lia].
Qed.

Definition member (kt : string * string) : string := json_string (fst kt) ++ ":" ++ snd kt.
Lemma member_starts kt : starts (member kt).
Proof.
  unfold member. destruct (starts_string (fst kt)) as (c & r & E & H). rewrite E. eexists c, _. by split.
Qed.

Lemma members_read d kts kvs :
  Forall2 (fun kt kv => fst kt = fst kv /\ text (fst kt) /\ starts (snd kt) /\ jreads d (snd kt) (snd kv)) kts kvs ->
  kts <> [] -> NoDup (map fst kvs) ->
  forall fuel acc rest, (2 * String.length (String.concat "," (map member kts)) + 1 <= fuel)%nat ->
    (forall k, k ∈ map fst kvs -> k ∉ map fst acc) ->
    Json.read_members fuel d acc (String.concat "," (map member kts) ++ String "}" rest) = Some ((acc ++ kvs)%list, rest).
Proof.
  induction 1 as [|[k t] [k' v] kts kvs (E & Tk & St & Rt) H IH]; [done|]. cbn [fst snd] in *. subst k'.
  intros _ Hd fuel acc rest Hf Hacc. cbn [map fst] in Hd. apply NoDup_cons in Hd as [Hk Hd].
  assert (Hset : forall u : value, assoc_set k u acc = (acc ++ [(k, u)])%list).
  { intros u. assert (Ka : k ∉ map fst acc) by (apply Hacc; left). clear -Ka.
    induction acc as [|[k0 v0] acc IH]; [done|]. cbn [assoc_set map fst] in *.
    rewrite elem_of_cons in Ka. destruct (String.eqb_spec k k0) as [->|]; [naive_solver|].
    rewrite IH by naive_solver. done. }
  destruct fuel as [|f]; [lia|]. cbn [Json.read_members].
  assert (B : forall w, (2 * String.length (member (k, t)) <= f)%nat -> stops w -> 
     match after """" (skip_space (member (k, t) ++ w)) with
      | Some s1 =>
          match unquote 0 s1 with
          | Some (k0, s2) =>
              match after ":" (skip_space s2) with
              | Some s3 => match Json.read_value f d s3 with Some (v0, s4) => Some (k0, v0, s4) | None => None end
              | None => None end
          | None => None end
      | None => None end = Some (k, v, w)).
  { intros w Hw Sw. rewrite starts_skip by apply member_starts. unfold member in *. cbn [fst snd] in *.
    rewrite !slength_app in Hw. cbn [String.length] in Hw.
    rewrite !sapp_assoc, json_string_app. cbn [after]. rewrite Ascii.eqb_refl.
    rewrite unquote_text by done. change (":" ++ t ++ w) with (String ":" (t ++ w)). cbn [skip_space].
    change (is_space ":") with false. cbv iota. cbn [after]. rewrite Ascii.eqb_refl. rewrite Rt by (done || lia). done. }
  assert (C : forall w, (2 * String.length (member (k, t)) <= f)%nat -> stops w -> 
     match after """" (skip_space (member (k, t) ++ w)) with
      | Some s1 =>
          match unquote 0 s1 with
          | Some (k0, s2) =>
              match after ":" (skip_space s2) with
              | Some s3 => match Json.read_value f d s3 with
                           | Some (v0, s4) =>
                              let m := assoc_set k0 v0 acc in
                              match skip_space s4 with
                              | String c r =>
                                  if byte c =? 125 then Some (m, r)
                                  else if byte c =? 44 then Json.read_members f d m r
                                  else None
                              | EmptyString => None
                              end
                           | None => None end
              | None => None end
          | None => None end
      | None => None end = match w with
                              | String c r =>
                                  if byte c =? 125 then Some ((acc ++ [(k, v)])%list, r)
                                  else if byte c =? 44 then Json.read_members f d (acc ++ [(k, v)])%list r
                                  else None
                              | EmptyString => None
                              end).
  { intros w Hw Sw. specialize (B w Hw Sw).
    destruct (after """" _) as [s1|]; [|done]. destruct (unquote 0 s1) as [[k0 s2]|]; [|done].
    destruct (after ":" _) as [s3|]; [|done]. destruct (Json.read_value f d s3) as [[v0 s4]|]; [|done].
    injection B as -> -> ->. rewrite (stops_skip w Sw), Hset. done. }
  inversion H as [|[k2 t2] [k2' v2] kts2 kvs2 H2 H3]; subst.
  - cbn [map String.concat] in Hf |- *. rewrite C; [|lia|apply stops_brace]. change (byte "}" =? 125) with true. done.
  - cbn [map] in Hf |- *. rewrite concat_cons in Hf |- *. rewrite !slength_app in Hf. cbn [String.length] in Hf.
    pose proof (starts_length _ (member_starts (k, t))). rewrite !sapp_assoc.
    match goal with |- context [member (k, t) ++ ("," ++ ?x)] => change ("," ++ x) with (String "," x) end.
    rewrite C; [|lia|apply stops_comma].
    change (byte "," =? 125) with false. change (byte "," =? 44) with true. cbv iota.
    change (member (k2, t2) :: map member kts2) with (map member ((k2, t2) :: kts2)).
    rewrite IH; [|done|done|cbn [map]; lia|].
    + rewrite <- app_assoc. done.
    + intros j Hj. rewrite map_app, elem_of_app. cbn [map fst]. rewrite elem_of_list_singleton.
      intros [Hj'| ->]; [|done]. apply (Hacc j); [by right|done].
Qed.

Lemma dict_reads d kts kvs :
  Forall2 (fun kt kv => fst kt = fst kv /\ text (fst kt) /\ starts (snd kt) /\ jreads d (snd kt) (snd kv)) kts kvs ->
  NoDup (map fst kvs) ->
  jreads (1 + d) ("{" ++ String.concat "," (map member kts) ++ "}") (VMap (Some kvs)).
Proof.
  intros H Hd fuel rest Hf Hs. rewrite !sapp_assoc. rewrite !slength_app in Hf. cbn [String.length] in Hf.
  change ("}" ++ rest) with (String "}" rest).
  match goal with |- context ["{" ++ ?x] => change ("{" ++ x) with (String "{" x) end.
  destruct fuel as [|f]; [lia|]. cbn [Json.read_value skip_space].
  change (is_space "{") with false. cbv iota. change (byte "{" =? 34) with false. change (byte "{" =? 91) with false.
  change (byte "{" =? 123) with true. cbv iota.
  destruct (N.eqb_spec (1 + d) 0); [lia|]. replace (1 + d - 1) with d by lia.
  destruct kts as [|t ts].
  - inversion H; subst. done.
  - assert (Ht : starts (String.concat "," (map member (t :: ts)))).
    { apply concat_starts; [done|]. apply Forall_map, Forall_forall. intros x Hx. apply member_starts. }
    rewrite starts_skip by done. rewrite starts_brace by done.
    rewrite (members_read d _ kvs H); [done|done|done|lia|]. intros k _. apply not_elem_of_nil.
Qed.

Lemma method_name_method s : json_text (VMethod s) = json_string s.
Proof. unfold VMethod. cbn [json_text method_name]. by rewrite countable.decode_encode. Qed.
Lemma has_text_method s : has_text (VMethod s) = true.
Proof. unfold VMethod. cbn [has_text method_name]. by rewrite countable.decode_encode. Qed.

Lemma string_jreads d s : text s -> jreads d (json_string s) (VStr s).
Proof.
  intros Hs fuel rest Hf _. destruct fuel as [|f].
  { pose proof (starts_length _ (starts_string s)). lia. }
  cbn [Json.read_value]. rewrite starts_skip by apply starts_string. rewrite json_string_app.
  change (byte """" =? 34) with true. cbv iota. by rewrite unquote_text.
Qed.
Lemma number_jreads d (z : Z) : (Z.abs z <= 2 ^ 53)%Z -> starts (pretty z) /\ jreads d (pretty z) (VF64 (FFin z 0)).
Proof.
  intros Hz. assert (St : starts (pretty z)).
  { destruct (pretty_Z_first z "") as (c & r & E & Hc). rewrite sapp_nil in E. exists c, r. split; [done|].
    unfold is_space.
    destruct (N.eqb_spec (byte c) 32), (N.eqb_spec (byte c) 9), (N.eqb_spec (byte c) 10), (N.eqb_spec (byte c) 13);
      lia. }
  split; [done|]. intros fuel rest Hf Hs. pose proof (starts_length _ St). destruct fuel as [|f]; [lia|].
  cbn [Json.read_value]. rewrite starts_skip by done.
  pose proof (read_number_Z z rest Hs Hz) as R. destruct (pretty_Z_first z rest) as (c & r & E & Hc).
  rewrite E in R |- *. 
  destruct (N.eqb_spec (byte c) 34); [lia|]. destruct (N.eqb_spec (byte c) 91); [lia|].
  destruct (N.eqb_spec (byte c) 123); [lia|]. destruct (N.eqb_spec (byte c) 110); [lia|].
  destruct (N.eqb_spec (byte c) 116); [lia|]. destruct (N.eqb_spec (byte c) 102); [lia|]. by rewrite R.
Qed.
Lemma word_jreads d t v : t = "null" /\ v = VNil \/ t = "true" /\ v = VBool true \/ t = "false" /\ v = VBool false ->
  starts t /\ jreads d t v.
Proof.
  intros [[-> ->]|[[-> ->]|[-> ->]]]; (split; [eexists _, _; split; [reflexivity|by vm_compute]|]);
    intros [|f] rest Hf _; try (cbn in Hf; lia); reflexivity.
Qed.

Lemma max_in {A} (f : A -> N) x l : x ∈ l -> f x <= foldr N.max 0 (map f l).
Proof. induction 1; cbn; lia. Qed.

Lemma Forall2_exists {A B} (P : A -> B -> Prop) l : (forall x, x ∈ l -> exists y, P x y) -> exists l', Forall2 P l l'.
Proof.
  induction l as [|x l IH]; intros H; [by exists []|]. destruct (H x) as [y Hy]; [left|].
  destruct IH as [l' Hl]; [intros z Hz; apply H; by right|]. exists (y :: l'). by constructor.
Qed.

Lemma Forall2_assoc {A} (P : A -> A -> Prop) (l l' : list (string * A)) :
  Forall2 (fun a b => fst a = fst b /\ P (snd a) (snd b)) l l' ->
  forall k, option_Forall2 P (assoc k l) (assoc k l').
Proof.
  intros H k. induction H as [|[k1 x] [k2 y] l l' [E Hp] H IH]; [constructor|].
  cbn in E. subst k2. cbn [assoc fst snd]. destruct (String.eqb k k1); [by constructor|done].
Qed.

(** * The bound on the recursion of [read_value] is never reached *)

Lemma skip_space_length s : (String.length (skip_space s) <= String.length s)%nat.
Proof. induction s as [|c s IH]; [done|]. cbn [skip_space]. destruct (is_space c); cbn [String.length]; lia. Qed.
Lemma after_length t : forall s r, after t s = Some r -> String.length s = (String.length t + String.length r)%nat.
Proof.
  induction t as [|a t IH]; intros s r; cbn [after]; [by intros [= ->]|].
  destruct s as [|b s]; [done|]. destruct (Ascii.eqb a b); [|done]. intros H%IH. cbn [String.length]. lia.
Qed.
Lemma unquote_length : forall s k x r, unquote k s = Some (x, r) -> (String.length r < String.length s)%nat.
Proof.
  assert (P : forall k x0 s x r, prepend x0 (unquote k s) = Some (x, r) -> exists x', unquote k s = Some (x', r)).
  { intros k x0 s x r. destruct (unquote k s) as [[y r']|]; [|done]. cbn. intros [= _ <-]. eauto. }
  induction s as [|c s IH]; intros k x r; [done|]. cbn [unquote String.length]. destruct k as [|k].
  - repeat case_match; try done; try (intros [= _ <-]; lia); intros G; apply P in G as [? G]; apply IH in G;
      cbn [String.length] in *; lia.
  - intros H%IH. lia.
Qed.
Lemma digits_length s : forall n k n' k' r, digits n k s = (n', k', r) -> (String.length r <= String.length s)%nat.
Proof.
  induction s as [|c s IH]; intros n k n' k' r; cbn [digits]; [by intros [= _ _ <-]|].
  case_match; [intros G%IH; cbn [String.length]; lia|]. by intros [= _ _ <-].
Qed.
Lemma digits_first n k c s n' k' r : (49 <=? byte c) && (byte c <=? 57) = true ->
  digits n k (String c s) = (n', k', r) -> (String.length r <= String.length s)%nat.
Proof.
  intros H. cbn [digits]. apply andb_true_iff in H as [H1%N.leb_le H2]. rewrite H2.
  destruct (N.leb_spec 48 (byte c)); [|lia]. apply digits_length.
Qed.
Lemma read_number_length s f r : read_number s = Some (f, r) -> (String.length r < String.length s)%nat.
Proof.
  unfold read_number. intros G. repeat case_match; try done; simplify_eq; cbn [String.length] in *;
    repeat match goal with
      | H : (49 <=? byte ?c) && _ = true, D : digits _ _ (String ?c _) = _ |- _ => apply (digits_first _ _ _ _ _ _ _ H) in D
      | D : digits _ _ _ = _ |- _ => apply digits_length in D
      end; cbn [String.length] in *; lia.
Qed.

Lemma rest_shorter f : forall d,
  (forall s v r, Json.read_value f d s = Some (v, r) -> (String.length r < String.length s)%nat)
  /\ (forall s l r, read_elements f d s = Some (l, r) -> (String.length r < String.length s)%nat)
  /\ (forall m s l r, Json.read_members f d m s = Some (l, r) -> (String.length r < String.length s)%nat).
Proof.
  induction f as [|f IH]; intros d; [done|]. destruct (IH d) as (V & E & M). destruct (IH (d - 1)) as (_ & E' & M').
  split; [|split].
  - intros s v r. cbn [Json.read_value]. pose proof (skip_space_length s) as K.
    destruct (skip_space s) as [|c s1]; [done|]. cbn [String.length] in K. pose proof (skip_space_length s1) as K1.
    assert (W : forall t u, read_word t u (String c s1) = Some (v, r) -> t <> "" -> (String.length r < String.length s)%nat).
    { unfold read_word. intros t u. destruct (after t _) as [x|] eqn:A; [|done]. apply after_length in A.
      cbn [String.length] in A. intros [= _ ->] Ht. destruct t; [done|]. cbn [String.length] in A. lia. }
    destruct (byte c =? 34).
    { destruct (unquote 0 s1) as [[x y]|] eqn:U; [|done]. apply unquote_length in U. intros [= _ <-]. lia. }
    destruct (byte c =? 91).
    { destruct (d =? 0); [done|]. destruct (after "]" _) as [y|] eqn:A.
      - apply after_length in A. cbn [String.length] in A. intros [= _ <-]. lia.
      - destruct (read_elements f (d - 1) s1) as [[x y]|] eqn:R; [|done]. apply E' in R. intros [= _ <-]. lia. }
    destruct (byte c =? 123).
    { destruct (d =? 0); [done|]. destruct (after "}" _) as [y|] eqn:A.
      - apply after_length in A. cbn [String.length] in A. intros [= _ <-]. lia.
      - destruct (Json.read_members f (d - 1) [] s1) as [[x y]|] eqn:R; [|done]. apply M' in R. intros [= _ <-]. lia. }
    destruct (byte c =? 110); [intros H; by apply W in H|]. destruct (byte c =? 116); [intros H; by apply W in H|].
    destruct (byte c =? 102); [intros H; by apply W in H|].
    destruct (read_number _) as [[x y]|] eqn:R; [|done]. apply read_number_length in R. cbn [String.length] in R.
    intros [= _ <-]. lia.
  - intros s l r. cbn [read_elements]. destruct (Json.read_value f d s) as [[v s1]|] eqn:R; [|done]. apply V in R.
    pose proof (skip_space_length s1) as K. destruct (skip_space s1) as [|c r0]; [done|]. cbn [String.length] in K.
    destruct (byte c =? 93); [intros [= _ <-]; lia|]. destruct (byte c =? 44); [|done].
    destruct (read_elements f d r0) as [[x y]|] eqn:R2; [|done]. apply E in R2. intros [= _ <-]. lia.
  - intros m s l r. cbn [Json.read_members]. pose proof (skip_space_length s) as K0.
    destruct (after """" (skip_space s)) as [s1|] eqn:A1; [|done]. apply after_length in A1. cbn [String.length] in A1.
    destruct (unquote 0 s1) as [[k s2]|] eqn:U; [|done]. apply unquote_length in U. pose proof (skip_space_length s2) as K2.
    destruct (after ":" (skip_space s2)) as [s3|] eqn:A2; [|done]. apply after_length in A2. cbn [String.length] in A2.
    destruct (Json.read_value f d s3) as [[v s4]|] eqn:R; [|done]. apply V in R.
    pose proof (skip_space_length s4) as K. cbv zeta. destruct (skip_space s4) as [|c r0]; [done|]. cbn [String.length] in K.
    destruct (byte c =? 125); [intros [= _ <-]; lia|]. destruct (byte c =? 44); [|done]. intros H%M. lia.
Qed.

Lemma read_elements_S f d s : read_elements (S f) d s =
  match Json.read_value f d s with
  | None => None
  | Some (v, s1) =>
      match skip_space s1 with
      | String c r =>
          if byte c =? 93 then Some ([v], r)
          else if byte c =? 44 then
            match read_elements f d r with Some (l, r') => Some (v :: l, r') | None => None end
          else None
      | EmptyString => None
      end
  end.
Proof. reflexivity. Qed.
Lemma read_members_S f d m s : Json.read_members (S f) d m s =
  match after """" (skip_space s) with
  | None => None
  | Some s1 =>
      match unquote 0 s1 with
      | None => None
      | Some (k, s2) =>
          match after ":" (skip_space s2) with
          | None => None
          | Some s3 =>
              match Json.read_value f d s3 with
              | None => None
              | Some (v, s4) =>
                  let m := assoc_set k v m in
                  match skip_space s4 with
                  | String c r =>
                      if byte c =? 125 then Some (m, r)
                      else if byte c =? 44 then Json.read_members f d m r
                      else None
                  | EmptyString => None
                  end
              end
          end
      end
  end.
Proof. reflexivity. Qed.
Lemma fuel_enough f : forall d,
  (forall s, (2 * String.length s + 1 <= f)%nat -> Json.read_value (S f) d s = Json.read_value f d s)
  /\ (forall s, (2 * String.length s + 2 <= f)%nat -> read_elements (S f) d s = read_elements f d s)
  /\ (forall m s, (2 * String.length s + 2 <= f)%nat -> Json.read_members (S f) d m s = Json.read_members f d m s).
Proof.
  induction f as [|f IH]; intros d; [split; [|split]; intros; lia|].
  destruct (IH d) as (V & E & M). destruct (IH (d - 1)) as (_ & E' & M').
  destruct (rest_shorter f d) as (LV & LE & LM).
  split; [|split].
  - intros s Hs. remember (S f) as f1 eqn:Ef. cbn [Json.read_value]. rewrite Ef. cbn [Json.read_value]. subst f1.
    pose proof (skip_space_length s) as K.
    destruct (skip_space s) as [|c s1]; [done|]. cbn [String.length] in K. pose proof (skip_space_length s1) as K1.
    rewrite E' by lia. rewrite M' by lia. reflexivity.
  - intros s Hs. rewrite (read_elements_S (S f)), (read_elements_S f d s).
    rewrite V by lia. destruct (Json.read_value f d s) as [[v s1]|] eqn:R; [|done]. apply LV in R.
    pose proof (skip_space_length s1) as K. destruct (skip_space s1) as [|c r0]; [done|]. cbn [String.length] in K.
    rewrite E by lia. reflexivity.
  - intros m s Hs. rewrite (read_members_S (S f)), (read_members_S f d m s).
    pose proof (skip_space_length s) as K0.
    destruct (after """" (skip_space s)) as [s1|] eqn:A1; [|done]. apply after_length in A1. cbn [String.length] in A1.
    destruct (unquote 0 s1) as [[k s2]|] eqn:U; [|done]. apply unquote_length in U. pose proof (skip_space_length s2) as K2.
    destruct (after ":" (skip_space s2)) as [s3|] eqn:A2; [|done]. apply after_length in A2. cbn [String.length] in A2.
    rewrite V by lia. destruct (Json.read_value f d s3) as [[v s4]|] eqn:R; [|done]. apply LV in R.
    pose proof (skip_space_length s4) as K. cbv zeta. destruct (skip_space s4) as [|c r0]; [done|]. cbn [String.length] in K.
    rewrite M by lia. reflexivity.
Qed.
Lemma fuel_irrelevant d s f : (2 * String.length s + 1 <= f)%nat ->
  Json.read_value f d s = Json.read_value (2 * String.length s + 1) d s.
Proof.
  induction f as [|f IH]; [lia|]. intros H. destruct (decide (S f = 2 * String.length s + 1)%nat) as [->|]; [done|].
  rewrite <- IH by lia. apply (fuel_enough f d). lia.
Qed.
