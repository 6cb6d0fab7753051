(** Proofs about hexadecimal, base64 and JSON string literals. *)
From Coq Require Import Ascii.
From Verif Require Import Prelude PathMatch Encoding AuthSpec.

Local Open Scope string_scope.
Local Open Scope N_scope.

(** * Letters *)

Lemma N_of_ascii_bound c : N_of_ascii c < 256.
Proof. destruct c as [[] [] [] [] [] [] [] []]; reflexivity. Qed.
Lemma N_of_ascii_inj a b : N_of_ascii a = N_of_ascii b -> a = b.
Proof. intros H. rewrite <- (ascii_N_embedding a), <- (ascii_N_embedding b). by rewrite H. Qed.
Lemma of_byte_val n : n < 256 -> N_of_ascii (of_byte n) = n.
Proof. apply N_ascii_embedding. Qed.

Lemma b64_val_letter c d : b64_val c = Some d -> b64_letter d c.
Proof.
  destruct c as [[] [] [] [] [] [] [] []]; vm_compute b64_val; intros [= <-];
    unfold b64_letter; vm_compute N_of_ascii;
    first [by right; right; right; left | by right; right; right; right
          | left; split; [reflexivity|reflexivity]
          | right; left; split; [split; [discriminate|reflexivity]|reflexivity]
          | right; right; left; split; [split; [discriminate|reflexivity]|reflexivity]].
Qed.

Lemma b64_letter_fun d d' c : b64_letter d c -> b64_letter d' c -> d = d'.
Proof.
  unfold b64_letter. intros H H'.
  assert (Hp : N_of_ascii "+"%char = 43) by reflexivity.
  assert (Hs : N_of_ascii "/"%char = 47) by reflexivity.
  destruct H as [H|[H|[H|[[H ->]|[H ->]]]]]; destruct H' as [H'|[H'|[H'|[[H' E]|[H' E]]]]];
    subst; try discriminate; rewrite ?Hp, ?Hs in *; lia.
Qed.

Lemma b64_letter_char d c c' : b64_letter d c -> b64_letter d c' -> c = c'.
Proof.
  unfold b64_letter. intros H H'.
  destruct H as [H|[H|[H|[[H ->]|[H ->]]]]]; destruct H' as [H'|[H'|[H'|[[H' E]|[H' E]]]]];
    subst; try lia; try done; apply N_of_ascii_inj; lia.
Qed.

Lemma b64_letter_bound d c : b64_letter d c -> d < 64.
Proof. unfold b64_letter. lia. Qed.

Lemma b64_digit_val n : n < 64 -> b64_val (b64_digit n) = Some n.
Proof.
  intros H. assert (Hn : n ∈ map N.of_nat (seq 0 64)).
  { apply elem_of_list_fmap. exists (N.to_nat n). split; [lia|]. apply elem_of_seq. lia. }
  revert Hn. apply (Forall_forall (fun n => b64_val (b64_digit n) = Some n)).
  repeat (constructor; [reflexivity|]). constructor.
Qed.

Lemma b64_letter_val d c : b64_letter d c -> b64_val c = Some d.
Proof.
  intros H. pose proof (b64_letter_bound _ _ H) as Hb.
  pose proof (b64_digit_val d Hb) as Hv.
  rewrite (b64_letter_char _ _ _ H (b64_val_letter _ _ Hv)). exact Hv.
Qed.

Lemma b64_letter_not_pad d c : b64_letter d c -> c <> "="%char.
Proof. intros H ->. apply b64_letter_val in H. discriminate H. Qed.
Lemma b64_letter_not_newline d c : b64_letter d c -> c <> "010"%char /\ c <> "013"%char.
Proof. intros H. split; intros ->; apply b64_letter_val in H; discriminate H. Qed.

Lemma hex_val_digit c d : hex_val c = Some d -> hex_digit d c.
Proof.
  unfold hex_val, hex_digit, byte. generalize (N_of_ascii c); intros n.
  destruct (N.leb_spec 48 n), (N.leb_spec n 57); cbn [andb];
  destruct (N.leb_spec 97 n), (N.leb_spec n 102); cbn [andb];
  destruct (N.leb_spec 65 n), (N.leb_spec n 70); cbn [andb]; intros [= <-]; lia.
Qed.
Lemma hex_digit_val c d : hex_digit d c -> hex_val c = Some d.
Proof.
  unfold hex_val, hex_digit, byte. generalize (N_of_ascii c); intros n H.
  destruct (N.leb_spec 48 n), (N.leb_spec n 57); cbn [andb];
  destruct (N.leb_spec 97 n), (N.leb_spec n 102); cbn [andb];
  destruct (N.leb_spec 65 n), (N.leb_spec n 70); cbn [andb]; try (f_equal; lia); lia.
Qed.
Lemma hex_digit_bound d c : hex_digit d c -> d < 16.
Proof. unfold hex_digit. lia. Qed.
Lemma hex_encode_digit n : n < 16 -> hex_val (digit_at hex_alphabet n) = Some n.
Proof.
  intros H. assert (Hn : n ∈ map N.of_nat (seq 0 16)).
  { apply elem_of_list_fmap. exists (N.to_nat n). split; [lia|]. apply elem_of_seq. lia. }
  revert Hn. apply (Forall_forall (fun n => hex_val (digit_at hex_alphabet n) = Some n)).
  repeat (constructor; [reflexivity|]). constructor.
Qed.

(** * Hexadecimal *)

Lemma string_ind2 (P : string -> Prop) :
  P "" -> (forall c, P (String c "")) -> (forall p q s, P s -> P (String p (String q s))) ->
  forall s, P s.
Proof.
  intros H0 H1 H2. fix IH 1. intros [|p [|q s]]; [exact H0|apply H1|apply H2, IH].
Qed.

Lemma hex_decode_iff s d : hex_decode s = Some d <-> hex_denotes s d.
Proof.
  split.
  - revert d. induction s as [|c|p q s IH] using string_ind2; intros d; cbn [hex_decode].
    + intros [= <-]. constructor.
    + discriminate.
    + destruct (hex_val p) as [a|] eqn:Ea; [|discriminate].
      destruct (hex_val q) as [b|] eqn:Eb; [|discriminate].
      destruct (hex_decode s) as [r|] eqn:Er; [|discriminate]. intros [= <-].
      apply hex_val_digit in Ea, Eb.
      econstructor; [exact Ea|exact Eb| |by apply IH].
      pose proof (hex_digit_bound _ _ Ea). pose proof (hex_digit_bound _ _ Eb).
      rewrite of_byte_val; lia.
  - induction 1 as [|p q a b c s d Ha Hb Hc H IH]; [reflexivity|].
    cbn [hex_decode]. rewrite (hex_digit_val _ _ Ha), (hex_digit_val _ _ Hb), IH.
    do 2 f_equal. apply N_of_ascii_inj.
    pose proof (hex_digit_bound _ _ Ha). pose proof (hex_digit_bound _ _ Hb).
    rewrite of_byte_val; lia.
Qed.

Lemma hex_decode_encode s : hex_decode (hex_encode s) = Some s.
Proof.
  induction s as [|c s IH]; [reflexivity|]. cbn [hex_encode hex_decode].
  pose proof (N_of_ascii_bound c) as Hc. fold (byte c) in Hc.
  rewrite !hex_encode_digit, IH.
  - do 2 f_equal. apply N_of_ascii_inj. rewrite of_byte_val; unfold byte in *.
    + rewrite N.mul_comm, <- N.div_mod; lia.
    + pose proof (N.div_mod (N_of_ascii c) 16). lia.
  - apply N.mod_lt. lia.
  - apply N.div_lt_upper_bound; lia.
Qed.

Lemma hex_decode_app s t a b :
  hex_decode s = Some a -> hex_decode t = Some b -> hex_decode (s ++ t) = Some (a ++ b).
Proof.
  intros Hs Ht. revert a Hs. induction s as [|c|p q s IH] using string_ind2; intros a.
  - intros [= <-]. exact Ht.
  - discriminate.
  - change (String p (String q s) ++ t) with (String p (String q (s ++ t))). cbn [hex_decode].
    destruct (hex_val p) as [x|]; [|discriminate]. destruct (hex_val q) as [y|]; [|discriminate].
    destruct (hex_decode s) as [r|] eqn:Er; [|discriminate]. intros [= <-].
    rewrite (IH r); [reflexivity|reflexivity].
Qed.

Lemma hex_encode_length s : String.length (hex_encode s) = (2 * String.length s)%nat.
Proof. induction s as [|c s IH]; [reflexivity|]. cbn [hex_encode String.length]. lia. Qed.

(** * Numbers *)

Lemma in_base_app b xs ys :
  in_base b (xs ++ ys) = in_base b xs * b ^ N.of_nat (length ys) + in_base b ys.
Proof.
  induction xs as [|x xs IH]; [reflexivity|].
  cbn [in_base app]. rewrite IH, app_length, Nat2N.inj_add, N.pow_add_r. lia.
Qed.

Lemma in_base_lt b xs : b <> 0 -> Forall (fun d => d < b) xs -> in_base b xs < b ^ N.of_nat (length xs).
Proof.
  intros Hb. induction 1 as [|x xs Hx H IH]; [cbn; lia|].
  cbn [in_base length]. rewrite Nat2N.inj_succ, N.pow_succ_r'. nia.
Qed.

Lemma in_base_inj b xs ys : b <> 0 ->
  Forall (fun d => d < b) xs -> Forall (fun d => d < b) ys -> length xs = length ys ->
  in_base b xs = in_base b ys -> xs = ys.
Proof.
  intros Hb Hx. revert ys. induction Hx as [|x xs Hx Hxs IH]; intros [|y ys] Hy Hl; try discriminate; [done|].
  inversion Hy; subst. injection Hl as Hl. cbn [in_base]. rewrite <- Hl. intros E.
  pose proof (in_base_lt b xs Hb Hxs) as B1.
  pose proof (in_base_lt b ys Hb H2) as B2. rewrite <- Hl in B2.
  assert (x = y) as -> by nia. f_equal. apply IH; try done. lia.
Qed.

Lemma chars_length s : length (chars s) = String.length s.
Proof. induction s as [|c s IH]; [reflexivity|]. cbn [String.length]. rewrite <- IH. reflexivity. Qed.
Lemma chars_inj s t : chars s = chars t -> s = t.
Proof.
  intros H. rewrite <- (string_of_list_ascii_of_string s), <- (string_of_list_ascii_of_string t).
  unfold chars in H. by rewrite H.
Qed.
Lemma chars_app s t : chars (s ++ t) = (chars s ++ chars t)%list.
Proof.
  induction s as [|c s IH]; [reflexivity|].
  change (c :: chars (s ++ t) = c :: (chars s ++ chars t)%list). by rewrite IH.
Qed.
Lemma byte_values_bound s : Forall (fun d => d < 256) (byte_values s).
Proof. apply Forall_forall. intros d Hd. apply elem_of_list_fmap in Hd as (c & -> & _). apply N_of_ascii_bound. Qed.
Lemma byte_values_inj s t : byte_values s = byte_values t -> s = t.
Proof.
  intros H. apply chars_inj. unfold byte_values in H. revert H. generalize (chars t).
  induction (chars s) as [|c l IH]; intros [|c' l'] H; try discriminate; [done|].
  injection H as H1 H2. f_equal; [by apply N_of_ascii_inj|auto].
Qed.
Lemma byte_values_length s : length (byte_values s) = length (chars s).
Proof. apply map_length. Qed.

(** * base64 *)

Lemma shape_length cs ds : b64_shape cs ds ->
  exists pad, length cs = (length ds + pad)%nat /\ (pad <= 2)%nat
    /\ exists q, (length ds + pad = 4 * q)%nat.
Proof.
  intros (ls & pad & -> & H & Hp & q & Hq). exists pad.
  rewrite app_length, repeat_length in *. rewrite (Forall2_length _ _ _ H). split; [done|].
  split; [done|]. exists q. lia.
Qed.

Ltac letters := repeat first [assumption | apply List.Forall2_cons | apply List.Forall2_nil].

(** A shape read off four at a time. *)
Lemma shape_cons4 a b c d cs x y z w ds :
  b64_letter x a -> b64_letter y b -> b64_letter z c -> b64_letter w d ->
  b64_shape cs ds -> b64_shape (a :: b :: c :: d :: cs) (x :: y :: z :: w :: ds).
Proof.
  intros Ha Hb Hc Hd (ls & pad & -> & H & Hp & q & Hq).
  exists (a :: b :: c :: d :: ls), pad. split; [done|]. split; [letters|].
  split; [done|]. exists (S q). cbn in *. lia.
Qed.

Lemma pow_64_256 n m k : (6 * n = 8 * m + k)%nat -> 64 ^ N.of_nat n = 256 ^ N.of_nat m * 2 ^ N.of_nat k.
Proof.
  intros H. replace 64 with (2 ^ 6) by reflexivity. replace 256 with (2 ^ 8) by reflexivity.
  rewrite <- !N.pow_mul_r, <- N.pow_add_r. f_equal. lia.
Qed.

Lemma groups_sound : forall s data, b64_groups s = Some data ->
  exists ds, b64_shape (chars s) ds
    /\ (8 * length (chars data) <= 6 * length ds < 8 * length (chars data) + 8)%nat
    /\ in_base 64 ds / 2 ^ N.of_nat (6 * length ds - 8 * length (chars data))
       = in_base 256 (byte_values data).
Proof.
  fix IH 1. intros [|a [|b [|c [|d s]]]] data; cbn [b64_groups]; try discriminate.
  - intros [= <-]. exists []. split; [|split; [cbn; lia|reflexivity]].
    exists [], 0%nat. split; [done|]. split; [constructor|]. split; [lia|]. by exists 0%nat.
  - destruct (b64_val a) as [x|] eqn:Ea; [|discriminate].
    destruct (b64_val b) as [y|] eqn:Eb; [|discriminate].
    apply b64_val_letter in Ea, Eb.
    pose proof (b64_letter_bound _ _ Ea) as Bx. pose proof (b64_letter_bound _ _ Eb) as By.
    destruct (Ascii.eqb_spec c pad_char) as [->|Hc].
    + destruct (Ascii.eqb_spec d pad_char) as [->|Hd]; [|discriminate].
      destruct s; [|discriminate]. intros [= <-]. exists [x; y].
      split; [exists [a; b], 2%nat; split; [done|]; split; [letters|]; split; [lia|by exists 1%nat]|].
      split; [cbn; lia|]. cbn -[N.div N.mul of_byte]. rewrite of_byte_val.
      * rewrite !N.mul_1_r, !N.add_0_r. reflexivity.
      * apply N.div_lt_upper_bound; lia.
    + destruct (b64_val c) as [z|] eqn:Ez; [|discriminate]. apply b64_val_letter in Ez.
      pose proof (b64_letter_bound _ _ Ez) as Bz.
      destruct (Ascii.eqb_spec d pad_char) as [->|Hd].
      * destruct s; [|discriminate]. intros [= <-]. exists [x; y; z].
        split; [exists [a; b; c], 1%nat; split; [done|]; split; [letters|]; split; [lia|by exists 1%nat]|].
        split; [cbn; lia|].
        set (v := (x * 4096 + y * 64 + z) / 4).
        assert (Hv : v < 65536) by (unfold v; apply N.div_lt_upper_bound; lia).
        replace (in_base 64 [x; y; z]) with (x * 4096 + y * 64 + z)
          by (cbn [in_base length]; change (64 ^ N.of_nat 2) with 4096;
              change (64 ^ N.of_nat 1) with 64; change (64 ^ N.of_nat 0) with 1; lia).
        unfold byte_values. cbn [chars list_ascii_of_string map in_base length].
        rewrite !of_byte_val by first [apply N.mod_lt; lia | apply N.div_lt_upper_bound; lia].
        change (2 ^ N.of_nat (6 * 3 - 8 * 2)) with 4. fold v.
        change (256 ^ N.of_nat 1) with 256. change (256 ^ N.of_nat 0) with 1.
        pose proof (N.div_mod v 256). lia.
      * destruct (b64_val d) as [w|] eqn:Ed; [|discriminate].
        destruct (b64_groups s) as [r|] eqn:Er; [|discriminate]. intros [= <-].
        apply b64_val_letter in Ed. pose proof (b64_letter_bound _ _ Ed) as Bw.
        destruct (IH s r Er) as (ds & Hsh & Hlen & Hnum).
        exists (x :: y :: z :: w :: ds).
        split; [by apply shape_cons4|].
        cbn [chars list_ascii_of_string] in *.
        cbn [length] in *. split; [unfold chars in *; cbn [list_ascii_of_string length]; lia|].
        set (v := x * 262144 + y * 4096 + z * 64 + w) in *.
        assert (Hv : v < 16777216) by (unfold v; lia).
        change (length (chars (String (of_byte (v / 65536)) (String (of_byte (v / 256 mod 256)) (String (of_byte (v mod 256)) r)))))
          with (S (S (S (length (chars r))))).
        set (n := length ds) in *.
        set (r' := list_ascii_of_string r) in *. unfold chars in Hlen, Hnum. fold r' in Hlen, Hnum.
        set (m := length r') in *.
        replace (6 * S (S (S (S n))) - 8 * S (S (S m)))%nat with (6 * n - 8 * m)%nat by lia.
        set (k := (6 * n - 8 * m)%nat) in *.
        assert (Hp : 64 ^ N.of_nat n = 256 ^ N.of_nat m * 2 ^ N.of_nat k)
          by (apply pow_64_256; unfold k; lia).
        unfold byte_values in *. cbn [chars list_ascii_of_string map in_base length].
        unfold chars in *. fold r' in Hnum |- *.
        rewrite map_length. fold m n.
        rewrite !of_byte_val by first [apply N.mod_lt; lia | apply N.div_lt_upper_bound; lia].
        rewrite <- Hnum.
        replace (x * 64 ^ N.of_nat (S (S (S n))) + (y * 64 ^ N.of_nat (S (S n)) + (z * 64 ^ N.of_nat (S n)
                  + (w * 64 ^ N.of_nat n + in_base 64 ds))))
          with (v * 256 ^ N.of_nat m * 2 ^ N.of_nat k + in_base 64 ds).
        2:{ rewrite <- N.mul_assoc, <- Hp, !Nat2N.inj_succ, !N.pow_succ_r'. unfold v. lia. }
        rewrite N.div_add_l by (apply N.pow_nonzero; lia).
        rewrite !Nat2N.inj_succ, !N.pow_succ_r'.
        enough (v = v / 65536 * 65536 + v / 256 mod 256 * 256 + v mod 256) by nia.
        rewrite (N.div_mod v 256) at 1 by lia.
        rewrite (N.div_mod (v / 256) 256) at 1 by lia.
        rewrite N.div_div by lia. change (256 * 256) with 65536. lia.
Qed.

Lemma groups_total : forall ds s, b64_shape (chars s) ds -> exists data, b64_groups s = Some data.
Proof.
  fix IH 1. intros ds s (ls & pad & Hs & H & Hp & q & Hq).
  rewrite Hs in Hq. rewrite app_length, repeat_length in Hq.
  destruct ds as [|x [|y [|z [|w ds]]]]; inversion H as [|? a ? ls1 Ha H1]; subst; clear H.
  - cbn in Hs, Hq. destruct pad as [|[|[|]]]; try lia. destruct s; [|discriminate]. by exists "".
  - inversion H1; subst. cbn in Hq. lia.
  - inversion H1 as [|? b ? ls2 Hb H2]; subst. inversion H2; subst. cbn in Hq.
    assert (pad = 2%nat) as -> by lia.
    destruct s as [|? [|? [|? [|? [|]]]]]; try discriminate. cbn in Hs. injection Hs as -> -> -> ->.
    cbn [b64_groups]. rewrite (b64_letter_val _ _ Ha), (b64_letter_val _ _ Hb), Ascii.eqb_refl. eauto.
  - inversion H1 as [|? b ? ls2 Hb H2]; subst. inversion H2 as [|? c ? ls3 Hc H3]; subst.
    inversion H3; subst. cbn in Hq. assert (pad = 1%nat) as -> by lia.
    destruct s as [|? [|? [|? [|? [|]]]]]; try discriminate. cbn in Hs. injection Hs as -> -> -> ->.
    cbn [b64_groups]. rewrite (b64_letter_val _ _ Ha), (b64_letter_val _ _ Hb), (b64_letter_val _ _ Hc).
    destruct (Ascii.eqb_spec c pad_char) as [E|_]; [by apply b64_letter_not_pad in Hc|].
    rewrite Ascii.eqb_refl. eauto.
  - inversion H1 as [|? b ? ls2 Hb H2]; subst. inversion H2 as [|? c ? ls3 Hc H3]; subst.
    inversion H3 as [|? d ? ls4 Hd H4]; subst.
    destruct s as [|? [|? [|? [|? s]]]]; try discriminate. cbn in Hs. injection Hs as -> -> -> -> Hs.
    destruct (IH ds s) as [r Hr].
    { exists ls4, pad. split; [exact Hs|]. split; [done|]. split; [done|].
      exists (q - 1)%nat. unfold chars. rewrite Hs, app_length, repeat_length. cbn in Hq. lia. }
    cbn [b64_groups]. rewrite (b64_letter_val _ _ Ha), (b64_letter_val _ _ Hb), (b64_letter_val _ _ Hc), (b64_letter_val _ _ Hd), Hr.
    destruct (Ascii.eqb_spec c pad_char) as [E|_]; [by apply b64_letter_not_pad in Hc|].
    destruct (Ascii.eqb_spec d pad_char) as [E|_]; [by apply b64_letter_not_pad in Hd|].
    eauto.
Qed.

Lemma shape_fun cs ds ds' : b64_shape cs ds -> b64_shape cs ds' -> ds = ds'.
Proof.
  intros (ls & pad & -> & H & _ & _) (ls' & pad' & E & H' & _ & _).
  revert ds' ls' E H'. induction H as [|d c ds ls Hd H IH]; intros ds' ls' E H'.
  - inversion H' as [|? c' ? ? Hc']; subst; [done|].
    cbn in E. destruct pad; [discriminate|]. cbn in E. injection E as <- _.
    by apply b64_letter_not_pad in Hc'.
  - inversion H' as [|d' c' ds'' ls'' Hd' H'']; subst.
    + cbn in E. destruct pad'; [discriminate|]. cbn in E. injection E as -> _.
      by apply b64_letter_not_pad in Hd.
    + cbn in E. injection E as <- E. f_equal; [by eapply b64_letter_fun|by eapply IH].
Qed.

Lemma denotes_fun text d d' : b64_denotes text d -> b64_denotes text d' -> d = d'.
Proof.
  intros (ds & Hs & Hl & Hn) (ds' & Hs' & Hl' & Hn').
  pose proof (shape_fun _ _ _ Hs Hs') as <-.
  assert (E : length (chars d) = length (chars d')) by lia.
  rewrite <- E, Hn in Hn'. apply byte_values_inj, (in_base_inj 256);
    [lia|apply byte_values_bound|apply byte_values_bound|by rewrite !byte_values_length|exact Hn'].
Qed.

Lemma chars_drop_newlines s :
  chars (drop_newlines s) = filter (fun c => c <> "010"%char /\ c <> "013"%char) (chars s).
Proof.
  induction s as [|c s IH]; [reflexivity|].
  cbn [drop_newlines chars list_ascii_of_string]. rewrite filter_cons.
  unfold is_newline, byte.
  destruct (decide (c <> "010"%char /\ c <> "013"%char)) as [[H1 H2]|H].
  - destruct (N.eqb_spec (N_of_ascii c) 10) as [E|_].
    { exfalso. apply H1, N_of_ascii_inj. exact E. }
    destruct (N.eqb_spec (N_of_ascii c) 13) as [E|_].
    { exfalso. apply H2, N_of_ascii_inj. exact E. }
    cbn. f_equal. exact IH.
  - destruct (N.eqb_spec (N_of_ascii c) 10) as [E|E10]; [exact IH|].
    destruct (N.eqb_spec (N_of_ascii c) 13) as [E|E13]; [exact IH|].
    exfalso. apply H. split; intros ->; [by apply E10|by apply E13].
Qed.

Lemma b64_decode_iff s d : b64_decode s = Some d <-> b64_denotes s d.
Proof.
  unfold b64_decode, b64_denotes. rewrite <- chars_drop_newlines. split.
  - apply groups_sound.
  - intros (ds & Hs & Hr). destruct (groups_total _ _ Hs) as [d' Hd']. rewrite Hd'. f_equal.
    apply groups_sound in Hd'. symmetry.
    apply (denotes_fun s); unfold b64_denotes; rewrite <- chars_drop_newlines; eauto.
Qed.

Lemma filter_all_in {A} (P : A -> Prop) `{forall x, Decision (P x)} (l : list A) :
  (forall x, x ∈ l -> P x) -> filter P l = l.
Proof.
  induction l as [|x l IH]; intros Hl; [done|]. rewrite filter_cons_True by (apply Hl; left).
  f_equal. apply IH. intros y Hy. apply Hl. by right.
Qed.

Lemma canonical_denotes text d : b64_canonical text d -> b64_denotes text d.
Proof.
  intros (ds & Hs & Hl & Hn). exists ds. split; [|split; [done|]].
  - assert (filter (fun c => c <> "010"%char /\ c <> "013"%char) (chars text) = chars text) as ->; [|done].
    destruct Hs as (ls & pad & -> & H & _). apply filter_all_in. intros c Hc.
    apply elem_of_app in Hc as [Hc|Hc].
    + apply elem_of_list_lookup in Hc as [i Hi].
      destruct (Forall2_lookup_r _ _ _ _ _ H Hi) as (d' & _ & Hd').
      by eapply b64_letter_not_newline.
    + apply elem_of_list_In, repeat_spec in Hc as ->. done.
  - rewrite Hn. apply N.div_mul, N.pow_nonzero. lia.
Qed.

Lemma encode_canonical : forall d, b64_canonical (b64_encode d) d.
Proof.
  fix IH 1. intros [|a [|b [|c d]]].
  - exists []. split; [exists [], 0%nat; split; [done|]; split; [constructor|]; split; [lia|by exists 0%nat]|].
    split; [cbn; lia|reflexivity].
  - cbn [b64_encode]. pose proof (N_of_ascii_bound a) as Ba. unfold byte.
    set (n := N_of_ascii a) in *. set (v := n * 65536).
    assert (H1 : v / 262144 < 64) by (apply N.div_lt_upper_bound; unfold v; lia).
    assert (H2 : v / 4096 mod 64 < 64) by (apply N.mod_lt; lia).
    exists [v / 262144; v / 4096 mod 64].
    pose proof (b64_val_letter _ _ (b64_digit_val _ H1)) as L1.
    pose proof (b64_val_letter _ _ (b64_digit_val _ H2)) as L2.
    split; [exists [b64_digit (v / 262144); b64_digit (v / 4096 mod 64)], 2%nat; split; [done|]; split; [letters|]; split; [lia|by exists 1%nat]|].
    split; [cbn; lia|]. unfold byte_values. cbn [chars list_ascii_of_string map in_base length]. fold n.
    change (2 ^ N.of_nat (6 * 2 - 8 * 1)) with 16. change (64 ^ N.of_nat 1) with 64.
    change (64 ^ N.of_nat 0) with 1. change (256 ^ N.of_nat 0) with 1.
    assert (Hv : v / 4096 = n * 16) by (unfold v; replace (n * 65536) with (n * 16 * 4096) by lia; apply N.div_mul; lia).
    assert (Hv' : v / 262144 = v / 4096 / 64) by (rewrite N.div_div by lia; reflexivity).
    pose proof (N.div_mod (v / 4096) 64). lia.
  - cbn [b64_encode]. pose proof (N_of_ascii_bound a) as Ba. pose proof (N_of_ascii_bound b) as Bb. unfold byte.
    set (n := N_of_ascii a) in *. set (m := N_of_ascii b) in *. set (v := n * 65536 + m * 256).
    assert (H1 : v / 262144 < 64) by (apply N.div_lt_upper_bound; unfold v; lia).
    assert (H2 : v / 4096 mod 64 < 64) by (apply N.mod_lt; lia).
    assert (H3 : v / 64 mod 64 < 64) by (apply N.mod_lt; lia).
    exists [v / 262144; v / 4096 mod 64; v / 64 mod 64].
    pose proof (b64_val_letter _ _ (b64_digit_val _ H1)) as L1.
    pose proof (b64_val_letter _ _ (b64_digit_val _ H2)) as L2.
    pose proof (b64_val_letter _ _ (b64_digit_val _ H3)) as L3.
    split; [exists [b64_digit (v / 262144); b64_digit (v / 4096 mod 64); b64_digit (v / 64 mod 64)], 1%nat; split; [done|]; split; [letters|]; split; [lia|by exists 1%nat]|].
    split; [cbn; lia|]. unfold byte_values. cbn [chars list_ascii_of_string map in_base length]. fold n m.
    change (2 ^ N.of_nat (6 * 3 - 8 * 2)) with 4. change (64 ^ N.of_nat 2) with 4096. change (64 ^ N.of_nat 1) with 64.
    change (64 ^ N.of_nat 0) with 1. change (256 ^ N.of_nat 1) with 256. change (256 ^ N.of_nat 0) with 1.
    assert (Hv : v / 64 = n * 1024 + m * 4)
      by (unfold v; replace (n * 65536 + m * 256) with ((n * 1024 + m * 4) * 64) by lia; apply N.div_mul; lia).
    assert (Hv' : v / 4096 = v / 64 / 64) by (rewrite N.div_div by lia; reflexivity).
    assert (Hv'' : v / 262144 = v / 4096 / 64) by (rewrite N.div_div by lia; reflexivity).
    pose proof (N.div_mod (v / 4096) 64). pose proof (N.div_mod (v / 64) 64). lia.
  - cbn [b64_encode]. pose proof (N_of_ascii_bound a) as Ba. pose proof (N_of_ascii_bound b) as Bb.
    pose proof (N_of_ascii_bound c) as Bc. unfold byte.
    set (n := N_of_ascii a) in *. set (m := N_of_ascii b) in *. set (o := N_of_ascii c) in *.
    set (v := n * 65536 + m * 256 + o).
    assert (H1 : v / 262144 < 64) by (apply N.div_lt_upper_bound; unfold v; lia).
    assert (H2 : v / 4096 mod 64 < 64) by (apply N.mod_lt; lia).
    assert (H3 : v / 64 mod 64 < 64) by (apply N.mod_lt; lia).
    assert (H4 : v mod 64 < 64) by (apply N.mod_lt; lia).
    pose proof (b64_val_letter _ _ (b64_digit_val _ H1)) as L1.
    pose proof (b64_val_letter _ _ (b64_digit_val _ H2)) as L2.
    pose proof (b64_val_letter _ _ (b64_digit_val _ H3)) as L3.
    pose proof (b64_val_letter _ _ (b64_digit_val _ H4)) as L4.
    destruct (IH d) as (ds & Hsh & Hlen & Hnum).
    exists (v / 262144 :: v / 4096 mod 64 :: v / 64 mod 64 :: v mod 64 :: ds).
    split; [by apply shape_cons4|].
    change (length (chars (String a (String b (String c d))))) with (S (S (S (length (chars d))))).
    cbn [length]. split; [lia|].
    replace (6 * S (S (S (S (length ds)))) - 8 * S (S (S (length (chars d)))))%nat
      with (6 * length ds - 8 * length (chars d))%nat by lia.
    change (byte_values (String a (String b (String c d)))) with (n :: m :: o :: byte_values d).
    cbn [in_base length]. rewrite byte_values_length, Hnum.
    set (k := (6 * length ds - 8 * length (chars d))%nat).
    rewrite !Nat2N.inj_succ, !N.pow_succ_r'.
    rewrite (pow_64_256 (length ds) (length (chars d)) k) by (unfold k; lia).
    assert (Hv : v = v / 262144 * 262144 + v / 4096 mod 64 * 4096 + v / 64 mod 64 * 64 + v mod 64).
    { assert (Hv' : v / 4096 = v / 64 / 64) by (rewrite N.div_div by lia; reflexivity).
      assert (Hv'' : v / 262144 = v / 4096 / 64) by (rewrite N.div_div by lia; reflexivity).
      pose proof (N.div_mod v 64). pose proof (N.div_mod (v / 4096) 64). pose proof (N.div_mod (v / 64) 64). lia. }
    unfold v in Hv at 1. clearbody v. generalize dependent (v / 262144); intros d1.
    generalize dependent (v / 4096 mod 64); intros d2. generalize dependent (v / 64 mod 64); intros d3.
    generalize dependent (v mod 64); intros d4. intros.
    generalize (256 ^ N.of_nat (length (chars d))) (2 ^ N.of_nat k) (in_base 256 (byte_values d)).
    intros P K X.
    replace (d1 * (64 * (64 * (64 * (P * K)))) + (d2 * (64 * (64 * (P * K))) + (d3 * (64 * (P * K)) + (d4 * (P * K) + X * K))))
      with ((d1 * 262144 + d2 * 4096 + d3 * 64 + d4) * P * K + X * K) by lia.
    rewrite <- Hv. lia.
Qed.

Lemma b64_decode_encode d : b64_decode (b64_encode d) = Some d.
Proof. apply b64_decode_iff, canonical_denotes, encode_canonical. Qed.

Lemma shape_fun_r cs cs' ds : b64_shape cs ds -> b64_shape cs' ds -> cs = cs'.
Proof.
  intros (ls & pad & -> & H & Hp & q & Hq) (ls' & pad' & -> & H' & Hp' & q' & Hq').
  rewrite app_length, repeat_length in Hq, Hq'.
  rewrite <- (Forall2_length _ _ _ H) in Hq. rewrite <- (Forall2_length _ _ _ H') in Hq'.
  assert (pad = pad') as <- by lia. f_equal. clear -H H'. revert ls' H'.
  induction H as [|d c ds ls Hd H IH]; intros ls' H'; inversion H'; subst; [done|].
  f_equal; [by eapply b64_letter_char|auto].
Qed.

Lemma canonical_fun t t' d : b64_canonical t d -> b64_canonical t' d -> t = t'.
Proof.
  intros (ds & Hs & Hl & Hn) (ds' & Hs' & Hl' & Hn').
  assert (El : length ds = length ds').
  { destruct (shape_length _ _ Hs) as (pad & _ & Hp & q & Hq).
    destruct (shape_length _ _ Hs') as (pad' & _ & Hp' & q' & Hq'). lia. }
  rewrite <- El, <- Hn in Hn'.
  assert (B : forall cs l, b64_shape cs l -> Forall (fun d => d < 64) l).
  { clear. intros cs l (ls & pad & _ & H & _). induction H; constructor; [by eapply b64_letter_bound|done]. }
  assert (ds = ds') as <-.
  { apply (in_base_inj 64); [lia|by eapply B|by eapply B|done|done]. }
  apply chars_inj. by eapply shape_fun_r.
Qed.

(** * JSON string literals *)

Lemma string_app_assoc (a b c : string) : (a ++ b) ++ c = a ++ (b ++ c).
Proof. induction a as [|x a IH]; [reflexivity|]. change (String x ((a ++ b) ++ c) = String x (a ++ (b ++ c))). by rewrite IH. Qed.
Lemma string_app_inv_r (a b c : string) : a ++ c = b ++ c -> a = b.
Proof.
  intros H. apply chars_inj. apply (app_inv_tail (chars c)). rewrite <- !chars_app. by rewrite H.
Qed.
Lemma string_app_inv_l (a b c : string) : c ++ a = c ++ b -> a = b.
Proof.
  intros H. apply chars_inj. apply (app_inv_head (chars c)). rewrite <- !chars_app. by rewrite H.
Qed.

(** Reading on to the closing quote. *)
Fixpoint after_literal (s : string) : option string :=
  match s with
  | EmptyString => None
  | String c s' =>
      if byte c =? 34 then Some s'
      else if byte c =? 92 then
        match s' with String _ s'' => after_literal s'' | EmptyString => None end
      else after_literal s'
  end.

Definition transparent (x : string) : Prop :=
  forall r, after_literal (x ++ r) = after_literal r.

Lemma transparent_app x y : transparent x -> transparent y -> transparent (x ++ y).
Proof. intros Hx Hy r. rewrite string_app_assoc, (Hx _). apply Hy. Qed.
Lemma transparent_nil : transparent "".
Proof. intros r. reflexivity. Qed.
Lemma transparent_char c : byte c <> 34 -> byte c <> 92 -> transparent (String c "").
Proof.
  intros H1 H2 r. change (String c "" ++ r) with (String c r). cbn [after_literal].
  destruct (N.eqb_spec (byte c) 34); [done|]. by destruct (N.eqb_spec (byte c) 92).
Qed.
Lemma transparent_cons c s : byte c <> 34 -> byte c <> 92 -> transparent s -> transparent (String c s).
Proof.
  intros H1 H2 H. change (String c s) with (String c "" ++ s).
  apply transparent_app; [by apply transparent_char|done].
Qed.
Lemma transparent_esc c : transparent (String (of_byte 92) (String c "")).
Proof. intros r. reflexivity. Qed.

Lemma hex_digit_plain n : byte (digit_at hex_alphabet n) <> 34 /\ byte (digit_at hex_alphabet n) <> 92.
Proof.
  unfold digit_at. destruct (String.get (N.to_nat n) hex_alphabet) as [c|] eqn:E; [|split; discriminate].
  assert (H : forall s k, String.get k s = Some c -> c ∈ chars s).
  { clear. induction s as [|x s IH]; intros [|k]; cbn; try discriminate; [intros [= ->]; left|].
    intros H. right. by eapply IH. }
  apply H in E. clear H. unfold hex_alphabet in E. cbn in E.
  repeat (apply elem_of_cons in E as [->|E]; [split; discriminate|]). by apply elem_of_nil in E.
Qed.

Lemma transparent_escape b : b < 256 -> transparent (json_escape b).
Proof.
  intros Hb. unfold json_escape.
  destruct ((b =? 34) || (b =? 92)) eqn:E1; [apply transparent_esc|].
  apply orb_false_iff in E1 as [Ea Eb]. apply N.eqb_neq in Ea, Eb.
  repeat match goal with |- transparent (if ?c then _ else _) => destruct c end;
    try apply transparent_esc.
  - change (transparent (String (of_byte 92) (String "u" "") ++
      (String "0" (String "0" (String (digit_at hex_alphabet (b / 16)) (String (digit_at hex_alphabet (b mod 16)) "")))))).
    destruct (hex_digit_plain (b / 16)), (hex_digit_plain (b mod 16)).
    apply transparent_app; [apply transparent_esc|].
    repeat (apply transparent_cons; [done|done|]). apply transparent_nil.
  - unfold chr. apply transparent_char; unfold byte; rewrite of_byte_val; lia.
Qed.

(** Bytes of a multi-byte rune are not ASCII. *)
Lemma decode_rune_bytes a s r n : decode_rune (String a s) = (r, n) -> 128 <= byte a ->
  Forall (fun c => 128 <= byte c) (chars (stake n (String a s))).
Proof.
  unfold decode_rune. intros H Ha.
  assert (Hone : Forall (fun c => 128 <= byte c) (chars (stake 1 (String a s)))) by (repeat constructor; done).
  assert (HC : forall c, cont c = true -> 128 <= byte c).
  { intros c. unfold cont, in_rng. rewrite andb_true_iff, !N.leb_le. unfold byte, byte_of. lia. }
  assert (HR : forall lo hi c, 128 <= lo -> in_rng lo hi c = true -> 128 <= byte c).
  { intros lo hi c Hlo. unfold in_rng. rewrite andb_true_iff, !N.leb_le. unfold byte, byte_of. lia. }
  change (byte_of a) with (byte a) in H.
  destruct (N.ltb_spec (byte a) 128); [lia|].
  repeat match type of H with
  | (if ?c then _ else _) = _ => destruct c eqn:?
  | match ?x with EmptyString => _ | String _ _ => _ end = _ => destruct x
  | (_, _) = (_, _) => injection H as <- <-
  end; try exact Hone;
  repeat match goal with
  | H : (_ && _)%bool = true |- _ => apply andb_true_iff in H as [? ?]
  end;
  repeat (apply Forall_cons; split); try done; try (by apply HC); try (eapply HR; [|eassumption]; by case_match).
Qed.

Lemma transparent_high s : Forall (fun c => 128 <= byte c) (chars s) -> transparent s.
Proof.
  induction s as [|c s IH]; [intros _; apply transparent_nil|].
  intros H. inversion H; subst. apply transparent_cons; [lia|lia|auto].
Qed.

Lemma transparent_body fuel s : transparent (json_body fuel s).
Proof.
  revert s. induction fuel as [|fuel IH]; intros s; [apply transparent_nil|].
  destruct s as [|c s]; [apply transparent_nil|]. cbn [json_body].
  destruct (decode_rune (String c s)) as [r n] eqn:E.
  apply transparent_app; [|apply IH].
  destruct (N.ltb_spec (byte c) 128); [apply transparent_escape; unfold byte in *; lia|].
  destruct ((r =? rune_error) && (n =? 1)%nat).
  { change (transparent (String (of_byte 92) (String "u" "") ++ "fffd")).
    apply transparent_app; [apply transparent_esc|].
    repeat (apply transparent_cons; [done|done|]). apply transparent_nil. }
  destruct ((r =? 8232) || (r =? 8233)).
  { change (transparent (String (of_byte 92) (String "u" "") ++
              (String "2" (String "0" (String "2" (String (digit_at hex_alphabet (r mod 16)) "")))))).
    destruct (hex_digit_plain (r mod 16)).
    apply transparent_app; [apply transparent_esc|].
    repeat (apply transparent_cons; [done|done|]). apply transparent_nil. }
  apply transparent_high. by eapply decode_rune_bytes.
Qed.

(** A literal can be told from what follows it. *)
Lemma json_string_split a b x y :
  json_string a ++ x = json_string b ++ y -> json_string a = json_string b /\ x = y.
Proof.
  intros H.
  assert (E : forall s r, after_literal (json_body (String.length s) s ++ chr 34 ++ r) = Some r).
  { intros s r. rewrite (transparent_body _ s _). reflexivity. }
  assert (x = y) as ->.
  { unfold json_string in H. rewrite !string_app_assoc in H. apply string_app_inv_l in H.
    pose proof (E a x) as E1. rewrite H, E in E1. congruence. }
  split; [|done]. by apply string_app_inv_r in H.
Qed.

(** Text of letters, digits and +/= stands for itself. *)
Definition plain (s : string) : Prop :=
  Forall (fun c => c = "="%char \/ exists d, b64_letter d c) (chars s).
Lemma plain_char c : (c = "="%char \/ exists d, b64_letter d c) ->
  byte c < 128 /\ json_escape (byte c) = String c "".
Proof.
  intros H. assert (E : c = "="%char \/ exists d, b64_val c = Some d).
  { destruct H as [->|[d H]]; [by left|]. right. exists d. by apply b64_letter_val. }
  clear H. destruct E as [->|[d E]]; [split; reflexivity|].
  destruct c as [[] [] [] [] [] [] [] []]; vm_compute in E; try discriminate; split; reflexivity.
Qed.
Lemma json_plain s : plain s -> json_string s = chr 34 ++ s ++ chr 34.
Proof.
  intros H. unfold json_string. do 2 f_equal.
  induction s as [|c s IH]; [reflexivity|]. inversion H as [|? ? Hc Hs]; subst.
  cbn [String.length json_body]. destruct (plain_char c Hc) as [Hb He].
  unfold decode_rune. change (byte_of c) with (byte c).
  destruct (N.ltb_spec (byte c) 128); [|lia]. rewrite He. cbn [sdrop].
  change (String c ((json_body (String.length s) s)) = String c s). by rewrite IH.
Qed.
Lemma canonical_plain t d : b64_canonical t d -> plain t.
Proof.
  intros (ds & (ls & pad & E & H & _) & _). unfold plain. rewrite E. apply Forall_app. split.
  - clear E. induction H as [|x c ds ls Hx H IH]; constructor; eauto.
  - clear. induction pad; constructor; auto.
Qed.
