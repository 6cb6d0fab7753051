(** Proofs: Unmarshal reads exactly the JSON texts. *)
From Coq Require Import Ascii.
From Verif Require Import Prelude Value BaseSpec PathMatch PathMatchSpec PathUtf8 Encoding
  JsonSpec JsonFacts JsonSafe Payload Json JsonRound JsonGrammar JsonNumber.

Local Open Scope string_scope.
Local Open Scope N_scope.

(** * Strings *)

Lemma hex_value_val c : hex_value c = hex_val c.
Proof. destruct c as [[] [] [] [] [] [] [] []]; reflexivity. Qed.
Lemma hex4_four h r s : hex4 h r -> four_hex (h ++ s) = Some r.
Proof.
  intros [a b c d w x y z Ha Hb Hc Hd]. rewrite hex_value_val in Ha, Hb, Hc, Hd.
  change (four_hex (String a (String b (String c (String d s)))) = Some (w * 4096 + x * 256 + y * 16 + z)). unfold four_hex. by rewrite Ha, Hb, Hc, Hd.
Qed.
Lemma four_hex_inv s r : four_hex s = Some r -> exists h, hex4 h r /\ s = h ++ sdrop 4 s.
Proof.
  destruct s as [|a [|b [|c [|d s]]]]; try done. cbn [four_hex].
  destruct (hex_val a) as [w|] eqn:Ha; [|done]. destruct (hex_val b) as [x|] eqn:Hb; [|done].
  destruct (hex_val c) as [y|] eqn:Hc; [|done]. destruct (hex_val d) as [z|] eqn:Hd; [|done]. intros [= <-].
  exists (String a (String b (String c (String d "")))). split; [|done]. constructor; by rewrite hex_value_val.
Qed.
Lemma hex4_length h r : hex4 h r -> String.length h = 4%nat.
Proof. by intros []. Qed.
Lemma hex4_bound h r : hex4 h r -> r < 65536.
Proof.
  assert (B : forall c v, hex_value c = Some v -> v < 16).
  { intros c v. unfold hex_value, between. repeat case_match; intros [= <-];
      repeat match goal with H : _ && _ = true |- _ => apply andb_true_iff in H as [?%N.leb_le ?%N.leb_le] end; lia. }
  intros [a b c d w x y z Ha Hb Hc Hd]. apply B in Ha, Hb, Hc, Hd. lia.
Qed.
Lemma scalar_or r : r < 65536 -> scalar r \/ high r \/ low r.
Proof. unfold scalar, high, low. lia. Qed.

Lemma unquote_short c y s x r : short_escape c = Some y -> unquote 0 s = Some (x, r) ->
  unquote 0 ("\" ++ String c s) = Some (y ++ x, r).
Proof.
  intros H U. change ("\" ++ String c s) with (String "\" (String c s)).
  destruct c as [[] [] [] [] [] [] [] []]; try discriminate H; injection H as <-; cbn; rewrite U; reflexivity.
Qed.

(** The step at an escape of four digits. *)
Lemma unquote_u s : unquote 0 ("\u" ++ s) =
  match four_hex s with
  | None => None
  | Some r =>
      if (55296 <=? r) && (r <? 57344) then
        match getu4 (sdrop 4 s) with
        | Some r1 =>
            if (r <? 56320) && (56320 <=? r1) && (r1 <? 57344)
            then prepend (append_rune (65536 + (r - 55296) * 1024 + (r1 - 56320))) (unquote 10 s)
            else prepend (append_rune rune_error) (unquote 4 s)
        | None => prepend (append_rune rune_error) (unquote 4 s)
        end
      else prepend (append_rune r) (unquote 4 s)
  end.
Proof. reflexivity. Qed.

Lemma fffd_rune : append_rune rune_error = utf8 65533.
Proof. reflexivity. Qed.

(** A run that ends with the quotation mark. *)
Definition unquotes (b x : string) : Prop := forall r, unquote 0 (b ++ String """" r) = Some (x, r).

Lemma getu4_inv s r : getu4 s = Some r -> exists h s', s = "\u" ++ h ++ s' /\ hex4 h r /\ sdrop 6 s = s'.
Proof.
  destruct s as [|a [|b s]]; try done. cbn [getu4]. destruct (N.eqb_spec (byte a) 92) as [E1|]; [|done].
  destruct (N.eqb_spec (byte b) 117) as [E2|]; [|done]. cbn [andb]. intros H. apply four_hex_inv in H as (h & Hh & E).
  exists h, (sdrop 4 s). split; [|done].
  assert (a = "\"%char) as ->. { rewrite <- (ascii_N_embedding a). change (N_of_ascii a) with (byte a). by rewrite E1. }
  assert (b = "u"%char) as ->. { rewrite <- (ascii_N_embedding b). change (N_of_ascii b) with (byte b). by rewrite E2. }
  change ("\u" ++ h ++ sdrop 4 s) with (String "\" (String "u" (h ++ sdrop 4 s))). by rewrite <- E.
Qed.
(** What [getu4] sees of a run lies before the quotation mark. *)
Lemma hex4_before h r s s' t : hex4 h r -> s ++ String """" t = h ++ s' -> exists s1, s = h ++ s1.
Proof.
  intros [a b c d w x y z Ha Hb Hc Hd] E.
  destruct s as [|a1 s]; [injection E as <- _; discriminate Ha|]. injection E as -> E.
  destruct s as [|a1 s]; [injection E as <- _; discriminate Hb|]. injection E as -> E.
  destruct s as [|a1 s]; [injection E as <- _; discriminate Hc|]. injection E as -> E.
  destruct s as [|a1 s]; [injection E as <- _; discriminate Hd|]. injection E as -> E.
  by exists s.
Qed.
Lemma escape_before h r s s' t : hex4 h r -> s ++ String """" t = "\u" ++ h ++ s' -> exists s1, s = "\u" ++ h ++ s1.
Proof.
  intros H E. destruct s as [|a s]; [discriminate E|]. injection E as -> E. destruct s as [|b s]; [discriminate E|].
  injection E as -> E. destruct (hex4_before h r s s' t H E) as [s1 ->]. by exists s1.
Qed.
Lemma utf8_before r s s' t : scalar r -> s <> "" -> s ++ String """" t = utf8 r ++ s' ->
  exists s1, s = utf8 r ++ s1.
Proof.
  intros Hr Hne. unfold utf8. assert (Q : forall n, 128 <= n < 256 -> """"%char <> octet n).
  { intros n Hn C. apply (f_equal byte_of) in C. rewrite octet_val in C by lia. change (byte_of """") with 34 in C. lia. }
  destruct Hr as [Hr _].
  destruct s as [|a s]; [done|]. 
  assert (M : forall k, 128 <= 128 + k mod 64 < 256) by (intros k; pose proof (N.mod_lt k 64); lia).
  repeat case_match; intros E; injection E as -> E.
  - by exists s.
  - destruct s as [|b s]; [injection E as E _; by apply Q in E|]. injection E as -> E. by exists s.
  - destruct s as [|b s]; [injection E as E _; by apply Q in E|]. injection E as -> E.
    destruct s as [|b s]; [injection E as E _; by apply Q in E|]. injection E as -> E. by exists s.
  - destruct s as [|b s]; [injection E as E _; by apply Q in E|]. injection E as -> E.
    destruct s as [|b s]; [injection E as E _; by apply Q in E|]. injection E as -> E.
    destruct s as [|b s]; [injection E as E _; by apply Q in E|]. injection E as -> E. by exists s.
Qed.

Lemma sdrop_hex h r s : hex4 h r -> sdrop 4 (h ++ s) = s.
Proof. by intros []. Qed.
Lemma unquote_prefix a k s : String.length a = k -> unquote k (a ++ s) = unquote 0 s.
Proof. intros <-. apply unquote_skip. Qed.
Lemma unquote_plain r s : scalar r -> 32 <= r -> r <> 34 -> r <> 92 ->
  unquote 0 (utf8 r ++ s) = prepend (utf8 r) (unquote 0 s).
Proof.
  intros Hr H1 H2 H3. destruct (N.le_gt_cases 128 r) as [C|C]; [by apply ureads_high|].
  unfold utf8. destruct (N.ltb_spec r 128); [|lia]. change (String (octet r) "" ++ s) with (String (octet r) s). cbn [unquote].
  assert (B : byte (octet r) = r) by (apply octet_val; lia). rewrite B.
  destruct (N.eqb_spec r 34); [lia|]. destruct (N.eqb_spec r 92); [lia|]. destruct (N.ltb_spec r 32); [lia|].
  destruct (N.ltb_spec r 128); [|lia]. reflexivity.
Qed.
Lemma unquote_broken c s : (forall r s', scalar r -> String c s <> utf8 r ++ s') ->
  unquote 0 (String c s) = prepend (utf8 65533) (unquote 0 s).
Proof.
  intros Bad. destruct (decode_inv (String c s)) as [(r & rest & Hr & E & _)|[D _]]; [done|by destruct (Bad r rest Hr)|].
  assert (128 <= byte c).
  { destruct (N.leb_spec 128 (byte c)); [done|]. exfalso. apply (Bad (byte c) s).
    - unfold scalar. lia.
    - unfold utf8. destruct (N.ltb_spec (byte c) 128); [|lia]. unfold octet, byte. by rewrite ascii_N_embedding. }
  cbn [unquote]. destruct (N.eqb_spec (byte c) 34); [lia|]. destruct (N.eqb_spec (byte c) 92); [lia|].
  destruct (N.ltb_spec (byte c) 32); [lia|]. destruct (N.ltb_spec (byte c) 128); [lia|]. by rewrite D.
Qed.

Lemma jchars_unquote b x : jchars true b x -> unquotes b x.
Proof.
  induction 1 as [|r s x Hr H1 H2 H3 H IH|c y s x Hc H IH|h r s x Hh Hr H IH|h1 r1 h2 r2 s x Hh1 Hh2 R1 R2 H IH
    |h r s x _ Hh Hr Hn H IH|c s x _ Bad H IH]; intros t.
  - reflexivity.
  - rewrite sapp_assoc, unquote_plain by done. by rewrite IH.
  - change (("\" ++ String c s) ++ String """" t) with ("\" ++ String c (s ++ String """" t)).
    apply unquote_short; [done|apply IH].
  - rewrite !sapp_assoc, unquote_u, (hex4_four h r) by done. pose proof (hex4_length h r Hh) as L.
    assert ((55296 <=? r) && (r <? 57344) = false) as ->.
    { destruct Hr as [_ Hr]. destruct (N.leb_spec 55296 r), (N.ltb_spec r 57344); try done. lia. }
    rewrite <- L, unquote_skip, IH. cbn [prepend]. by rewrite append_rune_utf8.
  - rewrite !sapp_assoc, unquote_u, (hex4_four h1 r1) by done. pose proof (hex4_length _ _ Hh1) as L1. pose proof (hex4_length _ _ Hh2) as L2.
    unfold high, low in *. destruct (N.leb_spec 55296 r1); [|lia]. destruct (N.ltb_spec r1 57344); [|lia]. cbn [andb].
    rewrite (sdrop_hex h1 r1) by done. change (getu4 ("\u" ++ h2 ++ s ++ String """" t)) with (four_hex (h2 ++ s ++ String """" t)).
    rewrite (hex4_four h2 r2) by done.
    destruct (N.ltb_spec r1 56320); [|lia]. destruct (N.leb_spec 56320 r2); [|lia]. destruct (N.ltb_spec r2 57344); [|lia]. cbn [andb].
    assert (E : h1 ++ "\u" ++ h2 ++ s ++ String """" t = (h1 ++ "\u" ++ h2) ++ s ++ String """" t) by (by rewrite !sapp_assoc).
    rewrite E. assert (L : String.length (h1 ++ "\u" ++ h2) = 10%nat) by (rewrite !slength_app, L1, L2; done).
    rewrite (unquote_prefix _ 10) by done. rewrite IH. cbn [prepend]. rewrite append_rune_utf8; [done|]. unfold scalar. lia.
  - rewrite !sapp_assoc, unquote_u, (hex4_four h r) by done. pose proof (hex4_length h r Hh) as L.
    unfold high, low in *. destruct (N.leb_spec 55296 r); [|lia]. destruct (N.ltb_spec r 57344); [|lia]. cbn [andb].
    assert (U : unquote 4 (h ++ s ++ String """" t) = Some (x, t)) by (rewrite <- L, unquote_skip; apply IH).
    rewrite (sdrop_hex h r), U by done.
    destruct (getu4 (s ++ String """" t)) as [r1|] eqn:G; [|done].
    destruct ((r <? 56320) && (56320 <=? r1) && (r1 <? 57344)) eqn:C; [|done]. exfalso. apply Hn.
    apply andb_true_iff in C as [[C1%N.ltb_lt C2%N.leb_le]%andb_true_iff C3%N.ltb_lt]. split; [lia|].
    apply getu4_inv in G as (h2 & s' & E & Hh2 & _). destruct (escape_before h2 r1 s s' t Hh2 E) as [s1 ->]. eauto 10.
  - change (String c s ++ String """" t) with (String c (s ++ String """" t)). rewrite unquote_broken; [by rewrite IH|].
    intros r s' Hr E. destruct (utf8_before r (String c s) s' t Hr) as [s1 E1]; [done|done|]. by apply (Bad r s1 Hr).
Qed.

Lemma prepend_inv x k s y r : prepend x (unquote k s) = Some (y, r) -> exists y', unquote k s = Some (y', r) /\ y = x ++ y'.
Proof. destruct (unquote k s) as [[y' r']|]; [|done]. cbn. intros [= <- <-]. eauto. Qed.
Lemma unquote_chars n : forall s x r, (String.length s <= n)%nat -> unquote 0 s = Some (x, r) ->
  exists b, s = b ++ String """" r /\ jchars true b x.
Proof.
  induction n as [|n IH]; intros s x r Hl; [by destruct s; [|cbn in Hl; lia]|]. destruct s as [|c s]; [done|].
  cbn [String.length] in Hl.
  destruct (N.eqb_spec (byte c) 34) as [Ec|Nc].
  { cbn [unquote]. rewrite Ec. change (34 =? 34) with true. cbv iota. intros [= <- <-]. exists "".
    assert (c = """"%char) as ->. { rewrite <- (ascii_N_embedding c). change (N_of_ascii c) with (byte c). by rewrite Ec. }
    split; [done|constructor]. }
  destruct (N.eqb_spec (byte c) 92) as [Ec|Nc2].
  { assert (c = "\"%char) as ->. { rewrite <- (ascii_N_embedding c). change (N_of_ascii c) with (byte c). by rewrite Ec. }
    destruct s as [|e s2]; [done|]. cbn [String.length] in Hl.
    destruct (short_escape e) as [y|] eqn:SE.
    { intros U. assert (exists x', unquote 0 s2 = Some (x', r) /\ x = y ++ x') as (x' & U' & ->).
      { destruct e as [[] [] [] [] [] [] [] []]; try discriminate SE; injection SE as <-; by apply prepend_inv in U. }
      apply IH in U' as (b & -> & J); [|lia]. exists ("\" ++ String e b). split; [done|]. by constructor. }
    destruct (N.eqb_spec (byte e) 117) as [Ee|Ne].
    2:{ intros U. exfalso. destruct e as [[] [] [] [] [] [] [] []]; try discriminate SE; try discriminate U; by apply Ne. }
    assert (e = "u"%char) as ->. { rewrite <- (ascii_N_embedding e). change (N_of_ascii e) with (byte e). by rewrite Ee. }
    change (String "\" (String "u" s2)) with ("\u" ++ s2). rewrite unquote_u.
    destruct (four_hex s2) as [r1|] eqn:F; [|done]. apply four_hex_inv in F as (h & Hh & E). pose proof (hex4_length h r1 Hh) as L.
    set (s4 := sdrop 4 s2) in *. clearbody s4. subst s2. rewrite slength_app in Hl. rewrite (unquote_prefix h 4) by done.
    destruct ((55296 <=? r1) && (r1 <? 57344)) eqn:Sur.
    - apply andb_true_iff in Sur as [S1%N.leb_le S2%N.ltb_lt].
      assert (Half : ~ (high r1 /\ exists h2 r2 s', s4 = "\u" ++ h2 ++ s' /\ hex4 h2 r2 /\ low r2) ->
        prepend (append_rune rune_error) (unquote 0 s4) = Some (x, r) ->
        exists b, "\u" ++ h ++ s4 = b ++ String """" r /\ jchars true b x).
      { intros Hn U. apply prepend_inv in U as (x' & U & ->). apply IH in U as (b & -> & J); [|lia].
        exists ("\u" ++ h ++ b). split; [by rewrite !sapp_assoc|]. rewrite fffd_rune. apply (jc_half true h r1); [done|done|unfold high, low; lia| |done].
        intros (Hi & h2 & r2 & s' & -> & Hh2 & Hlo). apply Hn. split; [done|]. exists h2, r2, (s' ++ String """" r).
        split; [by rewrite !sapp_assoc|done]. }
      destruct (getu4 s4) as [r2|] eqn:G.
      + destruct ((r1 <? 56320) && (56320 <=? r2) && (r2 <? 57344)) eqn:C.
        * clear Half. apply andb_true_iff in C as [[C1%N.ltb_lt C2%N.leb_le]%andb_true_iff C3%N.ltb_lt].
          apply getu4_inv in G as (h2 & s' & -> & Hh2 & _). intros U. apply prepend_inv in U as (x' & U & ->).
          assert (Eq : h ++ "\u" ++ h2 ++ s' = (h ++ "\u" ++ h2) ++ s') by (by rewrite !sapp_assoc).
          rewrite Eq, (unquote_prefix (h ++ "\u" ++ h2)) in U by (rewrite !slength_app, L, (hex4_length h2 r2 Hh2); done).
          apply IH in U as (b & -> & J); [|rewrite !slength_app in Hl; lia].
          exists ("\u" ++ h ++ "\u" ++ h2 ++ b). split; [by rewrite !sapp_assoc|].
          rewrite append_rune_utf8 by (unfold scalar; lia). apply jc_pair; (done || unfold high, low; lia).
        * intros U. apply Half; [|done]. intros (Hi & h2 & r2' & s' & -> & Hh2 & Hlo).
          change (getu4 ("\u" ++ h2 ++ s')) with (four_hex (h2 ++ s')) in G. rewrite (hex4_four h2 r2') in G by done. injection G as <-.
          unfold high, low in *. destruct (N.ltb_spec r1 56320); [|lia]. destruct (N.leb_spec 56320 r2'); [|lia].
          destruct (N.ltb_spec r2' 57344); [|lia]. done.
      + intros U. apply Half; [|done]. intros (Hi & h2 & r2' & s' & -> & Hh2 & Hlo).
        change (getu4 ("\u" ++ h2 ++ s')) with (four_hex (h2 ++ s')) in G. by rewrite (hex4_four h2 r2') in G.
    - intros U. apply prepend_inv in U as (x' & U & ->). apply IH in U as (b & -> & J); [|lia].
      exists ("\u" ++ h ++ b). split; [by rewrite !sapp_assoc|].
      assert (Hs : scalar r1). { pose proof (hex4_bound h r1 Hh). unfold scalar. destruct (N.leb_spec 55296 r1), (N.ltb_spec r1 57344); try done; lia. }
      rewrite append_rune_utf8 by done. by apply jc_unicode. }
  destruct (decode_inv (String c s)) as [(r1 & rest & Hr & E & _)|[_ Bad]]; [done| |].
  - destruct (N.ltb_spec (byte c) 32) as [C32|C32].
    { cbn [unquote]. destruct (N.eqb_spec (byte c) 34); [lia|]. destruct (N.eqb_spec (byte c) 92); [lia|].
      destruct (N.ltb_spec (byte c) 32); [done|lia]. }
    assert (P : 32 <= r1 /\ r1 <> 34 /\ r1 <> 92) by (destruct (utf8_first r1 c s rest Hr E) as [(_ & -> & _)|(L1 & _)]; lia).
    destruct P as (P1 & P2 & P3). rewrite E. rewrite unquote_plain by done. intros U. apply prepend_inv in U as (x' & U & ->).
    assert (0 < String.length (utf8 r1))%nat by (unfold utf8; repeat case_match; cbn; lia).
    apply (f_equal String.length) in E. rewrite slength_app in E. cbn in E.
    apply IH in U as (b & -> & J); [|lia]. exists (utf8 r1 ++ b). split; [by rewrite sapp_assoc|]. by constructor.
  - rewrite unquote_broken by done. intros U. apply prepend_inv in U as (x' & U & ->). apply IH in U as (b & -> & J); [|lia].
    exists (String c b). split; [done|]. apply jc_broken; [done| |done]. intros r1 s' Hr E. apply (Bad r1 (s' ++ String """" r) Hr).
    change (String c (b ++ String """" r)) with (String c b ++ String """" r). by rewrite E, sapp_assoc.
Qed.

(** * Numbers *)

Definition digit (c : ascii) : bool := between 48 57 c.
Definition no_digit (s : string) : Prop := forall c r, s = String c r -> digit c = false.
Definition numeral_from (n : N) (s : string) : N := fold_left (fun n c => n * 10 + (code c - 48)) (letters s) n.
Lemma letters_app a b : letters (a ++ b) = (letters a ++ letters b)%list.
Proof. induction a as [|c a IH]; [done|]. change (c :: letters (a ++ b) = c :: (letters a ++ letters b)%list). by rewrite IH. Qed.
Lemma numeral_from_app n a b : numeral_from n (a ++ b) = numeral_from (numeral_from n a) b.
Proof. unfold numeral_from. by rewrite letters_app, fold_left_app. Qed.
Lemma digits_run d : all_digits d -> forall n k r, no_digit r ->
  digits n k (d ++ r) = (numeral_from n d, k + N.of_nat (String.length d), r).
Proof.
  induction d as [|c d IH]; intros Hd n k r Hr.
  - change ("" ++ r) with r. destruct r as [|c r]; cbn [digits].
    + cbn. f_equal. f_equal. lia.
    + specialize (Hr c r eq_refl). unfold digit, between in Hr. change (code c) with (byte c) in Hr. rewrite Hr. cbn. f_equal. f_equal. lia.
  - apply Forall_cons in Hd as [Hc Hd]. change (String c d ++ r) with (String c (d ++ r)). cbn [digits].
    unfold between in Hc. change (code c) with (byte c) in Hc. rewrite Hc, IH by done. cbn [String.length].
    f_equal. f_equal. lia.
Qed.
Lemma digits_inv s : forall n k n' k' r, digits n k s = (n', k', r) ->
  exists d, s = d ++ r /\ all_digits d /\ n' = numeral_from n d /\ k' = k + N.of_nat (String.length d) /\ no_digit r.
Proof.
  induction s as [|c s IH]; intros n k n' k' r; cbn [digits].
  - intros [= <- <- <-]. exists "". split; [done|]. split; [constructor|]. split; [done|]. split; [cbn; lia|done].
  - destruct ((48 <=? byte c) && (byte c <=? 57)) eqn:C.
    + intros D. apply IH in D as (d & -> & Hd & -> & -> & Hr). exists (String c d). split; [done|].
      split; [by constructor|]. split; [done|]. split; [cbn [String.length]; lia|done].
    + intros [= <- <- <-]. exists "". split; [done|]. split; [constructor|]. split; [done|]. split; [cbn; lia|].
      intros c' r' [= <- <-]. exact C.
Qed.

(** What follows a value. *)
Definition ends (s : string) : Prop :=
  s = "" \/ exists c r, s = String c r /\ (is_space c = true \/ byte c = 44 \/ byte c = 93 \/ byte c = 125).
Lemma ends_next c r : ends (String c r) -> digit c = false /\ (byte c =? 46) = false /\ (byte c =? 101) = false /\ (byte c =? 69) = false.
Proof.
  intros [?|(c' & r' & [= <- <-] & H)]; [done|]. unfold is_space in H. unfold digit, between. change (code c) with (byte c).
  assert (byte c = 32 \/ byte c = 9 \/ byte c = 10 \/ byte c = 13 \/ byte c = 44 \/ byte c = 93 \/ byte c = 125) as E.
  { rewrite !orb_true_iff, !N.eqb_eq in H. tauto. }
  repeat (destruct E as [E|E]; [rewrite E; done|]). rewrite E. done.
Qed.
Lemma ends_no_digit s : ends s -> no_digit s.
Proof. intros H c r ->. by apply ends_next in H as [H _]. Qed.

(** [read_number] in four steps. *)
Definition sign_of (s : string) : bool * string :=
  match s with
  | String c s' => if byte c =? 45 then (true, s') else (false, s)
  | EmptyString => (false, s)
  end.
Definition whole_of (s : string) : option (N * string) :=
  match s with
  | String c s' =>
      if byte c =? 48 then Some (0, s')
      else if (49 <=? byte c) && (byte c <=? 57) then let '(n, _, r) := digits 0 0 s in Some (n, r)
      else None
  | EmptyString => None
  end.
Definition fraction_of (n : N) (s : string) : option (N * N * string) :=
  match s with
  | String c s' =>
      if byte c =? 46 then
        let '(n', k, r) := digits n 0 s' in if k =? 0 then None else Some (n', k, r)
      else Some (n, 0, s)
  | EmptyString => Some (n, 0, s)
  end.
Definition exponent_sign (s' : string) : bool * string :=
  match s' with
  | String c' s2 => if byte c' =? 45 then (true, s2)
                    else if byte c' =? 43 then (false, s2) else (false, s')
  | EmptyString => (false, s')
  end.
Definition exponent_part (s : string) : option (Z * string) :=
  match s with
  | String c s' =>
      if (byte c =? 101) || (byte c =? 69) then
        let '(eneg, s') := exponent_sign s' in
        let '(x, j, r) := digits 0 0 s' in
        if j =? 0 then None else Some ((if eneg then - Z.of_N x else Z.of_N x)%Z, r)
      else Some (0%Z, s)
  | EmptyString => Some (0%Z, s)
  end.
Lemma read_number_eq s : read_number s =
  let '(neg, s) := sign_of s in
  match whole_of s with
  | None => None
  | Some (n, s) =>
      match fraction_of n s with
      | None => None
      | Some (n, k, s) =>
          match exponent_part s with
          | None => None
          | Some (x, s) =>
              match value_of n (x - Z.of_N k) with Some f => Some (negate neg f, s) | None => None end
          end
      end
  end.
Proof. reflexivity. Qed.

Lemma code_char c d : code c = code d -> c = d.
Proof. intros H. rewrite <- (ascii_N_embedding c), <- (ascii_N_embedding d). unfold code in H. by rewrite H. Qed.
Lemma digit_code_bounds c : between 48 57 c = true <-> 48 <= byte c <= 57.
Proof. unfold between. change (code c) with (byte c). rewrite andb_true_iff, N.leb_le, N.leb_le. done. Qed.

Lemma whole_run w r : all_digits w -> w <> "" -> (forall s, w = String "0" s -> s = "") -> no_digit r ->
  whole_of (w ++ r) = Some (numeral w, r).
Proof.
  intros Hd Hne H0 Hr. destruct w as [|c w]; [done|]. change (String c w ++ r) with (String c (w ++ r)). cbn [whole_of].
  pose proof Hd as [Hc _]%Forall_cons. apply digit_code_bounds in Hc.
  destruct (N.eqb_spec (byte c) 48) as [E|E].
  - assert (c = "0"%char) as -> by (by apply code_char). rewrite (H0 w eq_refl). done.
  - destruct (N.leb_spec 49 (byte c)); [|lia]. destruct (N.leb_spec (byte c) 57); [|lia]. cbn [andb].
    change (String c (w ++ r)) with (String c w ++ r). rewrite digits_run by done. done.
Qed.
Lemma whole_inv s n r : whole_of s = Some (n, r) ->
  exists w, s = w ++ r /\ all_digits w /\ w <> "" /\ (forall s, w = String "0" s -> s = "") /\ n = numeral w.
Proof.
  destruct s as [|c s]; [done|]. cbn [whole_of]. destruct (N.eqb_spec (byte c) 48) as [E|E].
  - intros [= <- <-]. assert (c = "0"%char) as -> by (by apply code_char). exists "0". split; [done|].
    split; [repeat constructor|]. split; [done|]. split; [|done]. by intros s' [= <-].
  - destruct (N.leb_spec 49 (byte c)); [|done]. destruct (N.leb_spec (byte c) 57); [|done]. cbn [andb].
    destruct (digits 0 0 (String c s)) as [[n' k'] r'] eqn:D. intros [= <- <-].
    apply digits_inv in D as (d & Es & Hd & -> & _ & Hr). exists d. split; [done|]. split; [done|].
    assert (d <> "").
    { intros ->. change ("" ++ r') with r' in Es. specialize (Hr c s (eq_sym Es)).
      assert (digit c = true) by (apply digit_code_bounds; lia). congruence. }
    split; [done|]. split; [|done]. intros s' ->. injection Es as -> _. done.
Qed.
Lemma numeral_app a b : numeral_from (numeral a) b = numeral (a ++ b).
Proof. symmetry. exact (numeral_from_app 0 a b). Qed.
Lemma fraction_run w f d r : jfraction f d -> no_digit r -> (forall c s, r = String c s -> byte c <> 46) ->
  fraction_of (numeral w) (f ++ r) = Some (numeral (w ++ d), N.of_nat (String.length d), r).
Proof.
  intros [|s Hs Hne] Hr H46.
  - change ("" ++ r) with r. rewrite sapp_nil. destruct r as [|c r]; [done|]. cbn [fraction_of].
    destruct (N.eqb_spec (byte c) 46); [by destruct (H46 c r)|done].
  - change (("." ++ s) ++ r) with (String "." (s ++ r)). cbn [fraction_of]. change (byte "." =? 46) with true. cbv iota.
    rewrite digits_run by done. destruct s as [|c s]; [done|].
    destruct (N.eqb_spec (0 + N.of_nat (String.length (String c s))) 0) as [C|C]; [cbn [String.length] in C; lia|].
    rewrite numeral_app. done.
Qed.
Lemma fraction_inv w s n k r : fraction_of (numeral w) s = Some (n, k, r) ->
  exists f d, s = f ++ r /\ jfraction f d /\ n = numeral (w ++ d) /\ k = N.of_nat (String.length d).
Proof.
  assert (None_ : forall s, exists f d, s = f ++ s /\ jfraction f d /\ numeral w = numeral (w ++ d) /\ 0 = N.of_nat (String.length d)).
  { intros s'. exists "", "". rewrite sapp_nil. split; [done|]. split; [constructor|done]. }
  destruct s as [|c s]; cbn [fraction_of]; [intros [= <- <- <-]; apply None_|].
  destruct (N.eqb_spec (byte c) 46) as [E|E]; [|intros [= <- <- <-]; apply None_].
  destruct (digits (numeral w) 0 s) as [[n' k'] r'] eqn:D. apply digits_inv in D as (d & -> & Hd & -> & -> & Hr).
  destruct (N.eqb_spec (0 + N.of_nat (String.length d)) 0) as [|C]; [done|]. intros [= <- <- <-].
  assert (c = "."%char) as -> by (by apply code_char). exists ("." ++ d), d. split; [done|].
  split; [constructor; [done|by intros ->]|]. split; [by rewrite numeral_app|done].
Qed.
Lemma exponent_run e x r : jexponent e x -> ends r -> exponent_part (e ++ r) = Some (x, r).
Proof.
  intros H He. pose proof (ends_no_digit r He) as Hr.
  assert (S : forall s, all_digits s -> s <> "" -> exponent_sign (s ++ r) = (false, s ++ r)
     /\ digits 0 0 (s ++ r) = (numeral s, N.of_nat (String.length s), r) /\ (N.of_nat (String.length s) =? 0) = false).
  { intros s Hs Hne. split; [|split].
    - destruct s as [|c s]; [done|]. apply Forall_cons in Hs as [Hc _]. apply digit_code_bounds in Hc.
      change (String c s ++ r) with (String c (s ++ r)). cbn [exponent_sign].
      destruct (N.eqb_spec (byte c) 45); [lia|]. destruct (N.eqb_spec (byte c) 43); [lia|]. done.
    - rewrite digits_run by done. done.
    - destruct s; [done|]. apply N.eqb_neq. cbn. lia. }
  destruct H as [|e p s Hin Hp Hs Hne|e s Hin Hs Hne].
  - change ("" ++ r) with r. destruct r as [|c r]; [done|]. cbn [exponent_part]. apply ends_next in He as (_ & _ & -> & ->). done.
  - destruct (S s Hs Hne) as (S1 & S2 & S3).
    assert (E : exists c, e = String c "" /\ (byte c =? 101) || (byte c =? 69) = true).
    { rewrite !elem_of_cons, elem_of_nil in Hin. destruct Hin as [->|[->|[]]]; eexists; split; reflexivity. }
    destruct E as (c & -> & Ec). rewrite !sapp_assoc. change (String c "" ++ p ++ s ++ r) with (String c (p ++ s ++ r)).
    cbn [exponent_part]. rewrite Ec.
    assert (exponent_sign (p ++ s ++ r) = (false, s ++ r)) as ->.
    { rewrite !elem_of_cons, elem_of_nil in Hp. destruct Hp as [->|[->|[]]]; [exact S1|reflexivity]. }
    rewrite S2, S3. done.
  - destruct (S s Hs Hne) as (S1 & S2 & S3).
    assert (E : exists c, e = String c "" /\ (byte c =? 101) || (byte c =? 69) = true).
    { rewrite !elem_of_cons, elem_of_nil in Hin. destruct Hin as [->|[->|[]]]; eexists; split; reflexivity. }
    destruct E as (c & -> & Ec). rewrite !sapp_assoc. change (String c "" ++ "-" ++ s ++ r) with (String c (String "-" (s ++ r))).
    cbn [exponent_part]. rewrite Ec. change (exponent_sign (String "-" (s ++ r))) with (true, s ++ r). cbv iota beta.
    rewrite S2, S3. done.
Qed.
Lemma exponent_inv s x r : exponent_part s = Some (x, r) -> exists e, s = e ++ r /\ jexponent e x.
Proof.
  destruct s as [|c s]; cbn [exponent_part]; [intros [= <- <-]; exists ""; split; [done|constructor]|].
  destruct ((byte c =? 101) || (byte c =? 69)) eqn:Ec; [|intros [= <- <-]; exists ""; split; [done|constructor]].
  assert (E : String c "" ∈ ["e"; "E"]).
  { rewrite !elem_of_cons. destruct (N.eqb_spec (byte c) 101); [left|].
    - f_equal. by apply code_char.
    - right. left. f_equal. apply code_char. cbn in Ec. by apply N.eqb_eq in Ec. }
  assert (S : exists eneg p s', exponent_sign s = (eneg, s') /\ s = p ++ s' /\ (if eneg then p = "-" else p ∈ [""; "+"])).
  { destruct s as [|c' s]; cbn [exponent_sign]; [exists false, "", ""; split; [done|]; split; [done|left]|].
    destruct (N.eqb_spec (byte c') 45) as [E1|]; [exists true, "-", s; split; [done|]; split; [|done]; change ("-" ++ s) with (String "-" s); f_equal; by apply code_char|].
    destruct (N.eqb_spec (byte c') 43) as [E1|].
    - exists false, "+", s. split; [done|]. split; [|right; left]. change ("+" ++ s) with (String "+" s). f_equal. by apply code_char.
    - exists false, "", (String c' s). split; [done|]. split; [done|left]. }
  destruct S as (eneg & p & s' & -> & -> & Hp). destruct (digits 0 0 s') as [[n j] r'] eqn:D.
  apply digits_inv in D as (d & -> & Hd & -> & -> & Hr). destruct (N.eqb_spec (0 + N.of_nat (String.length d)) 0) as [|C]; [done|].
  intros [= <- <-]. exists (String c "" ++ p ++ d). split; [by rewrite !sapp_assoc|]. assert (d <> "") by (by intros ->).
  destruct eneg; [subst p; by constructor|by constructor].
Qed.

Lemma fraction_first f d c s : jfraction f d -> f = String c s -> byte c = 46.
Proof. intros [|s' _ _]; [done|]. by intros [= <- <-]. Qed.
Lemma exponent_first e x c s : jexponent e x -> e = String c s -> byte c = 101 \/ byte c = 69.
Proof.
  intros [|e' p s' Hin _ _ _|e' s' Hin _ _]; [done| |]; rewrite !elem_of_cons, elem_of_nil in Hin;
    destruct Hin as [->|[->|[]]]; intros [= <- _]; (by left) || (by right).
Qed.
Lemma exponent_ends e x r : jexponent e x -> ends r -> no_digit (e ++ r) /\ forall c s, e ++ r = String c s -> byte c <> 46.
Proof.
  intros H He. destruct e as [|c e].
  - change ("" ++ r) with r. split; [by apply ends_no_digit|]. intros c s ->. apply ends_next in He as (_ & He%N.eqb_neq & _). done.
  - assert (byte c = 101 \/ byte c = 69) as E by (by eapply exponent_first).
    split; intros c' s' Es; injection Es as <- <-; [|lia].
    destruct (digit c) eqn:D; [|done]. apply digit_code_bounds in D. lia.
Qed.

Lemma number_run s neg n x r : jnumber s neg n x -> ends r ->
  read_number (s ++ r) = match value_of n x with Some f => Some (negate neg f, r) | None => None end.
Proof.
  intros [neg' w f d e x' Hw Hne H0 Hf He] Hr. rewrite read_number_eq, !sapp_assoc.
  destruct (exponent_ends e x' r He Hr) as [N1 N2].
  assert (N3 : no_digit (f ++ e ++ r)).
  { destruct f as [|c f]; [done|]. intros c' s' Es. injection Es as <- _.
    assert (byte c = 46) as E by (by eapply fraction_first). destruct (digit c) eqn:D; [|done]. apply digit_code_bounds in D. lia. }
  assert (S : sign_of ((if neg' then "-" else "") ++ w ++ f ++ e ++ r) = (neg', w ++ f ++ e ++ r)).
  { destruct neg'; [done|]. change ("" ++ w ++ f ++ e ++ r) with (w ++ f ++ e ++ r). destruct w as [|c w]; [done|].
    apply Forall_cons in Hw as [Hc _]. apply digit_code_bounds in Hc.
    change (String c w ++ f ++ e ++ r) with (String c (w ++ f ++ e ++ r)). cbn [sign_of]. destruct (N.eqb_spec (byte c) 45); [lia|done]. }
  rewrite S, whole_run, (fraction_run w f d), (exponent_run e x') by done.
  by rewrite nat_N_Z.
Qed.
Lemma number_inv s f r : read_number s = Some (f, r) ->
  exists t neg n x, s = t ++ r /\ jnumber t neg n x /\ stands_for (decimal neg n x) f.
Proof.
  rewrite read_number_eq. destruct (sign_of s) as [neg s1] eqn:S.
  assert (Es : s = (if neg then "-" else "") ++ s1).
  { destruct s as [|c s]; [by injection S as <- <-|]. cbn [sign_of] in S.
    destruct (N.eqb_spec (byte c) 45) as [E|E]; injection S as <- <-; [|done]. change ("-" ++ s) with (String "-" s). f_equal. by apply code_char. }
  destruct (whole_of s1) as [[n1 s2]|] eqn:W; [|done]. apply whole_inv in W as (w & -> & Hw & Hne & H0 & ->).
  destruct (fraction_of (numeral w) s2) as [[[n2 k] s3]|] eqn:F; [|done]. apply fraction_inv in F as (ft & d & -> & Hf & -> & ->).
  destruct (exponent_part s3) as [[x s4]|] eqn:X; [|done]. apply exponent_inv in X as (e & -> & He).
  pose proof (number_spec neg (numeral (w ++ d)) (x - Z.of_N (N.of_nat (String.length d)))) as V.
  destruct (value_of _ _) as [g|]; [|done]. intros [= <- <-].
  exists ((if neg then "-" else "") ++ w ++ ft ++ e), neg, (numeral (w ++ d)), (x - Z.of_nat (String.length d))%Z.
  split; [by rewrite Es, !sapp_assoc|]. split; [by constructor|]. by rewrite nat_N_Z in V.
Qed.
