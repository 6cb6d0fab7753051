(** UTF-8 decoding, for the glob matcher. *)
From Coq Require Import Ascii.
From Coq Require Import ZifyN ZifyNat.
From Verif Require Import Prelude PathMatch PathMatchSpec.

Local Open Scope string_scope.
Local Open Scope N_scope.
Ltac Zify.zify_post_hook ::= Z.div_mod_to_equations.

(** * Strings *)

Lemma sapp_nil (s : string) : s ++ "" = s.
Proof. induction s as [|c s IH]; [done|]. change (String c (s ++ "") = String c s). by rewrite IH. Qed.
Lemma sapp_assoc (a b c : string) : (a ++ b) ++ c = a ++ (b ++ c).
Proof. induction a as [|x a IH]; [done|]. change (String x ((a ++ b) ++ c) = String x (a ++ (b ++ c))). by rewrite IH. Qed.
Lemma sapp_cons c (a b : string) : String c a ++ b = String c (a ++ b).
Proof. done. Qed.
Lemma slength_app (a b : string) : String.length (a ++ b) = (String.length a + String.length b)%nat.
Proof. induction a as [|x a IH]; [done|]. rewrite sapp_cons. cbn. by rewrite IH. Qed.
Lemma sdrop_app a b : sdrop (String.length a) (a ++ b) = b.
Proof. induction a as [|x a IH]; [by destruct b|]. done. Qed.
Lemma sdrop_add n m s : sdrop (n + m) s = sdrop m (sdrop n s).
Proof.
  revert s. induction n as [|n IH]; [done|]. intros [|c s]; cbn; [by destruct m|apply IH].
Qed.
Lemma sdrop_length n s : (n <= String.length s)%nat -> exists a, s = a ++ sdrop n s /\ String.length a = n.
Proof.
  revert s. induction n as [|n IH]; intros s H.
  - exists "". by destruct s.
  - destruct s as [|c s]; cbn in H; [lia|]. destruct (IH s) as (a & E & L); [lia|].
    exists (String c a). cbn [sdrop]. rewrite sapp_cons, <- E. cbn. by rewrite L.
Qed.

(** * UTF-8 *)

Lemma octet_val n : n < 256 -> byte_of (octet n) = n.
Proof. apply N_ascii_embedding. Qed.
Lemma val_octet a n : byte_of a = n -> octet n = a.
Proof. intros <-. apply ascii_N_embedding. Qed.
Lemma byte_lt a : byte_of a < 256.
Proof. apply N_ascii_bounded. Qed.

Lemma decode_utf8 r rest : scalar r -> decode_rune (utf8 r ++ rest) = (r, String.length (utf8 r)).
Proof.
  intros [Hr Hs]. unfold utf8.
  destruct (N.ltb_spec r 128) as [H1|H1].
  { rewrite sapp_cons. cbn [decode_rune]. rewrite octet_val by lia.
    destruct (N.ltb_spec r 128); [done|lia]. }
  destruct (N.ltb_spec r 2048) as [H2|H2].
  { rewrite !sapp_cons. cbn [decode_rune]. unfold cont, in_rng, low6. rewrite !octet_val by lia.
    destruct (N.ltb_spec (192 + r / 64) 128); [lia|].
    destruct (N.leb_spec 194 (192 + r / 64)); [|lia]. destruct (N.leb_spec (192 + r / 64) 223); [|lia].
    destruct (N.leb_spec 128 (128 + r mod 64)); [|lia]. destruct (N.leb_spec (128 + r mod 64) 191); [|lia].
    cbn [andb String.length]. f_equal. lia. }
  destruct (N.ltb_spec r 65536) as [H3|H3].
  { rewrite !sapp_cons. cbn [decode_rune]. unfold cont, in_rng, low6. rewrite !octet_val by lia.
    destruct (N.ltb_spec (224 + r / 4096) 128); [lia|].
    destruct (N.leb_spec (224 + r / 4096) 223); [lia|]. rewrite andb_false_r.
    destruct (N.leb_spec 224 (224 + r / 4096)); [|lia]. destruct (N.leb_spec (224 + r / 4096) 239); [|lia].
    cbn [andb]. 
    destruct (N.eqb_spec (224 + r / 4096) 224), (N.eqb_spec (224 + r / 4096) 237);
    destruct (N.leb_spec 128 (128 + r mod 64)); try lia; destruct (N.leb_spec (128 + r mod 64) 191); try lia;
    destruct (N.leb_spec 128 (128 + r / 64 mod 64)); try lia; destruct (N.leb_spec (128 + r / 64 mod 64) 191); try lia;
    try (destruct (N.leb_spec 160 (128 + r / 64 mod 64)); try lia);
    try (destruct (N.leb_spec (128 + r / 64 mod 64) 159); try lia);
    cbn [andb String.length]; f_equal; lia. }
  assert (exists a b c d, r = 262144 * a + 4096 * b + 64 * c + d /\ b < 64 /\ c < 64 /\ d < 64
    /\ r / 262144 = a /\ r / 4096 mod 64 = b /\ r / 64 mod 64 = c /\ r mod 64 = d)
    as (a & b & c & d & Er & Hb & Hc & Hd & -> & -> & -> & ->).
  { exists (r / 262144), (r / 4096 mod 64), (r / 64 mod 64), (r mod 64).
    pose proof (N.div_mod' r 64) as D1. pose proof (N.div_mod' (r / 64) 64) as D2.
    pose proof (N.div_mod' (r / 64 / 64) 64) as D3. rewrite !N.div_div in D2, D3 by done.
    change (64 * 64 * 64) with 262144 in *. change (64 * 64) with 4096 in *.
    pose proof (N.mod_lt r 64). pose proof (N.mod_lt (r / 64) 64). pose proof (N.mod_lt (r / 4096) 64).
    repeat split; try lia. }
  assert (a <= 4) as Ha by lia. clear H1 H2.
  rewrite !sapp_cons. cbn [decode_rune]. unfold cont, in_rng, low6. rewrite !octet_val by lia.
  destruct (N.ltb_spec (240 + a) 128); [lia|].
  destruct (N.leb_spec (240 + a) 223); [lia|]. rewrite andb_false_r.
  destruct (N.leb_spec (240 + a) 239); [lia|]. rewrite andb_false_r.
  destruct (N.leb_spec 240 (240 + a)); [|lia]. destruct (N.leb_spec (240 + a) 244); [|lia].
  cbn [andb].
  destruct (N.leb_spec 128 (128 + d)); [|lia]; destruct (N.leb_spec (128 + d) 191); [|lia].
  destruct (N.leb_spec 128 (128 + c)); [|lia]; destruct (N.leb_spec (128 + c) 191); [|lia].
  assert ((240 + a) mod 8 = a) as Ea by lia.
  assert (forall x, x < 64 -> (128 + x) mod 64 = x) as Ex by (intros; lia). rewrite Ea, !Ex by assumption.
  clear Ea Ex.
  destruct (N.eqb_spec (240 + a) 240), (N.eqb_spec (240 + a) 244);
    destruct (N.leb_spec 144 (128 + b)); try lia; destruct (N.leb_spec (128 + b) 143); try lia;
    destruct (N.leb_spec 128 (128 + b)); try lia; destruct (N.leb_spec (128 + b) 191); try lia;
    cbn [andb String.length]; f_equal; lia.
Qed.

(** What a successful decoding means. *)
Lemma decode_inv s : s <> "" ->
  (exists r rest, scalar r /\ s = utf8 r ++ rest /\ decode_rune s = (r, String.length (utf8 r)))
  \/ (decode_rune s = (rune_error, 1%nat) /\ forall r rest, scalar r -> s <> utf8 r ++ rest).
Proof.
  intros Hne.
  assert ((exists r rest, scalar r /\ s = utf8 r ++ rest) \/ decode_rune s = (rune_error, 1%nat)) as H.
  { destruct s as [|a s1]; [done|]. cbn [decode_rune]. pose proof (byte_lt a) as Hlt.
    destruct (N.ltb_spec (byte_of a) 128) as [H1|H1].
    { left. exists (byte_of a), s1. split; [unfold scalar; lia|]. unfold utf8.
      destruct (N.ltb_spec (byte_of a) 128); [|lia]. by rewrite (val_octet a). }
    destruct (N.leb_spec 194 (byte_of a)) as [H2|H2], (N.leb_spec (byte_of a) 223) as [H3|H3]; cbn [andb].
    { destruct s1 as [|a1 s2]; [by right|]. unfold cont, in_rng, low6.
      destruct (N.leb_spec 128 (byte_of a1)) as [H4|H4]; [|by right].
      destruct (N.leb_spec (byte_of a1) 191) as [H5|H5]; [|by right]. cbn [andb]. left.
      set (r := byte_of a mod 32 * 64 + byte_of a1 mod 64). exists r, s2.
      assert (Hr : byte_of a = 192 + r / 64 /\ byte_of a1 = 128 + r mod 64 /\ 128 <= r < 2048) by (unfold r; lia).
      clearbody r. destruct Hr as (E1 & E2 & Hr). split; [unfold scalar; lia|]. unfold utf8.
      destruct (N.ltb_spec r 128); [lia|]. destruct (N.ltb_spec r 2048); [|lia].
      by rewrite (val_octet a), (val_octet a1). }
    2,3: destruct (N.leb_spec 224 (byte_of a)); [lia|]; destruct (N.leb_spec 240 (byte_of a)); [lia|]; by right.
    destruct (N.leb_spec 224 (byte_of a)) as [H4|H4]; [|lia].
    destruct (N.leb_spec (byte_of a) 239) as [H5|H5]; cbn [andb].
    { destruct s1 as [|a1 [|a2 s2]]; [by right..|]. unfold cont, in_rng, low6.
      set (lo := if byte_of a =? 224 then 160 else 128). set (hi := if byte_of a =? 237 then 159 else 191).
      destruct (N.leb_spec lo (byte_of a1)) as [H6|H6]; [|by right].
      destruct (N.leb_spec (byte_of a1) hi) as [H7|H7]; [|by right].
      destruct (N.leb_spec 128 (byte_of a2)) as [H8|H8]; [|by right].
      destruct (N.leb_spec (byte_of a2) 191) as [H9|H9]; [|by right]. cbn [andb]. left.
      assert (Hb1 : 128 <= byte_of a1 <= 191 /\ (byte_of a = 224 -> 160 <= byte_of a1)
                    /\ (byte_of a = 237 -> byte_of a1 <= 159)).
      { unfold lo, hi in *. destruct (N.eqb_spec (byte_of a) 224), (N.eqb_spec (byte_of a) 237); lia. }
      clear lo hi H6 H7.
      assert (exists x y z, byte_of a = 224 + x /\ byte_of a1 = 128 + y /\ byte_of a2 = 128 + z
        /\ x < 16 /\ y < 64 /\ z < 64) as (x & y & z & E1 & E2 & E3 & Hx & Hy & Hz).
      { exists (byte_of a - 224), (byte_of a1 - 128), (byte_of a2 - 128). lia. }
      rewrite E1, E2, E3 in *.
      set (r := (224 + x) mod 16 * 4096 + (128 + y) mod 64 * 64 + (128 + z) mod 64).
      assert (Er : r = x * 4096 + y * 64 + z) by (unfold r; lia). clearbody r. exists r, s2.
      assert (r / 4096 = x /\ r / 64 mod 64 = y /\ r mod 64 = z) as (Q1 & Q2 & Q3) by (split; [|split]; lia).
      split; [unfold scalar; lia|]. unfold utf8.
      destruct (N.ltb_spec r 128); [lia|]. destruct (N.ltb_spec r 2048); [lia|].
      destruct (N.ltb_spec r 65536); [|lia]. rewrite Q1, Q2, Q3.
      by rewrite (val_octet a), (val_octet a1), (val_octet a2). }
    destruct (N.leb_spec 240 (byte_of a)) as [H6|H6]; [|lia].
    destruct (N.leb_spec (byte_of a) 244) as [H7|H7]; [|by right]. cbn [andb].
    destruct s1 as [|a1 [|a2 [|a3 s2]]]; [by right..|]. unfold cont, in_rng, low6.
    set (lo := if byte_of a =? 240 then 144 else 128). set (hi := if byte_of a =? 244 then 143 else 191).
    destruct (N.leb_spec lo (byte_of a1)) as [H8|H8]; [|by right].
    destruct (N.leb_spec (byte_of a1) hi) as [H9|H9]; [|by right].
    destruct (N.leb_spec 128 (byte_of a2)) as [H10|H10]; [|by right].
    destruct (N.leb_spec (byte_of a2) 191) as [H11|H11]; [|by right].
    destruct (N.leb_spec 128 (byte_of a3)) as [H12|H12]; [|by right].
    destruct (N.leb_spec (byte_of a3) 191) as [H13|H13]; [|by right]. cbn [andb]. left.
    assert (Hb1 : 128 <= byte_of a1 <= 191 /\ (byte_of a = 240 -> 144 <= byte_of a1)
                  /\ (byte_of a = 244 -> byte_of a1 <= 143)).
    { unfold lo, hi in *. destruct (N.eqb_spec (byte_of a) 240), (N.eqb_spec (byte_of a) 244); lia. }
    clear lo hi H8 H9.
    assert (exists w x y z, byte_of a = 240 + w /\ byte_of a1 = 128 + x /\ byte_of a2 = 128 + y /\ byte_of a3 = 128 + z
      /\ w <= 4 /\ x < 64 /\ y < 64 /\ z < 64) as (w & x & y & z & E1 & E2 & E3 & E4 & Hw & Hx & Hy & Hz).
    { exists (byte_of a - 240), (byte_of a1 - 128), (byte_of a2 - 128), (byte_of a3 - 128). lia. }
    rewrite E1, E2, E3, E4 in *.
    set (r := (240 + w) mod 8 * 262144 + (128 + x) mod 64 * 4096 + (128 + y) mod 64 * 64 + (128 + z) mod 64).
    assert (Er : r = w * 262144 + x * 4096 + y * 64 + z) by (unfold r; lia). clearbody r. exists r, s2.
    assert (r / 262144 = w /\ r / 4096 mod 64 = x /\ r / 64 mod 64 = y /\ r mod 64 = z) as (Q0 & Q1 & Q2 & Q3).
    { split; [lia|]. split; [|split; lia].
      assert (r / 4096 = w * 64 + x) as -> by lia. lia. }
    split; [unfold scalar; lia|]. unfold utf8.
    destruct (N.ltb_spec r 128); [lia|]. destruct (N.ltb_spec r 2048); [lia|].
    destruct (N.ltb_spec r 65536); [lia|]. rewrite Q0, Q1, Q2, Q3.
    by rewrite (val_octet a), (val_octet a1), (val_octet a2), (val_octet a3). }
  destruct H as [(r & rest & Hr & ->)|H]; [left; exists r, rest; repeat split; try apply Hr; by apply decode_utf8|].
  right. split; [exact H|]. intros r rest Hr ->. rewrite decode_utf8 in H by exact Hr.
  injection H as -> Hl. discriminate Hl.
Qed.
