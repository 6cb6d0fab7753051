(** Proofs: what json.Marshal wrote is read back. *)
From Coq Require Import Ascii.
From stdpp Require Import pretty.
From Verif Require Import Prelude Types PathMatch PathMatchSpec PathUtf8 Encoding EncodingFacts
  Auth AuthSpec JsonSpec.

Local Open Scope string_scope.
Local Open Scope N_scope.

Definition reads (x y : string) : Prop :=
  forall rest, read_chars (x ++ rest) = before y (read_chars rest).

Lemma before_app {A} x y (r : option (string * A)) : before (x ++ y) r = before x (before y r).
Proof. destruct r as [[s rest]|]; [|done]. cbn. by rewrite sapp_assoc. Qed.
Lemma reads_nil : reads "" "".
Proof. intros rest. change ("" ++ rest) with rest. destruct (read_chars rest) as [[x y]|]; reflexivity. Qed.
Lemma reads_app x y x' y' : reads x y -> reads x' y' -> reads (x ++ x') (y ++ y').
Proof. intros H H' rest. by rewrite sapp_assoc, H, H', before_app. Qed.

Lemma reads_escape c : byte c < 128 -> reads (json_escape (byte c)) (String c "").
Proof.
  intros H rest. destruct c as [[] [] [] [] [] [] [] []]; try discriminate H; vm_compute (json_escape _);
    cbn; reflexivity.
Qed.

Lemma reads_fffd : reads (chr 92 ++ "ufffd") (utf8 65533).
Proof. intros rest. reflexivity. Qed.
Lemma reads_lines r : r = 8232 \/ r = 8233 ->
  reads (chr 92 ++ "u202" ++ String (digit_at hex_alphabet (r mod 16)) "") (utf8 r).
Proof. intros [->| ->] rest; reflexivity. Qed.

Lemma reads_high s : Forall (fun c => 128 <= byte c) (chars s) -> reads s s.
Proof.
  induction s as [|c s IH]; [intros _; apply reads_nil|].
  intros H. inversion H as [|? ? Hc Hs]; subst.
  change (String c s) with (String c "" ++ s). apply reads_app; [|by apply IH].
  intros rest. change (String c "" ++ rest) with (String c rest). cbn [read_chars]. change (code c) with (byte c).
  destruct (N.eqb_spec (byte c) 34); [lia|]. destruct (N.eqb_spec (byte c) 92); [lia|].
  destruct (N.ltb_spec (byte c) 32); [lia|reflexivity].
Qed.

Lemma stake_app a b : stake (String.length a) (a ++ b) = a.
Proof.
  induction a as [|c a IH]; [by destruct b|].
  change (String c (stake (String.length a) (a ++ b)) = String c a). by rewrite IH.
Qed.

Lemma utf8_first r c s rest : scalar r -> String c s = utf8 r ++ rest ->
  (r < 128 /\ r = byte c /\ s = rest) \/ (128 <= r /\ 128 <= byte c).
Proof.
  intros Hr E. pose proof (decode_utf8 r rest Hr) as D. rewrite <- E in D.
  cbn [decode_rune] in D. change (byte_of c) with (byte c) in D.
  destruct (N.ltb_spec (byte c) 128) as [L|L].
  - left. injection D as D1 D2. split; [lia|]. split; [done|]. rewrite <- D1 in E. unfold utf8 in E.
    destruct (N.ltb_spec (byte c) 128); [|lia]. by injection E.
  - right. split; [|done]. destruct (N.ltb_spec r 128) as [L'|L']; [|done]. exfalso.
    unfold utf8 in E. destruct (N.ltb_spec r 128); [|lia]. injection E as -> _. unfold byte, octet in L.
    rewrite N_ascii_embedding in L; lia.
Qed.

Lemma reads_body fuel : forall s, (String.length s <= fuel)%nat ->
  exists t, repaired s t /\ reads (json_body fuel s) t.
Proof.
  induction fuel as [|fuel IH]; intros s Hs.
  { destruct s; [|cbn in Hs; lia]. exists "". split; [constructor|apply reads_nil]. }
  destruct s as [|c s]; [exists ""; split; [constructor|apply reads_nil]|].
  cbn [String.length] in Hs. cbn [json_body].
  destruct (decode_inv (String c s)) as [(r & rest & Hr & E & D)|[D Bad]]; [done| |].
  - rewrite D. cbv iota beta.
    replace (sdrop (String.length (utf8 r)) (String c s)) with rest by (rewrite E; by rewrite sdrop_app).
    assert (L : (String.length rest <= fuel)%nat).
    { assert (0 < String.length (utf8 r))%nat by (unfold utf8; repeat case_match; cbn; lia).
      apply (f_equal String.length) in E. rewrite slength_app in E. cbn in E. lia. }
    destruct (IH rest L) as (t & Ht & R). exists (utf8 r ++ t). split; [rewrite E; by constructor|].
    apply reads_app; [|done]. destruct (utf8_first r c s rest Hr E) as [(L1 & -> & _)|(L1 & L2)].
    + destruct (N.ltb_spec (byte c) 128); [|lia]. unfold utf8. destruct (N.ltb_spec (byte c) 128); [|lia].
      unfold octet. change (byte c) with (N_of_ascii c) at 2. rewrite ascii_N_embedding. by apply reads_escape.
    + destruct (N.ltb_spec (byte c) 128); [lia|].
      assert ((r =? rune_error) && (String.length (utf8 r) =? 1)%nat = false) as ->.
      { apply andb_false_iff. destruct (N.eqb_spec r rune_error) as [->|]; [right; reflexivity|by left]. }
      destruct (N.eqb_spec r 8232) as [->|]; [cbn [orb]; apply reads_lines; by left|].
      destruct (N.eqb_spec r 8233) as [->|]; [cbn [orb]; apply reads_lines; by right|]. cbn [orb].
      pose proof (decode_rune_bytes c s r (String.length (utf8 r)) D L2) as F.
      rewrite E in F |- *. rewrite stake_app in F |- *. by apply reads_high.
  - rewrite D. cbv iota beta. assert (128 <= byte c).
    { destruct (N.leb_spec 128 (byte c)); [done|]. exfalso. apply (Bad (byte c) s).
      - unfold scalar. lia.
      - unfold utf8. destruct (N.ltb_spec (byte c) 128); [|lia]. unfold octet, byte. by rewrite ascii_N_embedding. }
    destruct (N.ltb_spec (byte c) 128); [lia|]. change ((rune_error =? rune_error) && (1 =? 1)%nat) with true. cbn iota.
    cbn [sdrop]. destruct (IH s) as (t & Ht & R); [lia|]. exists (utf8 65533 ++ t). split; [by constructor|].
    apply reads_app; [apply reads_fffd|done].
Qed.

Lemma read_literal s : exists t, repaired s t /\
  forall rest, read_chars (json_body (String.length s) s ++ chr 34 ++ rest) = Some (t, rest).
Proof.
  destruct (reads_body (String.length s) s) as (t & Ht & R); [done|]. exists t. split; [done|].
  intros rest. rewrite R. change (Some (t ++ "", rest) = Some (t, rest)). by rewrite sapp_nil.
Qed.

Lemma json_string_app s rest :
  json_string s ++ rest = String """" (json_body (String.length s) s ++ chr 34 ++ rest).
Proof. unfold json_string. rewrite !sapp_assoc. reflexivity. Qed.

Lemma utf8_inj r r' s s' : scalar r -> scalar r' -> utf8 r ++ s = utf8 r' ++ s' -> r = r' /\ s = s'.
Proof.
  intros H H' E. pose proof (decode_utf8 r s H) as D. rewrite E, decode_utf8 in D by done.
  injection D as -> _. split; [done|]. by apply string_app_inv_l in E.
Qed.
Lemma repaired_fun s t t' : repaired s t -> repaired s t' -> t = t'.
Proof.
  intros H. revert t'. induction H as [|r s t Hr H IH|c s t Bad H IH]; intros t' H'.
  - inversion H' as [|r s u Hr H2 E|]; [done|]. exfalso. unfold utf8 in E; repeat case_match; discriminate E.
  - inversion H' as [E|r' s' u Hr' H2 E|c s' u Bad H2 E].
    + exfalso. unfold utf8 in E; repeat case_match; discriminate E.
    + apply utf8_inj in E as [-> ->]; [|done|done]. by rewrite (IH u).
    + exfalso. by apply (Bad r s).
  - inversion H' as [|r' s' u Hr' H2 E|c' s' u Bad' H2 E].
    + exfalso. by apply (Bad r' s').
    + by rewrite (IH u).
Qed.
Lemma text_repaired s : text s -> repaired s s.
Proof. induction 1; by constructor. Qed.
Lemma read_text s : text s ->
  forall rest, read_chars (json_body (String.length s) s ++ chr 34 ++ rest) = Some (s, rest).
Proof.
  intros H rest. destruct (read_literal s) as (t & Ht & R). rewrite R.
  by rewrite (repaired_fun s t s Ht (text_repaired s H)).
Qed.

(** Bytes of ASCII are text. *)
Lemma ascii_text s : Forall (fun c => byte c < 128) (chars s) -> text s.
Proof.
  induction s as [|c s IH]; [intros _; constructor|]. intros H. inversion H as [|? ? Hc Hs]; subst.
  replace (String c s) with (utf8 (byte c) ++ s).
  - constructor; [unfold scalar; lia|by apply IH].
  - unfold utf8. destruct (N.ltb_spec (byte c) 128); [|lia]. unfold octet, byte. by rewrite ascii_N_embedding.
Qed.
Lemma plain_text s : plain s -> text s.
Proof.
  intros H. apply ascii_text. induction H as [|c l Hc H IH]; constructor; [|done]. by apply plain_char.
Qed.

(** ** Numbers *)
Lemma pretty_go_app x : forall s rest, pretty_N_go x s ++ rest = pretty_N_go x (s ++ rest).
Proof.
  induction (N.lt_wf_0 x) as [x _ IH]; intros s rest.
  assert (x = 0 \/ 0 < x) as [->|H] by lia; [by rewrite !pretty_N_go_0|].
  rewrite (pretty_N_go_step x s), (pretty_N_go_step x (s ++ rest)) by done. rewrite IH by (apply N.div_lt; lia). reflexivity.
Qed.
Lemma digit_code d : d < 10 -> code (pretty_N_char d) = 48 + d.
Proof.
  intros H. assert (d = 0 \/ d = 1 \/ d = 2 \/ d = 3 \/ d = 4 \/ d = 5 \/ d = 6 \/ d = 7 \/ d = 8 \/ d = 9) by lia.
  repeat match goal with H : _ \/ _ |- _ => destruct H as [->|H]; [reflexivity|] end. by subst.
Qed.
Lemma read_pretty_go x : forall s, read_digits 0 (pretty_N_go x s) = read_digits x s.
Proof.
  induction (N.lt_wf_0 x) as [x _ IH]; intros s.
  assert (x = 0 \/ 0 < x) as [->|H] by lia; [by rewrite pretty_N_go_0|].
  rewrite pretty_N_go_step by done. rewrite IH by (apply N.div_lt; lia).
  cbn [read_digits]. unfold between. rewrite digit_code by lia.
  destruct (N.leb_spec 48 (48 + x mod 10)); [|lia]. destruct (N.leb_spec (48 + x mod 10) 57); [|lia].
  cbn [andb]. f_equal. lia.
Qed.
Lemma pretty_go_first x : forall s, 0 < x ->
  exists d s', 0 < d < 10 /\ pretty_N_go x s = String (pretty_N_char d) s'.
Proof.
  induction (N.lt_wf_0 x) as [x _ IH]; intros s H. rewrite pretty_N_go_step by done.
  assert (x / 10 = 0 \/ 0 < x / 10) as [E|E] by lia.
  - rewrite E, pretty_N_go_0. exists (x mod 10), s. split; [lia|done].
  - apply IH; [apply N.div_lt; lia|done].
Qed.
Lemma read_number n c rest : between 48 57 c = false ->
  read_value (pretty n ++ String c rest) = Some (JNum n, String c rest).
Proof.
  intros Hc. unfold pretty, pretty_N. destruct (decide (n = 0)) as [->|Hn]; [reflexivity|].
  rewrite pretty_go_app. change ("" ++ String c rest) with (String c rest).
  destruct (pretty_go_first n (String c rest)) as (d & s' & Hd & E); [lia|].
  assert (R : read_digits 0 (pretty_N_go n (String c rest)) = (n, String c rest)).
  { rewrite read_pretty_go. cbn [read_digits]. by rewrite Hc. }
  rewrite E in R |- *. unfold read_value. rewrite R, digit_code by lia.
  destruct (N.eqb_spec (48 + d) 34); [lia|]. destruct (N.eqb_spec (48 + d) 48); [lia|].
  unfold between. rewrite digit_code by lia.
  destruct (N.leb_spec 49 (48 + d)); [|lia]. by destruct (N.leb_spec (48 + d) 57); [|lia].
Qed.

(** ** Objects *)
Lemma read_member fuel k t v s c rest : text k -> read_value (v ++ String c rest) = Some (t, String c rest) ->
  s = json_field k v ++ String c rest -> 
  read_members (S fuel) s =
    if String.eqb (String c rest) "}" then Some [(k, t)]
    else match expect "," (String c rest) with
         | None => None
         | Some s5 => match read_members fuel s5 with Some l => Some ((k, t) :: l) | None => None end
         end.
Proof.
  intros Hk Hv ->. unfold json_field. rewrite !sapp_assoc, json_string_app.
  cbn [read_members].
  unfold expect at 1. rewrite Ascii.eqb_refl, (read_text k Hk).
  change (":" ++ v ++ String c rest) with (String ":" (v ++ String c rest)).
  unfold expect at 1. rewrite Ascii.eqb_refl, Hv. reflexivity.
Qed.
Lemma read_string s c rest : exists t, repaired s t /\
  read_value (json_string s ++ String c rest) = Some (JStr t, String c rest).
Proof.
  destruct (read_literal s) as (t & Ht & R). exists t. split; [done|].
  rewrite json_string_app. unfold read_value. change (code """" =? 34) with true. cbn iota. by rewrite R.
Qed.

Lemma challenge_reads nonce now id authid role provider ch :
  generate_cra_challenge (Some nonce) now id authid role provider = Ok ch ->
  exists a p r n t,
    read_object ch = Some
      [("authid", JStr a); ("authmethod", JStr "wampcra"); ("authprovider", JStr p);
       ("authrole", JStr r); ("nonce", JStr n); ("session", JNum id); ("timestamp", JStr t)]
    /\ repaired authid a /\ repaired provider p /\ repaired role r /\ b64_canonical n nonce
    /\ repaired now t.
Proof.
  intros [= <-].
  assert (K : forall k, Forall (fun c => byte c < 128) (chars k) -> text k) by apply ascii_text.
  pose proof (encode_canonical nonce) as Hn.
  pose proof (text_repaired _ (plain_text _ (canonical_plain _ _ Hn))) as Tn.
  set (t7 := "}"). set (m7 := json_field "timestamp" (json_string now) ++ t7).
  set (m6 := json_field "session" (pretty id) ++ String "," m7).
  set (m5 := json_field "nonce" (json_string (b64_encode nonce)) ++ String "," m6).
  set (m4 := json_field "authrole" (json_string role) ++ String "," m5).
  set (m3 := json_field "authprovider" (json_string provider) ++ String "," m4).
  set (m2 := json_field "authmethod" (json_string mWAMPCRA) ++ String "," m3).
  set (m1 := json_field "authid" (json_string authid) ++ String "," m2).
  match goal with |- context [read_object ?x] => assert (E : x = String "{" m1) end.
  { unfold m1, m2, m3, m4, m5, m6, m7, t7. cbn [String.concat].
    rewrite !sapp_assoc. reflexivity. }
  rewrite E. clear E.
  destruct (read_string authid "," m2) as (a & Ha & Ra).
  destruct (read_string mWAMPCRA "," m3) as (w & Hw & Rw).
  destruct (read_string provider "," m4) as (p & Hp & Rp).
  destruct (read_string role "," m5) as (r & Hr & Rr).
  destruct (read_string (b64_encode nonce) "," m6) as (n & Hn' & Rn).
  destruct (read_string now "}" "") as (t & Ht & Rt).
  assert (w = "wampcra") as ->.
  { apply (repaired_fun mWAMPCRA); [done|]. apply text_repaired, K. repeat constructor. }
  rewrite (repaired_fun _ _ _ Hn' Tn) in Rn. clear Hn' Tn n.
  exists a, p, r, (b64_encode nonce), t. split; [|done].
  unfold read_object. unfold expect. rewrite Ascii.eqb_refl.
  assert (L : exists f, String.length m1 = S (S (S (S (S (S (S f))))))).
  { exists (String.length m1 - 7)%nat.
    assert (8 <= String.length m1)%nat.
    { unfold m1. rewrite slength_app. unfold json_field. rewrite !slength_app.
      assert (8 = String.length (json_string "authid"))%nat as -> by reflexivity. lia. }
    lia. }
  destruct L as [f ->].
  assert (K1 : text "authid") by (apply K; repeat constructor).
  assert (K2 : text "authmethod") by (apply K; repeat constructor).
  assert (K3 : text "authprovider") by (apply K; repeat constructor).
  assert (K4 : text "authrole") by (apply K; repeat constructor).
  assert (K5 : text "nonce") by (apply K; repeat constructor).
  assert (K6 : text "session") by (apply K; repeat constructor).
  assert (K7 : text "timestamp") by (apply K; repeat constructor).
  assert (Rd : read_value (pretty id ++ String "," m7) = Some (JNum id, String "," m7)) by by apply read_number.
  rewrite (read_member _ _ _ _ m1 _ _ K1 Ra eq_refl). cbn [String.eqb Ascii.eqb Bool.eqb expect].
  rewrite (read_member _ _ _ _ m2 _ _ K2 Rw eq_refl). cbn [String.eqb Ascii.eqb Bool.eqb expect].
  rewrite (read_member _ _ _ _ m3 _ _ K3 Rp eq_refl). cbn [String.eqb Ascii.eqb Bool.eqb expect].
  rewrite (read_member _ _ _ _ m4 _ _ K4 Rr eq_refl). cbn [String.eqb Ascii.eqb Bool.eqb expect].
  rewrite (read_member _ _ _ _ m5 _ _ K5 Rn eq_refl). cbn [String.eqb Ascii.eqb Bool.eqb expect].
  rewrite (read_member _ _ _ _ m6 _ _ K6 Rd eq_refl). cbn [String.eqb Ascii.eqb Bool.eqb expect].
  rewrite (read_member _ _ _ _ m7 _ _ K7 Rt eq_refl). reflexivity.
Qed.
