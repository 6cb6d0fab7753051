(** Proofs about method selection, WAMP-CRA, cryptosign and time stamps. *)
From Coq Require Import Ascii.
From stdpp Require Import pretty.
From Verif Require Import Prelude Value Msg Types Encoding Auth AuthSpec EncodingFacts.

Local Open Scope string_scope.
Local Open Scope N_scope.

(** * Method selection *)

Lemma find_method_spec allowed ps m u : find_method allowed ps = (m, u) ->
  (first_allowed allowed ps m) \/ (m = "" /\ Forall (fun p => p ∉ allowed) ps).
Proof.
  revert m u. induction ps as [|p ps IH]; intros m u; cbn [find_method].
  - intros [= <- <-]. right. by split.
  - destruct (bool_decide (p ∈ allowed)) eqn:E.
    + intros [= <- <-]. apply bool_decide_eq_true in E. left. by exists [], ps.
    + apply bool_decide_eq_false in E. destruct (find_method allowed ps) as [m' u'].
      intros [= <- <-]. destruct (IH _ _ eq_refl) as [(pre & post & -> & Hin & Hpre)|[-> Hall]].
      * left. exists (p :: pre), post. by repeat constructor.
      * right. by repeat constructor.
Qed.

Lemma first_allowed_fun allowed ps m m' :
  first_allowed allowed ps m -> first_allowed allowed ps m' -> m = m'.
Proof.
  intros (pre & post & -> & Hin & Hpre) (pre' & post' & E & Hin' & Hpre').
  revert pre' E Hpre'. induction Hpre as [|p pre Hp Hpre IH]; intros [|p' pre'] E Hpre'; cbn in E;
    injection E as -> E; [done| |done|].
  - by inversion Hpre'.
  - inversion Hpre'; subst. by eapply IH.
Qed.

Lemma first_allowed_none allowed ps m :
  first_allowed allowed ps m -> Forall (fun p => p ∉ allowed) ps -> False.
Proof.
  intros (pre & post & -> & Hin & _) H. apply Forall_app in H as [_ H]. by inversion H.
Qed.

Lemma select_iff allowed ps m : ps <> [] ->
  select_auth_method allowed ps = Ok m <-> first_allowed allowed ps m /\ m <> "".
Proof.
  intros Hne. unfold select_auth_method. destruct ps as [|p ps]; [done|].
  destruct (find_method allowed (p :: ps)) as [m' u] eqn:E. apply find_method_spec in E.
  destruct (String.eqb_spec m' "") as [->|Hm'].
  - split; [discriminate|]. intros [H Hm].
    destruct E as [E|[_ E]]; [destruct (Hm (first_allowed_fun _ _ _ _ H E))|by destruct (first_allowed_none _ _ _ H E)].
  - destruct E as [E|[? _]]; [|done]. split.
    + intros [= <-]. done.
    + intros [H _]. f_equal. by eapply first_allowed_fun.
Qed.

Lemma select_fails_iff allowed ps : ps <> [] -> "" ∉ ps ->
  (exists e, select_auth_method allowed ps = Err e) <-> Forall (fun p => p ∉ allowed) ps.
Proof.
  intros Hne Hnames. unfold select_auth_method. destruct ps as [|p ps]; [done|].
  destruct (find_method allowed (p :: ps)) as [m' u] eqn:E. apply find_method_spec in E.
  destruct (String.eqb_spec m' "") as [->|Hm'].
  - split; [|eauto]. intros _. destruct E as [(pre & post & E & _)|[_ E]]; [|done].
    exfalso. apply Hnames. rewrite E. apply elem_of_app. right. left.
  - split; [intros [? [=]]|]. intros H. destruct E as [E|[? _]]; [|done].
    by destruct (first_allowed_none _ _ _ E H).
Qed.

Lemma select_selected allowed h m :
  select_auth_method allowed (match he_authmethods h with Some l => l | None => [] end) = Ok m ->
  selected allowed h m.
Proof.
  unfold selected, proposals. set (ps := match he_authmethods h with Some l => l | None => [] end).
  assert (default [] (he_authmethods h) = ps) as -> by reflexivity.
  destruct ps as [|p ps]; [intros [= <-]; by right|].
  intros H. apply select_iff in H as [H _]; [|done]. by left.
Qed.

(** * WAMP-CRA *)

Section cra.
Context {PL : Platform} {CR : Crypto}.

Lemma verify_cra_iff sig ch key :
  verify_cra sig ch key = true <-> b64_denotes sig (hmac_sha256 key ch).
Proof.
  unfold verify_cra, sign_cra_bytes. rewrite <- b64_decode_iff.
  destruct (b64_decode sig) as [b|]; [|by split].
  rewrite String.eqb_eq. split; congruence.
Qed.

Lemma verify_sign ch key : verify_cra (sign_cra ch key) ch key = true.
Proof. apply verify_cra_iff, canonical_denotes, encode_canonical. Qed.

Lemma derive_key_canonical salt secret it kl k :
  derive_key salt secret it kl = Ok k ->
  b64_canonical k (pbkdf2_sha256 secret salt (or_default it 1000) (or_default kl 32)).
Proof.
  unfold derive_key, pbkdf2_key, or_default.
  match goal with |- context [if (?a && ?b)%bool then _ else _] => destruct (a && b)%bool end; [|discriminate].
  intros [= <-]. apply encode_canonical.
Qed.

Lemma derive_key_ok salt secret it kl : (0 <= kl <= kdf_max)%Z ->
  exists k, derive_key salt secret it kl = Ok k.
Proof.
  intros H. unfold derive_key, pbkdf2_key. pose proof kdf_max_ok.
  destruct (Z.eqb_spec kl 0).
  - rewrite (proj2 (Z.leb_le 0 32)), (proj2 (Z.leb_le 32 kdf_max)) by lia. cbn. eauto.
  - rewrite (proj2 (Z.leb_le 0 kl)), (proj2 (Z.leb_le kl kdf_max)) by lia. cbn. eauto.
Qed.

Lemma derive_key_panics salt secret it kl : (kl < 0 \/ kdf_max < kl)%Z ->
  exists w, derive_key salt secret it kl = Panic w.
Proof.
  intros H. unfold derive_key, pbkdf2_key. pose proof kdf_max_ok.
  destruct (Z.eqb_spec kl 0); [lia|].
  destruct ((0 <=? kl) && (kl <=? kdf_max))%Z eqn:E; [|eauto].
  apply andb_true_iff in E as [E1 E2]. apply Z.leb_le in E1, E2. lia.
Qed.

Lemma derive_key_no_err salt secret it kl e : derive_key salt secret it kl <> Err e.
Proof.
  unfold derive_key, pbkdf2_key.
  match goal with |- context [if (?a && ?b)%bool then _ else _] => destruct (a && b)%bool end; discriminate.
Qed.

(** The key the two sides compute. *)
Definition key_of (c : cra) : res string :=
  if String.eqb (cra_salt c) "" then Ok (cra_secret c)
  else derive_key (cra_salt c) (cra_secret c) (cra_iterations c) (cra_keylen c).
Lemma key_of_spec c k : key_of c = Ok k -> cra_key c k.
Proof.
  unfold key_of, cra_key. destruct (String.eqb_spec (cra_salt c) "") as [E|E].
  - intros [= <-]. by left.
  - intros H. right. split; [done|]. by apply derive_key_canonical in H.
Qed.
Lemma cra_key_fun c k k' : cra_key c k -> cra_key c k' -> k = k'.
Proof.
  intros [[H1 ->]|[H1 H2]] [[H1' ->]|[H1' H2']]; try done. by eapply canonical_fun.
Qed.

(** The client's answer to a challenge that carries the user's salt and
    parameters, possibly after a transport that keeps numbers. *)
Lemma cra_client_accepted c key secret extra ch chal :
  cra_secret c = secret -> cra_key c key ->
  mget (ch_extra chal) "challenge" = VStr ch ->
  to_string (mget (ch_extra chal) "salt") = cra_salt c ->
  (cra_salt c <> "" -> fst (as_int (mget (ch_extra chal) "iterations")) = cra_iterations c
                    /\ fst (as_int (mget (ch_extra chal) "keylen")) = cra_keylen c) ->
  (cra_salt c = "" \/ (0 <= cra_keylen c <= kdf_max)%Z) ->
  exists a, cra_authenticate secret extra chal = Ok a /\ au_extra a = extra
    /\ verify_cra (au_signature a) ch key = true.
Proof.
  intros <- Hk Hch Hsalt Hp Hlen. unfold cra_authenticate. rewrite Hch, Hsalt. cbn [to_string as_string fst].
  destruct (String.eqb_spec (cra_salt c) "") as [E|E].
  - eexists. split; [reflexivity|]. split; [done|].
    destruct Hk as [[_ ->]|[? _]]; [|done]. apply verify_sign.
  - destruct (Hp E) as [-> ->]. destruct Hlen as [?|Hlen]; [done|].
    destruct (derive_key_ok (cra_salt c) (cra_secret c) (cra_iterations c) (cra_keylen c) Hlen) as [k' Hk'].
    rewrite Hk'. eexists. split; [reflexivity|]. split; [done|].
    assert (k' = key) as ->; [|apply verify_sign].
    apply (cra_key_fun c); [|done]. right. split; [done|]. by apply derive_key_canonical in Hk'.
Qed.

(** Newlines anywhere in an accepted signature are ignored. *)
Lemma drop_newlines_app s t : drop_newlines (s ++ t) = drop_newlines s ++ drop_newlines t.
Proof.
  induction s as [|c s IH]; [reflexivity|].
  change (String c s ++ t) with (String c (s ++ t)). cbn [drop_newlines]. rewrite IH.
  by destruct (is_newline c).
Qed.
Lemma string_app_nil_r (s : string) : s ++ "" = s.
Proof. apply chars_inj. by rewrite chars_app, app_nil_r. Qed.
Lemma verify_newline sig ch key :
  verify_cra (sig ++ String "010" "") ch key = verify_cra sig ch key.
Proof. unfold verify_cra, b64_decode. by rewrite drop_newlines_app, string_app_nil_r. Qed.
Lemma newline_different (sig : string) : sig ++ String "010" "" <> sig.
Proof.
  intros H. apply (f_equal String.length) in H. rewrite <- !chars_length, chars_app, app_length in H.
  cbn in H. lia.
Qed.

Lemma cra_at_most_one ch key s1 s2 d1 d2 :
  verify_cra s1 ch key = true -> verify_cra s2 ch key = true ->
  b64_canonical s1 d1 -> b64_canonical s2 d2 -> s1 = s2.
Proof.
  intros H1 H2 C1 C2. apply verify_cra_iff in H1, H2.
  assert (d1 = hmac_sha256 key ch) as -> by (eapply denotes_fun; [by apply canonical_denotes|done]).
  assert (d2 = hmac_sha256 key ch) as -> by (eapply denotes_fun; [by apply canonical_denotes|done]).
  by eapply canonical_fun.
Qed.

(** Challenges made with different nonces differ. *)
Lemma challenge_nonce n1 n2 now1 now2 id1 id2 a1 a2 r1 r2 p1 p2 ch :
  generate_cra_challenge (Some n1) now1 id1 a1 r1 p1 = Ok ch ->
  generate_cra_challenge (Some n2) now2 id2 a2 r2 p2 = Ok ch ->
  n1 = n2 /\ json_string a1 = json_string a2 /\ json_string r1 = json_string r2.
Proof.
  unfold generate_cra_challenge, json_field. cbn [String.concat]. intros H1 H2.
  assert (E := eq_trans H1 (eq_sym H2)). clear H1 H2.
  apply (f_equal (fun r => match r with Ok s => s | _ => "" end)) in E. cbv beta iota in E.
  repeat rewrite string_app_assoc in E.
  repeat (match type of E with
    | json_string _ +:+ _ = json_string _ +:+ _ =>
        let H := fresh "Hj" in apply json_string_split in E as [H E]
    | ?x +:+ _ = ?x +:+ _ => apply string_app_inv_l in E
    end).
  split; [|split; assumption].
  rewrite !json_plain in * by (eapply canonical_plain, encode_canonical).
  match goal with H : chr 34 +:+ b64_encode n1 +:+ _ = _ |- _ =>
    apply string_app_inv_l, string_app_inv_r in H; rename H into Hn end.
  assert (Some n1 = Some n2) as [= ->]; [|done].
  rewrite <- (b64_decode_encode n1), <- (b64_decode_encode n2). by rewrite Hn.
Qed.

(** * Cryptosign *)

Lemma pad_key_chars n k : chars (pad_key n k) = take n (chars k ++ repeat "000"%char n)%list.
Proof.
  revert k. induction n as [|n IH]; intros k; [reflexivity|].
  destruct k as [|c k].
  - cbn [pad_key]. change (zero_byte :: chars (pad_key n "") = zero_byte :: take n (repeat "000"%char n)).
    f_equal. rewrite IH. reflexivity.
  - change (c :: chars (pad_key n k) = c :: take n (chars k ++ repeat "000"%char (S n)))%list.
    f_equal. rewrite IH. clear. generalize (chars k). intros l.
    replace (repeat "000"%char (S n)) with (repeat "000"%char n ++ ["000"%char])%list
      by (change ["000"%char] with (repeat "000"%char 1); rewrite <- repeat_app; f_equal; lia).
    rewrite app_assoc. rewrite (take_app_le (l ++ _)%list); [done|].
    rewrite app_length, repeat_length. lia.
Qed.
Lemma pad_key_spec k : public_key k (pad_key 32 k).
Proof. apply pad_key_chars. Qed.
Lemma public_key_fun k p p' : public_key k p -> public_key k p' -> p = p'.
Proof. unfold public_key. intros H H'. apply chars_inj. congruence. Qed.
Lemma pad_key_id k : String.length k = 32%nat -> pad_key 32 k = k.
Proof.
  intros H. apply chars_inj. rewrite pad_key_chars. rewrite <- chars_length in H.
  rewrite take_app_le by lia. apply take_ge. lia.
Qed.

Lemma substring_app_l (a b : string) : substring 0 (String.length a) (a ++ b) = a.
Proof.
  induction a as [|c a IH]; [by destruct b|].
  change (String c (substring 0 (String.length a) (a ++ b)) = String c a). by rewrite IH.
Qed.
Lemma substring_all (b : string) : substring 0 (String.length b) b = b.
Proof. rewrite <- (string_app_nil_r b) at 2. apply substring_app_l. Qed.
Lemma substring_app_r (a b : string) :
  substring (String.length a) (String.length b) (a ++ b) = b.
Proof. induction a as [|c a IH]; [apply substring_all|exact IH]. Qed.
Lemma string_app_length (a b : string) : String.length (a ++ b) = (String.length a + String.length b)%nat.
Proof. rewrite <- !chars_length, chars_app. apply app_length. Qed.
Lemma string_split n (s : string) : (n <= String.length s)%nat ->
  exists a b, s = a ++ b /\ String.length a = n.
Proof.
  revert s. induction n as [|n IH]; intros s H; [by exists "", s|].
  destruct s as [|c s]; [cbn in H; lia|]. cbn in H. destruct (IH s) as (a & b & -> & Ha); [lia|].
  exists (String c a), b. split; [reflexivity|]. cbn. by rewrite Ha.
Qed.

Lemma verify_cryptosign_iff sig key pub : public_key key pub ->
  verify_cryptosign sig key = true <-> exists msg, signed_text sig pub msg.
Proof.
  intros Hp. rewrite <- (public_key_fun _ _ _ (pad_key_spec key) Hp). clear Hp.
  unfold verify_cryptosign, signed_text. split.
  - destruct (hex_decode sig) as [b|] eqn:E; [|discriminate].
    destruct (Nat.eqb_spec (String.length b) 96) as [Hl|]; [|discriminate].
    destruct (string_split 64 b) as (x & m & -> & Hx); [lia|].
    rewrite string_app_length in Hl.
    unfold sign_open. rewrite string_app_length.
    replace (String.length x + String.length m - 64)%nat with (String.length m) by lia.
    rewrite <- Hx at 1. rewrite substring_app_r. rewrite <- Hx at 1. rewrite substring_app_l.
    intros H. exists m, x. apply hex_decode_iff in E. split; [done|]. split; [done|]. split; [lia|done].
  - intros (m & x & Hd & Hx & Hm & Hv). apply hex_decode_iff in Hd. rewrite Hd, string_app_length.
    rewrite Hx, Hm. cbn [Nat.add Nat.eqb]. unfold sign_open. rewrite string_app_length.
    replace (String.length x + String.length m - 64)%nat with (String.length m) by lia.
    rewrite <- Hx at 1. rewrite substring_app_r. rewrite <- Hx at 1. by rewrite substring_app_l.
Qed.

Lemma cryptosign_accepted seed ch raw :
  String.length seed = 32%nat -> hex_denotes ch raw -> String.length raw = 32%nat ->
  exists sig, sign_cryptosign ch seed = Ok sig
    /\ signed_text sig (ed_public seed) raw
    /\ verify_cryptosign sig (ed_public seed) = true.
Proof.
  intros Hs Hd Hl. apply hex_decode_iff in Hd.
  unfold sign_cryptosign. rewrite Hd. eexists. split; [reflexivity|].
  assert (H : signed_text (hex_encode (ed_sign seed raw) ++ ch) (ed_public seed) raw).
  { exists (ed_sign seed raw). split; [|split; [apply ed_sign_length|split; [done|by apply ed_verify_sign]]].
    apply hex_decode_iff, hex_decode_app; [apply hex_decode_encode|done]. }
  split; [done|]. apply (verify_cryptosign_iff _ _ (ed_public seed)); [|eauto].
  rewrite <- (pad_key_id (ed_public seed)) at 2 by apply ed_public_length. apply pad_key_spec.
Qed.

(** * NewCryptoSignAuthenticator *)

Lemma mget_set_eq k v l : mget (Some (assoc_set k v l)) k = v.
Proof. cbn. by rewrite assoc_set_eq. Qed.
Lemma mget_set_ne k k' v l : k <> k' -> mget (Some (assoc_set k v l)) k' = mget (Some l) k'.
Proof. intros H. cbn. by rewrite assoc_set_ne. Qed.
Lemma mget_default m k : mget (Some (default [] m)) k = mget m k.
Proof. by destruct m. Qed.

Lemma new_cryptosign_ok authid priv extra seed :
  hex_denotes priv seed -> String.length seed = 32%nat ->
  (mget extra "pubkey" = VNil \/ mget extra "pubkey" = VStr (hex_encode (ed_public seed))) ->
  exists c, new_cryptosign authid priv extra = Ok c
    /\ cl_method c = "cryptosign" /\ cl_authid c = authid
    /\ mget (cl_authextra c) "pubkey" = VStr (hex_encode (ed_public seed))
    /\ (forall k, k <> "pubkey" -> mget (cl_authextra c) k = mget extra k)
    /\ cl_authextra c <> None
    /\ cl_authenticate c = cryptosign_authenticate seed (cl_authextra c).
Proof.
  intros Hd Hl Hp. apply hex_decode_iff in Hd. unfold new_cryptosign. rewrite Hd, Hl.
  cbn [Nat.eqb]. change (match extra with Some l => l | None => [] end) with (default [] extra).
  rewrite mget_default. destruct Hp as [Hp|Hp]; rewrite Hp.
  - eexists. split; [reflexivity|]. cbn [cl_method cl_authid cl_authextra cl_authenticate].
    split; [done|]. split; [done|]. split; [apply mget_set_eq|]. split; [|split; done].
    intros k Hk. rewrite mget_set_ne by congruence. apply mget_default.
  - rewrite String.eqb_refl. eexists. split; [reflexivity|]. cbn [cl_method cl_authid cl_authextra cl_authenticate].
    split; [done|]. split; [done|]. split; [by rewrite mget_default|]. split; [|split; done].
    intros k Hk. apply mget_default.
Qed.

Lemma new_cryptosign_rejects authid priv extra :
  (~ exists seed, hex_denotes priv seed)
  \/ (exists seed v, hex_denotes priv seed /\ String.length seed = 32%nat
        /\ mget extra "pubkey" = VStr v /\ v <> hex_encode (ed_public seed)) ->
  exists e, new_cryptosign authid priv extra = Err e.
Proof.
  unfold new_cryptosign. intros [H|(seed & v & Hd & Hl & Hv & Hne)].
  - destruct (hex_decode priv) as [seed|] eqn:E; [|eauto].
    exfalso. apply H. exists seed. by apply hex_decode_iff.
  - apply hex_decode_iff in Hd. rewrite Hd, Hl. cbn [Nat.eqb].
    change (match extra with Some l => l | None => [] end) with (default [] extra).
    rewrite mget_default, Hv. destruct (String.eqb_spec v (hex_encode (ed_public seed))); [done|eauto].
Qed.

Lemma new_cryptosign_panics authid priv extra :
  (exists w, new_cryptosign authid priv extra = Panic w) <->
  exists seed, hex_denotes priv seed /\ String.length seed <> 32%nat.
Proof.
  unfold new_cryptosign. split.
  - intros [w H]. destruct (hex_decode priv) as [seed|] eqn:E; [|discriminate].
    apply hex_decode_iff in E. exists seed. split; [done|]. intros Hl. rewrite Hl in H. cbn [Nat.eqb] in H.
    destruct (mget _ "pubkey") as [| | | | |v| | | | |]; try discriminate.
    destruct (String.eqb v (hex_encode (ed_public seed))); discriminate.
  - intros (seed & Hd & Hl). apply hex_decode_iff in Hd. rewrite Hd.
    destruct (Nat.eqb_spec (String.length seed) 32); [done|eauto].
Qed.

(** A generated key pair. *)
Lemma key_pair_works seed pub priv authid extra :
  String.length seed = 32%nat -> generate_key_pair (Some seed) = Ok (pub, priv) ->
  mget extra "pubkey" = VNil ->
  exists c key, new_cryptosign authid priv extra = Ok c
    /\ mget (cl_authextra c) "pubkey" = VStr pub
    /\ hex_denotes pub key
    /\ forall chal ch raw, mget (ch_extra chal) "challenge" = VStr ch ->
         hex_denotes ch raw -> String.length raw = 32%nat ->
         exists a, cl_authenticate c chal = Ok a /\ au_extra a = cl_authextra c
           /\ verify_cryptosign (au_signature a) key = true.
Proof.
  intros Hl [= <- <-] Hx.
  destruct (new_cryptosign_ok authid (hex_encode seed) extra seed) as (c & Hc & _ & _ & Hpk & _ & _ & Ha);
    [apply hex_decode_iff, hex_decode_encode|done|by left|].
  exists c, (ed_public seed). split; [done|]. split; [done|].
  split; [apply hex_decode_iff, hex_decode_encode|].
  intros chal ch raw Hch Hd Hr. rewrite Ha. unfold cryptosign_authenticate. rewrite Hch.
  cbn [to_string as_string fst].
  destruct (cryptosign_accepted seed ch raw Hl Hd Hr) as (sig & -> & _ & Hv).
  eexists. split; [reflexivity|]. done.
Qed.

End cra.

(** * Time stamps *)

Lemma two_digits_spec n : (0 <= n < 100)%Z ->
  exists a b d1 d2, two_digits n = String a (String b "") /\ decimal d1 a /\ decimal d2 b
    /\ n = (10 * d1 + d2)%Z.
Proof.
  intros Hn.
  assert (H : Forall (fun k => two_digits (Z.of_nat k)
      = String (ascii_of_nat (48 + k / 10)) (String (ascii_of_nat (48 + k mod 10)) ""))
      (seq 0 100)).
  { unfold two_digits. vm_compute seq. repeat (apply Forall_cons; split; [vm_compute; reflexivity|]). apply Forall_nil; constructor. }
  rewrite Forall_forall in H. specialize (H (Z.to_nat n)).
  rewrite Z2Nat.id in H by lia. rewrite H by (apply elem_of_seq; lia). clear H.
  set (k := Z.to_nat n). assert (Hk : (k < 100)%nat) by (unfold k; lia).
  assert (H1 : (k / 10 < 10)%nat) by (apply Nat.div_lt_upper_bound; lia).
  assert (H2 : (k mod 10 < 10)%nat) by (apply Nat.mod_upper_bound; lia).
  exists (ascii_of_nat (48 + k / 10)), (ascii_of_nat (48 + k mod 10)), (Z.of_nat (k / 10)), (Z.of_nat (k mod 10)).
  split; [done|]. unfold decimal.
  assert (E : forall j, (j < 10)%nat -> Z.of_N (N_of_ascii (ascii_of_nat (48 + j))) = (48 + Z.of_nat j)%Z).
  { intros j Hj. unfold ascii_of_nat. rewrite N_ascii_embedding by lia. lia. }
  split; [rewrite E by done; lia|]. split; [rewrite E by done; lia|].
  pose proof (Nat.div_mod k 10). unfold k in *. lia.
Qed.

Lemma iso8601_suffix t off : (- 360000 < off < 360000)%Z ->
  exists suffix, iso8601 t off = t ++ suffix /\ zone_suffix suffix off.
Proof.
  intros Hoff. unfold iso8601, zone_suffix.
  assert (Habs : forall z, (0 < z < 360000)%Z ->
    exists a b c d h1 h2 m1 m2,
      two_digits (Z.quot z 3600) ++ two_digits (Z.quot (Z.rem z 3600) 60)
        = String a (String b (String c (String d "")))
      /\ decimal h1 a /\ decimal h2 b /\ decimal m1 c /\ decimal m2 d
      /\ (10 * m1 + m2 < 60)%Z /\ ((10 * h1 + h2) * 60 + (10 * m1 + m2) = Z.quot z 60)%Z).
  { intros z Hz. rewrite !Z.quot_div_nonneg, Z.rem_mod_nonneg by (try apply Z.rem_nonneg; lia).
    assert (B1 : (0 <= z / 3600 < 100)%Z)
      by (split; [apply Z.div_pos; lia|apply Z.div_lt_upper_bound; lia]).
    pose proof (Z.mod_pos_bound z 3600 ltac:(lia)) as B.
    assert (B2 : (0 <= z mod 3600 / 60 < 60)%Z)
      by (split; [apply Z.div_pos; lia|apply Z.div_lt_upper_bound; lia]).
    destruct (two_digits_spec _ B1) as (a & b & h1 & h2 & -> & Ha & Hb & Eh).
    destruct (two_digits_spec (z mod 3600 / 60)) as (c & d & m1 & m2 & -> & Hc & Hd & Em); [lia|].
    exists a, b, c, d, h1, h2, m1, m2. split; [reflexivity|]. do 4 (split; [done|]). split; [lia|].
    rewrite <- Eh, <- Em.
    pose proof (Z.div_mod z 3600 ltac:(lia)). pose proof (Z.div_mod (z mod 3600) 60 ltac:(lia)).
    apply Z.div_unique with (r := ((z mod 3600) mod 60)%Z); [left; apply Z.mod_pos_bound; lia|lia]. }
  destruct (Z.eqb_spec off 0) as [->|Hne]; [exists "Z"; split; [done|by left]|].
  destruct (Z.ltb_spec off 0).
  - destruct (Habs (- off)%Z) as (a & b & c & d & h1 & h2 & m1 & m2 & -> & Ha & Hb & Hc & Hd & Hm & Hq); [lia|].
    eexists. split; [reflexivity|]. right. exists "-"%char, a, b, c, d, h1, h2, m1, m2.
    split; [reflexivity|]. do 5 (split; [done|]). right. split; [done|]. split; [lia|].
    rewrite Hq. rewrite Z.quot_opp_l by lia. lia.
  - destruct (Habs off) as (a & b & c & d & h1 & h2 & m1 & m2 & -> & Ha & Hb & Hc & Hd & Hm & Hq); [lia|].
    eexists. split; [reflexivity|]. right. exists "+"%char, a, b, c, d, h1, h2, m1, m2.
    split; [reflexivity|]. do 5 (split; [done|]). left. split; [done|]. split; [lia|done].
Qed.
