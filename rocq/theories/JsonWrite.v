(** Proofs: what Marshal writes is JSON. *)
From Coq Require Import Ascii QArith.
From stdpp Require Import pretty.
From Verif Require Import Prelude Value BaseSpec PathMatch PathMatchSpec PathUtf8 Encoding EncodingFacts AuthSpec
  JsonSpec JsonFacts JsonSafe Payload Json JsonRound JsonGrammar JsonNumber JsonRead JsonTree JsonFloat JsonSingle.

Local Open Scope string_scope.
Local Open Scope N_scope.

Definition jpart (b x : string) : Prop := forall s y, jchars false s y -> jchars false (b ++ s) (x ++ y).
Lemma jpart_nil : jpart "" "".
Proof. by intros s y. Qed.
Lemma jpart_app a x b y : jpart a x -> jpart b y -> jpart (a ++ b) (x ++ y).
Proof. intros Ha Hb s z Hs. rewrite !sapp_assoc. by apply Ha, Hb. Qed.
Lemma jpart_plain r : scalar r -> 32 <= r -> r <> 34 -> r <> 92 -> jpart (utf8 r) (utf8 r).
Proof. intros ???? s y H. by constructor. Qed.
Lemma jpart_unicode a b c d w x y z r : hex_value a = Some w -> hex_value b = Some x -> hex_value c = Some y -> hex_value d = Some z ->
  r = w * 4096 + x * 256 + y * 16 + z -> scalar r ->
  jpart ("\u" ++ String a (String b (String c (String d "")))) (utf8 r).
Proof. intros Ha Hb Hc Hd -> Hr s t H. rewrite sapp_assoc. apply jc_unicode; [by constructor|done|done]. Qed.
Lemma jpart_short c y : short_escape c = Some y -> jpart ("\" ++ String c "") y.
Proof. intros E s t H. rewrite sapp_assoc. by apply jc_short. Qed.
Lemma jpart_ascii c : 32 <= byte c < 128 -> byte c <> 34 -> byte c <> 92 -> jpart (String c "") (String c "").
Proof.
  intros H H1 H2. assert (E : utf8 (byte c) = String c "").
  { unfold utf8. destruct (N.ltb_spec (byte c) 128); [|lia]. unfold octet, byte. by rewrite ascii_N_embedding. }
  rewrite <- E. apply jpart_plain; unfold scalar; lia.
Qed.
Lemma jpart_control (c : ascii) a b : hex_value a = Some (byte c / 16) -> hex_value b = Some (byte c mod 16) -> byte c < 128 ->
  jpart ("\u00" ++ String a (String b "")) (String c "").
Proof.
  intros Ha Hb H. assert (E : utf8 (byte c) = String c "").
  { unfold utf8. destruct (N.ltb_spec (byte c) 128); [|lia]. unfold octet, byte. by rewrite ascii_N_embedding. }
  rewrite <- E. apply (jpart_unicode "0" "0" a b 0 0 (byte c / 16) (byte c mod 16)); try done; [|unfold scalar; lia].
  pose proof (N.div_mod (byte c) 16 ltac:(lia)). lia.
Qed.
Lemma jpart_escape c : byte c < 128 -> jpart (json_escape (byte c)) (String c "").
Proof.
  intros H. destruct c as [[] [] [] [] [] [] [] []]; try discriminate H; clear H; vm_compute (json_escape _);
    lazymatch goal with
    | |- jpart (String ?c "") _ => apply jpart_ascii; vm_compute; [split; [discriminate|reflexivity]|discriminate|discriminate]
    | |- jpart (String _ (String ?c "")) ?y => exact (jpart_short c y eq_refl)
    | |- jpart (String _ (String _ (String _ (String _ (String ?a (String ?b "")))))) (String ?c "") =>
        exact (jpart_control c a b eq_refl eq_refl eq_refl)
    end.
Qed.
Lemma jpart_fffd : jpart (chr 92 ++ "ufffd") (utf8 65533).
Proof. eapply (jpart_unicode "f" "f" "f" "d"); [reflexivity..|]. unfold scalar. lia. Qed.
Lemma jpart_lines r : r = 8232 \/ r = 8233 ->
  jpart (chr 92 ++ "u202" ++ String (digit_at hex_alphabet (r mod 16)) "") (utf8 r).
Proof.
  intros [->| ->]; [eapply (jpart_unicode "2" "0" "2" "8")|eapply (jpart_unicode "2" "0" "2" "9")]; try reflexivity;
    unfold scalar; lia.
Qed.
Lemma jpart_body fuel : forall s, (String.length s <= fuel)%nat ->
  exists t, repaired s t /\ jpart (json_body fuel s) t.
Proof.
  induction fuel as [|fuel IH]; intros s Hs.
  { destruct s; [|cbn in Hs; lia]. exists "". split; [constructor|apply jpart_nil]. }
  destruct s as [|c s]; [exists ""; split; [constructor|apply jpart_nil]|].
  cbn [String.length] in Hs. cbn [json_body].
  destruct (decode_inv (String c s)) as [(r & rest & Hr & E & D)|[D Bad]]; [done| |].
  - rewrite D. cbv iota beta.
    replace (sdrop (String.length (utf8 r)) (String c s)) with rest by (rewrite E; by rewrite sdrop_app).
    assert (L : (String.length rest <= fuel)%nat).
    { assert (0 < String.length (utf8 r))%nat by (unfold utf8; repeat case_match; cbn; lia).
      apply (f_equal String.length) in E. rewrite slength_app in E. cbn in E. lia. }
    destruct (IH rest L) as (t & Ht & R). exists (utf8 r ++ t). split; [rewrite E; by constructor|].
    apply jpart_app; [|done]. destruct (utf8_first r c s rest Hr E) as [(L1 & -> & _)|(L1 & L2)].
    + destruct (N.ltb_spec (byte c) 128); [|lia]. unfold utf8. destruct (N.ltb_spec (byte c) 128); [|lia].
      unfold octet. change (byte c) with (N_of_ascii c) at 2. rewrite ascii_N_embedding. by apply jpart_escape.
    + destruct (N.ltb_spec (byte c) 128); [lia|].
      assert ((r =? rune_error) && (String.length (utf8 r) =? 1)%nat = false) as ->.
      { apply andb_false_iff. destruct (N.eqb_spec r rune_error) as [->|]; [right; reflexivity|by left]. }
      destruct (N.eqb_spec r 8232) as [->|]; [cbn [orb]; apply jpart_lines; by left|].
      destruct (N.eqb_spec r 8233) as [->|]; [cbn [orb]; apply jpart_lines; by right|]. cbn [orb].
      rewrite E. rewrite stake_app. apply jpart_plain; [done|lia..].
  - rewrite D. cbv iota beta. assert (128 <= byte c).
    { destruct (N.leb_spec 128 (byte c)); [done|]. exfalso. apply (Bad (byte c) s).
      - unfold scalar. lia.
      - unfold utf8. destruct (N.ltb_spec (byte c) 128); [|lia]. unfold octet, byte. by rewrite ascii_N_embedding. }
    destruct (N.ltb_spec (byte c) 128); [lia|]. change ((rune_error =? rune_error) && (1 =? 1)%nat) with true. cbn iota.
    cbn [sdrop]. destruct (IH s) as (t & Ht & R); [lia|]. exists (utf8 65533 ++ t). split; [by constructor|].
    apply jpart_app; [apply jpart_fffd|done].
Qed.
Lemma string_written s : exists t, repaired s t /\ jstring false (json_string s) t.
Proof.
  destruct (jpart_body (String.length s) s (Nat.le_refl _)) as (t & Ht & P). exists t. split; [done|].
  exists (json_body (String.length s) s). split; [done|]. specialize (P "" "" (jc_end false)). by rewrite !sapp_nil in P.
Qed.
Lemma base64_written b : jstring false (chr 34 ++ b64_encode b ++ chr 34) (b64_encode b).
Proof.
  exists (b64_encode b). split; [done|]. pose proof (canonical_plain _ _ (encode_canonical b)) as H.
  induction (b64_encode b) as [|c s IH]; [constructor|]. apply Forall_cons in H as [Hc Hs].
  assert (P : jpart (String c "") (String c "")).
  { destruct (plain_char c Hc) as [L E]. rewrite <- E at 1. by apply jpart_escape. }
  apply (P s s), IH, Hs.
Qed.

Lemma integer_written (z : Z) : jvalue false (pretty z) (integer z).
Proof.
  unfold integer. constructor. rewrite pretty_Z. destruct (Z.ltb_spec z 0).
  - replace (Z.to_N (- z)) with (Z.abs_N z) by lia. apply (natural_number true). left. lia.
  - replace (Z.to_N z) with (Z.abs_N z) by lia. apply (natural_number false). by right.
Qed.

Lemma list_written ss ts : Forall2 (jvalue false) ss ts -> jvalue false ("[" ++ String.concat "," ss ++ "]") (JList ts).
Proof.
  intros H. destruct ts as [|t ts].
  - inversion H; subst. apply (jv_empty false ""), space_nil.
  - apply jv_list; [done|]. eapply Forall2_impl; [exact H|]. intros s t' Hs. exists "", s, "". rewrite sapp_nil.
    split; [done|]. split; [apply space_nil|]. split; [apply space_nil|done].
Qed.
Lemma dict_written kss kts : Forall2 (fun ks kt => jstring false (fst ks) (fst kt) /\ jvalue false (snd ks) (snd kt)) kss kts ->
  jvalue false ("{" ++ String.concat "," (map (fun ks => fst ks ++ ":" ++ snd ks) kss) ++ "}") (JDict kts).
Proof.
  intros H. destruct kts as [|t ts].
  - inversion H; subst. apply (jv_none false ""), space_nil.
  - apply jv_dict; [done|]. apply Forall2_fmap_l. eapply Forall2_impl; [exact H|]. intros [k s] kt [Hk Hs]. cbn [fst snd] in *.
    exists "", k, "", "", s, "". rewrite sapp_nil. repeat (split; [done || apply space_nil|]). done.
Qed.

Lemma assoc_in_NoDup {A} k (v : A) l : NoDup (map fst l) -> ((k, v) ∈ l <-> assoc k l = Some v).
Proof.
  induction l as [|[k0 v0] l IH]; cbn [map fst assoc]; [intros _; by rewrite elem_of_nil|].
  intros [H0 H]%NoDup_cons. rewrite elem_of_cons. destruct (String.eqb_spec k k0) as [->|Hk].
  - split; [intros [[= ->]|Hin]; [done|]|intros [= ->]; by left]. exfalso. apply H0. by apply (elem_of_list_fmap_1 fst) in Hin.
  - rewrite <- IH by done. split; [intros [[= ]|]; done|by right].
Qed.

Lemma value_written v : has_text v = true -> exists t, written v t /\ jvalue false (json_text v) t.
Proof.
  remember (nesting v) as n eqn:En. revert v En. induction (N.lt_wf_0 n) as [n _ IH]. intros v -> Hv.
  destruct v as [|b|k z|f|f|s|b|l|m|l|o]; cbn [json_text has_text] in Hv |- *; try discriminate Hv.
  - exists JNull. split; constructor.
  - exists (JBool b). split; [constructor|]. destruct b; constructor.
  - exists (integer z). split; [constructor|apply integer_written].
  - destruct (json_float32 f) as [t|] eqn:E; [|done]. destruct (single_text f t E) as (m & e & neg & n & x & -> & J & R & Ne).
    exists (JNumber neg n x). split; by constructor.
  - destruct (json_float f) as [t|] eqn:E; [|done]. destruct (float_text_read f t E) as (neg & n & x & g & J & V & S).
    exists (JNumber neg n x). split; [|by constructor]. pose proof (number_spec neg n x) as N. rewrite V in N.
    destruct N as (m & e & Eg & R & Ne). rewrite Eg in S. destruct f as [m' e'| |]; [|done..]. apply same_value in S.
    constructor; [done|]. apply (nearest_same _ _ _ (Qeq_sym _ _ S) Ne).
  - destruct (string_written s) as (t & Ht & J). exists (JString t). split; by constructor.
  - exists (JString (b64_encode b)). split; [constructor; apply encode_canonical|]. constructor. apply base64_written.
  - destruct l as [l|]; [|exists JNull; split; constructor].
    destruct (Forall2_exists (fun v t => written v t /\ jvalue false (json_text v) t) l) as [ts H].
    { intros x Hx. apply (IH (nesting x)); [|done|].
      - cbn [nesting]. pose proof (max_in nesting x l Hx). lia.
      - eapply forallb_forall in Hv; [exact Hv|]. by apply elem_of_list_In. }
    exists (JList ts). split; [constructor; eapply Forall2_impl; [exact H|]; by intros ?? []|].
    apply list_written, Forall2_fmap_l. eapply Forall2_impl; [exact H|]; by intros ?? [].
  - destruct m as [m|]; [|exists JNull; split; constructor].
    destruct (Forall2_exists (fun (kv : string * value) (kt : string * tree) => (repaired (fst kv) (fst kt) /\ written (snd kv) (snd kt))
        /\ jstring false (json_string (fst kv)) (fst kt) /\ jvalue false (json_text (snd kv)) (snd kt)) (sort_keys m)) as [kts H].
    { intros x Hx. apply sort_keys_in in Hx. destruct (IH (nesting (snd x))) with (v := snd x) as (t & Wt & Jt); [|done| |].
      - cbn [nesting]. pose proof (max_in (fun kv => nesting (snd kv)) x m Hx). lia.
      - eapply forallb_forall in Hv; [exact Hv|]. by apply elem_of_list_In.
      - destruct (string_written (fst x)) as (y & Hy & Jy). by exists (y, t). }
    exists (JDict kts). split.
    + apply (wr_map m (sort_keys m)).
      * apply ordered_NoDup, ordered_sort_keys.
      * intros k v. rewrite <- (assoc_sort_keys k m). apply assoc_in_NoDup, ordered_NoDup, ordered_sort_keys.
      * eapply Forall2_impl; [exact H|]; by intros ?? [].
    + rewrite sort_keys_map, map_map.
      pose proof (dict_written (map (fun kv => (json_string (fst kv), json_text (snd kv))) (sort_keys m)) kts) as D.
      rewrite map_map in D. apply D. apply Forall2_fmap_l. eapply Forall2_impl; [exact H|]; by intros ?? [_ ?].
  - destruct l as [l|]; [|exists JNull; split; constructor].
    destruct (Forall2_exists (fun s t => (exists x, t = JString x /\ repaired s x) /\ jvalue false (json_string s) t) l) as [ts H].
    { intros s _. destruct (string_written s) as (t & Ht & J). exists (JString t). split; [by exists t|by constructor]. }
    exists (JList ts). split; [constructor; eapply Forall2_impl; [exact H|]; by intros ?? []|].
    apply list_written, Forall2_fmap_l. eapply Forall2_impl; [exact H|]; by intros ?? [].
  - destruct o as [|p]; [done|]. cbn [method_name] in Hv |- *. destruct (countable.decode p) as [s|] eqn:D; [|done].
    destruct (string_written s) as (t & Ht & J). exists (JString t). split; [by apply (wr_method p s)|by constructor].
Qed.

Lemma marshal_written l s : json_marshal l = Ok s -> exists ts, Forall2 written l ts /\ json false s (JList ts).
Proof.
  unfold json_marshal. destruct (forallb has_text l) eqn:H; [|done]. intros [= <-].
  destruct (value_written (VSlice (Some l)) H) as (t & W & J). inversion W as [| | | | | | | | |? ts F| | | |]; subst.
  exists ts. split; [done|]. exists "", (json_text (VSlice (Some l))), "". rewrite sapp_nil. split; [done|].
  split; [apply space_nil|]. split; [apply space_nil|done].
Qed.
