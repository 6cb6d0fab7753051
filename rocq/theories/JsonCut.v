(** Proofs: a JSON text cut off or followed by something else. *)
From Coq Require Import Ascii.
From Verif Require Import Prelude Value Msg BaseSpec WireSpec MsgSpec PathMatch PathMatchSpec PathUtf8 Encoding AuthSpec
  JsonSpec JsonFacts JsonSafe Payload Json JsonRound JsonMsg JsonGrammar JsonNumber JsonRead JsonTree.

Local Open Scope string_scope.
Local Open Scope N_scope.

Lemma no_digit_app r q : no_digit r -> r <> "" -> no_digit (r ++ q).
Proof. intros H Hr c s E. destruct r as [|c' r]; [done|]. injection E as <- _. by eapply H. Qed.
Lemma digits_more s n k n' k' r q : digits n k s = (n', k', r) -> r <> "" -> digits n k (s ++ q) = (n', k', r ++ q).
Proof.
  intros D Hr. apply digits_inv in D as (d & -> & Hd & -> & -> & Hn). rewrite sapp_assoc. apply digits_run; [done|].
  by apply no_digit_app.
Qed.
Lemma sapp_ne a q : a <> "" -> a ++ q <> "".
Proof. by destruct a. Qed.
Lemma whole_more s n r q : whole_of s = Some (n, r) -> r <> "" -> whole_of (s ++ q) = Some (n, r ++ q).
Proof.
  destruct s as [|c s]; [done|]. change (String c s ++ q) with (String c (s ++ q)). cbn [whole_of].
  destruct (byte c =? 48); [by intros [= <- <-]|]. destruct (_ && _); [|done].
  destruct (digits 0 0 (String c s)) as [[m k] r'] eqn:D. intros [= <- <-] Hr.
  change (String c (s ++ q)) with (String c s ++ q). by rewrite (digits_more _ _ _ _ _ _ q D Hr).
Qed.
Lemma fraction_more m s n k r q : fraction_of m s = Some (n, k, r) -> r <> "" -> fraction_of m (s ++ q) = Some (n, k, r ++ q).
Proof.
  destruct s as [|c s]; [by intros [= <- <- <-]|]. change (String c s ++ q) with (String c (s ++ q)). cbn [fraction_of].
  destruct (byte c =? 46); [|by intros [= <- <- <-]].
  destruct (digits m 0 s) as [[m' k'] r'] eqn:D. destruct (N.eqb_spec k' 0); [done|]. intros [= <- <- <-] Hr.
  rewrite (digits_more _ _ _ _ _ _ q D Hr). by destruct (N.eqb_spec k' 0).
Qed.
Lemma exponent_more s x r q : exponent_part s = Some (x, r) -> r <> "" -> exponent_part (s ++ q) = Some (x, r ++ q).
Proof.
  destruct s as [|c s]; [by intros [= <- <-]|]. change (String c s ++ q) with (String c (s ++ q)). cbn [exponent_part].
  destruct (_ || _); [|by intros [= <- <-]].
  assert (S : s <> "" -> exponent_sign (s ++ q) = (fst (exponent_sign s), snd (exponent_sign s) ++ q)).
  { intros Hs. destruct s as [|c' s]; [done|]. change (String c' s ++ q) with (String c' (s ++ q)). cbn [exponent_sign].
    by repeat case_match. }
  destruct s as [|c' s]; [done|]. rewrite S by done. destruct (exponent_sign (String c' s)) as [eneg s']. cbn [fst snd].
  destruct (digits 0 0 s') as [[m k] r'] eqn:D. destruct (N.eqb_spec k 0); [done|]. intros [= <- <-] Hr.
  rewrite (digits_more _ _ _ _ _ _ q D Hr). by destruct (N.eqb_spec k 0).
Qed.
Lemma whole_rest s n r : whole_of s = Some (n, r) -> s <> "".
Proof. by destruct s. Qed.
Lemma number_more s f r q : read_number s = Some (f, r) -> r <> "" -> read_number (s ++ q) = Some (f, r ++ q).
Proof.
  rewrite !read_number_eq. intros R Hr.
  assert (S : s <> "" -> sign_of (s ++ q) = (fst (sign_of s), snd (sign_of s) ++ q)).
  { intros Hs. destruct s as [|c s]; [done|]. change (String c s ++ q) with (String c (s ++ q)). cbn [sign_of]. by destruct (byte c =? 45). }
  destruct s as [|c s]; [done|]. rewrite S by done. destruct (sign_of (String c s)) as [neg s1]. cbn [fst snd].
  destruct (whole_of s1) as [[n s2]|] eqn:W; [|done]. destruct (fraction_of n s2) as [[[n2 k] s3]|] eqn:F; [|done].
  destruct (exponent_part s3) as [[x s4]|] eqn:X; [|done]. destruct (value_of _ _) as [g|] eqn:V; [|done]. injection R as <- <-.
  assert (H3 : s3 <> "") by (intros ->; by injection X as <- <-).
  assert (H2 : s2 <> "") by (intros ->; by injection F as <- <- <-).
  rewrite (whole_more _ _ _ q W H2), (fraction_more _ _ _ _ _ q F H3), (exponent_more _ _ _ q X Hr), V. done.
Qed.
Lemma skip_space_more s q : skip_space s <> "" -> skip_space (s ++ q) = skip_space s ++ q.
Proof.
  induction s as [|c s IH]; [done|]. change (String c s ++ q) with (String c (s ++ q)). cbn [skip_space].
  by destruct (is_space c).
Qed.
Lemma after_more t s r q : after t s = Some r -> after t (s ++ q) = Some (r ++ q).
Proof. intros H. apply after_inv in H as ->. rewrite sapp_assoc. apply after_app. Qed.
Lemma unquote_more s x r q : unquote 0 s = Some (x, r) -> unquote 0 (s ++ q) = Some (x, r ++ q).
Proof.
  intros U. apply (unquote_chars (String.length s)) in U as (b & -> & J); [|done]. rewrite sapp_assoc.
  change (String """" r ++ q) with (String """" (r ++ q)). by apply jchars_unquote.
Qed.
Lemma after_none c s q : after (String c "") s = None -> s <> "" -> after (String c "") (s ++ q) = None.
Proof.
  destruct s as [|d s]; [done|]. change (String d s ++ q) with (String d (s ++ q)). cbn [after]. by destruct (Ascii.eqb c d).
Qed.

(** More bytes after a value change nothing, but for a number at the end. *)
Definition closed (v : value) (r : string) : Prop := r <> "" \/ forall x, v <> VF64 x.
Lemma read_more f q : forall d,
  (forall s v r, Json.read_value f d s = Some (v, r) -> closed v r -> Json.read_value f d (s ++ q) = Some (v, r ++ q))
  /\ (forall s l r, read_elements f d s = Some (l, r) -> read_elements f d (s ++ q) = Some (l, r ++ q))
  /\ (forall m s m' r, Json.read_members f d m s = Some (m', r) -> Json.read_members f d m (s ++ q) = Some (m', r ++ q)).
Proof.
  induction f as [|f IH]; intros d; [split; [|split]; done|].
  destruct (IH d) as (V & E & M). destruct (IH (d - 1)) as (_ & E' & M').
  split; [|split].
  - intros s v r. cbn [Json.read_value]. destruct (skip_space s) as [|c s1] eqn:K; [done|].
    rewrite (skip_space_more s q) by (by rewrite K). rewrite K. change (String c s1 ++ q) with (String c (s1 ++ q)). cbv beta iota.
    destruct (byte c =? 34).
    { destruct (unquote 0 s1) as [[x r']|] eqn:U; [|done]. intros [= <- <-] _. by rewrite (unquote_more _ _ _ q U). }
    destruct (byte c =? 91).
    { destruct (d =? 0); [done|]. destruct (after "]" (skip_space s1)) as [r'|] eqn:A.
      - intros [= <- <-] _. assert (skip_space s1 <> "") by (intros H; by rewrite H in A).
        rewrite skip_space_more by done. by rewrite (after_more _ _ _ q A).
      - destruct (read_elements f (d - 1) s1) as [[l r']|] eqn:R; [|done]. intros [= <- <-] _.
        rewrite (E' _ _ _ R). assert (skip_space s1 <> "").
        { intros H. destruct f as [|f]; [done|]. rewrite read_elements_S in R. destruct f as [|f]; [done|]. cbn [Json.read_value] in R.
          by rewrite H in R. }
        rewrite skip_space_more by done. by rewrite (after_none _ _ q A). }
    destruct (byte c =? 123).
    { destruct (d =? 0); [done|]. destruct (after "}" (skip_space s1)) as [r'|] eqn:A.
      - intros [= <- <-] _. assert (skip_space s1 <> "") by (intros H; by rewrite H in A).
        rewrite skip_space_more by done. by rewrite (after_more _ _ _ q A).
      - destruct (Json.read_members f (d - 1) [] s1) as [[l r']|] eqn:R; [|done]. intros [= <- <-] _.
        rewrite (M' _ _ _ _ R). assert (skip_space s1 <> "").
        { intros H. destruct f as [|f]; [done|]. rewrite read_members_S in R. by rewrite H in R. }
        rewrite skip_space_more by done. by rewrite (after_none _ _ q A). }
    destruct (byte c =? 110); [|destruct (byte c =? 116); [|destruct (byte c =? 102)]];
      try (unfold read_word; match goal with |- context [after ?w (String c s1)] => destruct (after w (String c s1)) as [r'|] eqn:A end;
           [|done]; intros [= <- <-] _; apply (after_more _ _ _ q) in A; change (String c s1 ++ q) with (String c (s1 ++ q)) in A; by rewrite A).
    destruct (read_number (String c s1)) as [[x r']|] eqn:R; [|done]. intros [= <- <-] [Hr|Hv]; [|by destruct (Hv x)].
    apply (number_more _ _ _ q) in R; [|done]. change (String c s1 ++ q) with (String c (s1 ++ q)) in R. by rewrite R.
  - intros s l r. rewrite !read_elements_S. destruct (Json.read_value f d s) as [[v s1]|] eqn:R; [|done].
    destruct (skip_space s1) as [|c r1] eqn:K; [done|]. intros H.
    rewrite (V _ _ _ R) by (left; intros ->; done). rewrite (skip_space_more s1 q) by (by rewrite K). rewrite K.
    change (String c r1 ++ q) with (String c (r1 ++ q)). cbv beta iota. destruct (byte c =? 93); [by injection H as <- <-|].
    destruct (byte c =? 44); [|done]. destruct (read_elements f d r1) as [[l' r2]|] eqn:R2; [|done]. injection H as <- <-.
    by rewrite (E _ _ _ R2).
  - intros m s m' r. rewrite !read_members_S. destruct (after """" (skip_space s)) as [s1|] eqn:A; [|done].
    rewrite (skip_space_more s q) by (intros K; by rewrite K in A). rewrite (after_more _ _ _ q A).
    destruct (unquote 0 s1) as [[k s2]|] eqn:U; [|done]. rewrite (unquote_more _ _ _ q U).
    destruct (after ":" (skip_space s2)) as [s3|] eqn:B; [|done].
    rewrite (skip_space_more s2 q) by (intros K; by rewrite K in B). rewrite (after_more _ _ _ q B).
    destruct (Json.read_value f d s3) as [[v s4]|] eqn:R; [|done]. cbv zeta.
    destruct (skip_space s4) as [|c r1] eqn:K; [done|]. intros H.
    rewrite (V _ _ _ R) by (left; intros ->; done). rewrite (skip_space_more s4 q) by (by rewrite K). rewrite K.
    change (String c r1 ++ q) with (String c (r1 ++ q)). cbv beta iota. destruct (byte c =? 125); [by injection H as <- <-|].
    destruct (byte c =? 44); [|done]. by rewrite (M _ _ _ _ H).
Qed.

(** An array, or null, followed by something else. *)
Lemma unmarshal_followed s l q : json_unmarshal s = Ok l ->
  (space q -> json_unmarshal (s ++ q) = Ok l)
  /\ (~ space q -> exists e, json_unmarshal (s ++ q) = Err e).
Proof.
  unfold json_unmarshal. destruct (Json.read_value _ 10000 s) as [[v r]|] eqn:R; [|done].
  destruct (skip_space r) as [|] eqn:K; [|done]. intros Hl.
  rewrite fuel_irrelevant in R by lia.
  assert (R' : Json.read_value (2 * String.length (s ++ q) + 2) 10000 (s ++ q) = Some (v, r ++ q)).
  { rewrite <- (fuel_irrelevant 10000 s (2 * String.length (s ++ q) + 2)) in R by (rewrite slength_app; lia).
    apply read_more; [done|]. right. intros x ->. done. }
  rewrite R'. apply skip_all_space in K. rewrite skip_space_app by done. split; intros Hq.
  - apply skip_all_space in Hq. by rewrite Hq.
  - destruct (skip_space q) eqn:Eq; [by apply skip_all_space in Eq|]. by eexists.
Qed.
(** Neither is the beginning of another, white space apart. *)
Lemma unmarshal_cut s l q : json_unmarshal (s ++ q) = Ok l -> ~ space q -> exists e, json_unmarshal s = Err e.
Proof.
  intros H Hq. destruct (json_unmarshal s) as [l'|e|w] eqn:E; [|by eexists|by destruct (json_unmarshal_no_panic s w)].
  destruct (unmarshal_followed s l' q E) as [_ [e E']]; [done|]. congruence.
Qed.

Theorem deserialize_followed `{PL : Platform} sh sh' s m q : json_deserialize sh sh' s = Ok m ->
  (space q -> json_deserialize sh sh' (s ++ q) = Ok m)
  /\ (~ space q -> exists e, json_deserialize sh sh' (s ++ q) = Err e).
Proof.
  unfold json_deserialize. destruct (json_unmarshal s) as [l| |] eqn:E; [|done..]. intros Hm.
  destruct (unmarshal_followed s l q E) as [A B]. split; intros Hq; [by rewrite A|]. destruct (B Hq) as [e ->]. by eexists.
Qed.
Theorem deserialize_cut `{PL : Platform} sh sh' p x m : json_deserialize sh sh' (p ++ x) = Ok m -> ~ space x ->
  exists e, json_deserialize sh sh' p = Err e.
Proof.
  unfold json_deserialize. destruct (json_unmarshal (p ++ x)) as [l| |] eqn:E; [|done..]. intros _ Hx.
  destruct (unmarshal_cut p l x E Hx) as [e ->]. by eexists.
Qed.

(** What is written ends in a bracket. *)
Lemma ends_bracket_cut x : forall p a, p ++ x = a ++ "]" -> x <> "" -> exists b, x = b ++ "]".
Proof.
  intros p. induction p as [|c p IH]; intros a E Hx; [by exists a|]. destruct a as [|c' a].
  - change (String c (p ++ x) = String "]" "") in E. injection E as _ E. by destruct p, x.
  - change (String c (p ++ x) = String c' (a ++ "]")) in E. injection E as _ E. by apply (IH a).
Qed.
Lemma bracket_not_space b : ~ space (b ++ "]").
Proof.
  intros H. apply skip_all_space in H. induction b as [|c b IH]; [done|]. change (String c b ++ "]") with (String c (b ++ "]")) in H.
  cbn [skip_space] in H. by destruct (is_space c); [apply IH|].
Qed.
Lemma marshal_ends l s : json_marshal l = Ok s -> exists a, s = a ++ "]".
Proof.
  unfold json_marshal. destruct (forallb has_text l); [|done]. intros [= <-]. cbn [json_text].
  eexists (_ ++ _). rewrite sapp_assoc. reflexivity.
Qed.
Theorem message_cut `{PL : Platform} sh sh' m s p x : msg_ok m -> message_fits_json m -> json_serialize m = Ok s ->
  s = p ++ x -> x <> "" -> exists e, json_deserialize sh sh' p = Err e.
Proof.
  intros O F E Es Hx. destruct (message_through_json sh sh' m O F) as (s' & m' & E' & D & _). rewrite E in E'. injection E' as <-.
  subst s. apply (deserialize_cut sh sh' p x m'); [done|]. destruct (marshal_ends _ _ E) as [a Ea].
  destruct (ends_bracket_cut x p a Ea Hx) as [b ->]. apply bracket_not_space.
Qed.
