(** Proofs: Unmarshal reads exactly the JSON texts (values). *)
From Coq Require Import Ascii.
From Verif Require Import Prelude Value BaseSpec PathMatch PathMatchSpec PathUtf8 Encoding
  JsonSpec JsonFacts JsonSafe Payload Json JsonRound JsonGrammar JsonNumber JsonRead.

Local Open Scope string_scope.
Local Open Scope N_scope.

(** * White space *)

Lemma space_code c : code c ∈ [32; 9; 10; 13] <-> is_space c = true.
Proof.
  unfold is_space. change (code c) with (byte c). rewrite !orb_true_iff, !N.eqb_eq, !elem_of_cons, elem_of_nil. tauto.
Qed.
Lemma space_cons c s : space (String c s) <-> is_space c = true /\ space s.
Proof. unfold space. change (letters (String c s)) with (c :: letters s). by rewrite Forall_cons, space_code. Qed.
Lemma space_nil : space "".
Proof. constructor. Qed.
Lemma skip_space_app a s : space a -> skip_space (a ++ s) = skip_space s.
Proof.
  induction a as [|c a IH]; [done|]. intros [Hc Ha]%space_cons. change (String c a ++ s) with (String c (a ++ s)).
  cbn [skip_space]. rewrite Hc. by apply IH.
Qed.
Lemma skip_to a c r : space a -> is_space c = false -> skip_space (a ++ String c r) = String c r.
Proof. intros Ha Hc. rewrite skip_space_app by done. cbn [skip_space]. by rewrite Hc. Qed.
Lemma skip_space_inv s : exists a, s = a ++ skip_space s /\ space a.
Proof.
  induction s as [|c s (a & E & Ha)]; [exists ""; split; [done|apply space_nil]|]. cbn [skip_space].
  destruct (is_space c) eqn:C; [|exists ""; split; [done|apply space_nil]].
  exists (String c a). split; [by rewrite sapp_cons, <- E|]. by apply space_cons.
Qed.
Lemma skip_all_space s : skip_space s = "" <-> space s.
Proof.
  split; [|intros H; pose proof (skip_space_app s "" H) as E; by rewrite sapp_nil in E].
  intros H. destruct (skip_space_inv s) as (a & E & Ha). rewrite H, sapp_nil in E. by subst.
Qed.
Lemma ends_space b s : space b -> ends s -> ends (b ++ s).
Proof.
  destruct b as [|c b]; [done|]. intros [Hc _]%space_cons _. right. exists c, (b ++ s). split; [done|by left].
Qed.
Lemma ends_nil : ends "".
Proof. by left. Qed.
Lemma ends_comma r : ends (String "," r).
Proof. right. eexists _, _. split; [reflexivity|]. right; by left. Qed.
Lemma ends_bracket r : ends (String "]" r).
Proof. right. eexists _, _. split; [reflexivity|]. right; right; by left. Qed.
Lemma ends_brace r : ends (String "}" r).
Proof. right. eexists _, _. split; [reflexivity|]. by right; right; right. Qed.

Lemma after_inv t : forall s r, after t s = Some r -> s = t ++ r.
Proof.
  induction t as [|a t IH]; intros s r; [by intros [= ->]|]. destruct s as [|b s]; [done|]. cbn [after].
  destruct (Ascii.eqb_spec a b) as [->|]; [|done]. intros H. apply IH in H as ->. done.
Qed.
Lemma after_app t r : after t (t ++ r) = Some r.
Proof. induction t as [|a t IH]; [done|]. change (String a t ++ r) with (String a (t ++ r)). cbn [after]. by rewrite Ascii.eqb_refl. Qed.
Lemma after_char c s r : after (String c "") s = Some r -> s = String c r.
Proof. apply after_inv. Qed.

(** * The last entry of a key *)

Section keys.
  Context {A : Type}.
  Implicit Types (l m : list (string * A)).
  Lemma assoc_set_keys k (v : A) m k' : k' ∈ map fst (assoc_set k v m) <-> k' = k \/ k' ∈ map fst m.
  Proof.
    induction m as [|[k0 v0] m IH]; cbn [assoc_set]; [cbn; rewrite elem_of_list_singleton; set_solver|].
    destruct (String.eqb_spec k k0) as [->|]; cbn [map fst]; rewrite !elem_of_cons; [tauto|]. rewrite IH. tauto.
  Qed.
  Lemma assoc_set_NoDup k (v : A) m : NoDup (map fst m) -> NoDup (map fst (assoc_set k v m)).
  Proof.
    induction m as [|[k0 v0] m IH]; cbn [assoc_set map fst]; [intros _; apply NoDup_singleton|].
    intros [H0 H]%NoDup_cons. destruct (String.eqb_spec k k0) as [->|]; cbn [map fst]; apply NoDup_cons; [done|].
    split; [|by apply IH]. rewrite assoc_set_keys. intros [->|]; done.
  Qed.
  Lemma assoc_set_in k (v : A) m k' v' : NoDup (map fst m) ->
    (k', v') ∈ assoc_set k v m <-> (k' = k /\ v' = v) \/ (k' <> k /\ (k', v') ∈ m).
  Proof.
    induction m as [|[k0 v0] m IH]; cbn [assoc_set map fst].
    - intros _. rewrite elem_of_list_singleton, elem_of_nil. split; [intros [= -> ->]; by left|intros [[-> ->]|[_ []]]; done].
    - intros [H0 H]%NoDup_cons. destruct (String.eqb_spec k k0) as [->|Hk]; rewrite !elem_of_cons.
      + split.
        * intros [[= -> ->]|Hin]; [by left|]. right. split; [|by right]. intros ->. apply H0. by apply (elem_of_list_fmap_1 fst) in Hin.
        * intros [[-> ->]|[Hne [[= -> ->]|Hin]]]; [by left|done|by right].
      + rewrite IH by done. split; [intros [[= -> ->]|[?|[? ?]]]|intros [[-> ->]|[? [[= -> ->]|?]]]]; naive_solver.
  Qed.
  Definition set_all l m : list (string * A) := fold_left (fun m kv => assoc_set (fst kv) (snd kv) m) l m.
  Lemma set_all_last l : last_entries l (set_all l []).
  Proof.
    induction l as [|[k v] l [Hd IH]] using rev_ind.
    - split; [apply NoDup_nil_2|]. intros k v. cbn. rewrite elem_of_nil. split; [done|]. intros (l1 & l2 & E & _). by destruct l1.
    - unfold set_all in *. rewrite fold_left_app. cbn [fold_left fst snd]. split; [by apply assoc_set_NoDup|].
      intros k' v'. rewrite assoc_set_in, IH by done. split.
      + intros [[-> ->]|[Hk (l1 & l2 & -> & H2)]].
        * exists l, []. split; [done|apply not_elem_of_nil].
        * exists l1, (l2 ++ [(k, v)])%list. rewrite <- app_assoc. split; [done|]. rewrite map_app, elem_of_app. cbn [map fst].
          rewrite elem_of_list_singleton. intros [|]; done.
      + intros (l1 & l2 & E & H2). destruct l2 as [|[k2 v2] l2 _] using rev_ind.
        * apply app_inj_tail in E as [-> [= -> ->]]. by left.
        * rewrite app_comm_cons, app_assoc in E. apply app_inj_tail in E as [-> [= -> ->]].
          rewrite map_app, elem_of_app in H2. cbn [map fst] in H2. rewrite elem_of_list_singleton in H2.
          right. split; [intros ->; apply H2; by right|]. exists l1, l2. split; [done|]. intros ?. apply H2. by left.
  Qed.
End keys.

(** * What is read is a JSON text *)

Definition padded (s : string) (t : tree) : Prop :=
  exists a u b, s = a ++ u ++ b /\ space a /\ space b /\ jvalue true u t.
Definition padded_member (s : string) (kt : string * tree) : Prop :=
  exists a k b c u d, s = a ++ k ++ b ++ ":" ++ c ++ u ++ d
    /\ space a /\ space b /\ space c /\ space d /\ jstring true k (fst kt) /\ jvalue true u (snd kt).
Definition entry_means (kt : string * tree) (kv : string * value) : Prop :=
  fst kt = fst kv /\ means (snd kt) (snd kv).

Lemma depth_list l d : d <> 0 -> Forall (fun t => depth t <= d - 1) l -> depth (JList l) <= d.
Proof.
  intros Hd H. cbn [depth]. assert (foldr N.max 0 (map depth l) <= d - 1); [|lia].
  induction H; cbn [map foldr]; lia.
Qed.
Lemma depth_dict m d : d <> 0 -> Forall (fun kt : string * tree => depth (snd kt) <= d - 1) m -> depth (JDict m) <= d.
Proof.
  intros Hd H. cbn [depth]. assert (foldr N.max 0 (map (fun kt => depth (snd kt)) m) <= d - 1); [|lia].
  induction H; cbn [map foldr]; lia.
Qed.
Lemma depth_list_inv l d : depth (JList l) <= d -> d <> 0 /\ Forall (fun t => depth t <= d - 1) l.
Proof.
  cbn [depth]. intros H. split; [lia|]. apply Forall_forall. intros t Ht. apply (max_in depth) in Ht. lia.
Qed.
Lemma depth_dict_inv m d : depth (JDict m) <= d -> d <> 0 /\ Forall (fun kt : string * tree => depth (snd kt) <= d - 1) m.
Proof.
  cbn [depth]. intros H. split; [lia|]. apply Forall_forall. intros t Ht. apply (max_in (fun kt => depth (snd kt))) in Ht. lia.
Qed.

Lemma read_sound f : forall d,
  (forall s v r, Json.read_value f d s = Some (v, r) ->
     exists a u t, s = a ++ u ++ r /\ space a /\ jvalue true u t /\ depth t <= d /\ means t v)
  /\ (forall s vs r, read_elements f d s = Some (vs, r) ->
     exists ss ts, ss <> [] /\ s = String.concat "," ss ++ String "]" r /\ Forall2 padded ss ts
       /\ Forall (fun t => depth t <= d) ts /\ Forall2 means ts vs)
  /\ (forall s m m' r, Json.read_members f d m s = Some (m', r) ->
     exists ss kts kvs, ss <> [] /\ s = String.concat "," ss ++ String "}" r /\ Forall2 padded_member ss kts
       /\ Forall (fun kt => depth (snd kt) <= d) kts /\ Forall2 entry_means kts kvs /\ m' = set_all kvs m).
Proof.
  induction f as [|f IH]; intros d; [split; [|split]; done|].
  destruct (IH d) as (V & E & M). destruct (IH (d - 1)) as (_ & E' & M'). clear IH.
  split; [|split].
  - intros s v r. cbn [Json.read_value]. destruct (skip_space_inv s) as (a & Es & Ha). destruct (skip_space s) as [|c s1]; [done|].
    assert (W : forall t, (exists u, String c s1 = u ++ r /\ jvalue true u t) -> depth t <= d -> means t v ->
                exists a u t, s = a ++ u ++ r /\ space a /\ jvalue true u t /\ depth t <= d /\ means t v).
    { intros t (u & Eu & Ju) Dt Mt. exists a, u, t. by rewrite <- Eu. }
    clear Es Ha a. destruct (N.eqb_spec (byte c) 34) as [C|_].
    { assert (c = """"%char) as -> by (by apply code_char). destruct (unquote 0 s1) as [[x r']|] eqn:U; [|done]. intros [= <- <-].
      apply (unquote_chars (String.length s1) s1) in U as (b & -> & J); [|done]. apply (W (JString x)); [|cbn; lia|constructor].
      exists ("""" ++ b ++ """"). split; [by rewrite !sapp_assoc|]. constructor. by exists b. }
    destruct (N.eqb_spec (byte c) 91) as [C|_].
    { assert (c = "["%char) as -> by (by apply code_char). destruct (N.eqb_spec d 0); [done|].
      destruct (after "]" (skip_space s1)) as [r1|] eqn:A.
      - intros [= <- <-]. apply after_inv in A. destruct (skip_space_inv s1) as (b & E1 & Hb). rewrite A in E1. subst s1.
        apply (W (JList [])); [|cbn; lia|by constructor]. exists ("[" ++ b ++ "]"). split; [by rewrite !sapp_assoc|by constructor].
      - destruct (read_elements f (d - 1) s1) as [[l r1]|] eqn:R; [|done]. intros [= <- <-].
        apply E' in R as (ss & ts & Hne & -> & F & D & Mn). apply (W (JList ts)); [|by apply depth_list|by constructor].
        exists ("[" ++ String.concat "," ss ++ "]"). split; [by rewrite !sapp_assoc|]. apply jv_list; [|exact F].
        intros ->. by inversion F; subst. }
    destruct (N.eqb_spec (byte c) 123) as [C|_].
    { assert (c = "{"%char) as -> by (by apply code_char). destruct (N.eqb_spec d 0); [done|].
      destruct (after "}" (skip_space s1)) as [r1|] eqn:A.
      - intros [= <- <-]. apply after_inv in A. destruct (skip_space_inv s1) as (b & E1 & Hb). rewrite A in E1. subst s1.
        apply (W (JDict [])); [|cbn; lia|].
        + exists ("{" ++ b ++ "}"). split; [by rewrite !sapp_assoc|by constructor].
        + apply (me_dict [] [] []); [constructor|]. apply (set_all_last []).
      - destruct (Json.read_members f (d - 1) [] s1) as [[l r1]|] eqn:R; [|done]. intros [= <- <-].
        apply M' in R as (ss & kts & kvs & Hne & -> & F & D & Mn & ->). apply (W (JDict kts)); [|by apply depth_dict|].
        + exists ("{" ++ String.concat "," ss ++ "}"). split; [by rewrite !sapp_assoc|]. apply jv_dict; [|exact F].
          intros ->. by inversion F; subst.
        + apply (me_dict kts kvs); [exact Mn|apply set_all_last]. }
    destruct (N.eqb_spec (byte c) 110) as [C|_].
    { unfold read_word. destruct (after "null" (String c s1)) as [r1|] eqn:A; [|done]. intros [= <- <-]. apply after_inv in A.
      apply (W JNull); [|cbn; lia|constructor]. exists "null". split; [done|constructor]. }
    destruct (N.eqb_spec (byte c) 116) as [C|_].
    { unfold read_word. destruct (after "true" (String c s1)) as [r1|] eqn:A; [|done]. intros [= <- <-]. apply after_inv in A.
      apply (W (JBool true)); [|cbn; lia|constructor]. exists "true". split; [done|constructor]. }
    destruct (N.eqb_spec (byte c) 102) as [C|_].
    { unfold read_word. destruct (after "false" (String c s1)) as [r1|] eqn:A; [|done]. intros [= <- <-]. apply after_inv in A.
      apply (W (JBool false)); [|cbn; lia|constructor]. exists "false". split; [done|constructor]. }
    destruct (read_number (String c s1)) as [[x r1]|] eqn:R; [|done]. intros [= <- <-].
    apply number_inv in R as (t & neg & n & x' & Et & J & S). apply (W (JNumber neg n x')); [|cbn; lia|by constructor].
    exists t. split; [done|by constructor].
  - intros s vs r. rewrite read_elements_S. destruct (Json.read_value f d s) as [[v s1]|] eqn:R; [|done].
    apply V in R as (a & u & t & -> & Ha & Ju & Dt & Mt). destruct (skip_space_inv s1) as (b & Es & Hb).
    destruct (skip_space s1) as [|c r1]; [done|]. subst s1. destruct (N.eqb_spec (byte c) 93) as [C|_].
    + assert (c = "]"%char) as -> by (by apply code_char). intros [= <- <-]. exists [a ++ u ++ b], [t]. split; [done|].
      split; [cbn [String.concat]; by rewrite !sapp_assoc|]. split; [|split; by repeat constructor].
      repeat constructor. by exists a, u, b.
    + destruct (N.eqb_spec (byte c) 44) as [C|_]; [|done]. assert (c = ","%char) as -> by (by apply code_char).
      destruct (read_elements f d r1) as [[l r2]|] eqn:R; [|done]. intros [= <- <-].
      apply E in R as (ss & ts & Hne & -> & F & D & Mn). exists ((a ++ u ++ b) :: ss), (t :: ts). split; [done|].
      split; [destruct ss as [|s2 ss]; [done|]; rewrite concat_cons; by rewrite !sapp_assoc|].
      split; [constructor; [by exists a, u, b|done]|]. split; by constructor.
  - intros s m m' r. rewrite read_members_S. destruct (skip_space_inv s) as (a & Es & Ha).
    destruct (after """" (skip_space s)) as [s1|] eqn:A; [|done]. apply after_char in A. rewrite A in Es. subst s. clear A.
    destruct (unquote 0 s1) as [[k s2]|] eqn:U; [|done]. apply (unquote_chars (String.length s1) s1) in U as (kb & -> & Jk); [|done].
    destruct (skip_space_inv s2) as (b & Es & Hb). destruct (after ":" (skip_space s2)) as [s3|] eqn:A; [|done].
    apply after_char in A. rewrite A in Es. subst s2. clear A.
    destruct (Json.read_value f d s3) as [[v s4]|] eqn:R; [|done]. apply V in R as (c & u & t & -> & Hc & Ju & Dt & Mt).
    destruct (skip_space_inv s4) as (e & Es & He). cbv zeta. destruct (skip_space s4) as [|x r1]; [done|]. subst s4.
    set (ms := a ++ ("""" ++ kb ++ """") ++ b ++ ":" ++ c ++ u ++ e).
    assert (P : padded_member ms (k, t)).
    { exists a, ("""" ++ kb ++ """"), b, c, u, e. repeat (split; [done|]). split; [by exists kb|done]. }
    assert (Ems : forall y, a ++ String """" (kb ++ String """" (b ++ String ":" (c ++ u ++ e ++ y))) = ms ++ y).
    { intros y. unfold ms. by rewrite !sapp_assoc. }
    rewrite Ems. destruct (N.eqb_spec (byte x) 125) as [C|_].
    + assert (x = "}"%char) as -> by (by apply code_char). intros [= <- <-]. exists [ms], [(k, t)], [(k, v)].
      split; [done|]. split; [done|]. split; [by repeat constructor|]. split; [by repeat constructor|]. split; [|done].
      by repeat constructor.
    + destruct (N.eqb_spec (byte x) 44) as [C|_]; [|done]. assert (x = ","%char) as -> by (by apply code_char).
      intros R. apply M in R as (ss & kts & kvs & Hne & -> & F & D & Mn & ->).
      exists (ms :: ss), ((k, t) :: kts), ((k, v) :: kvs). split; [done|].
      split; [destruct ss as [|z ss]; [done|]; rewrite concat_cons; by rewrite !sapp_assoc|].
      split; [by constructor|]. split; [by constructor|]. split; [|done]. constructor; [by split|done].
Qed.

(** * Every JSON text is read *)

Lemma jnumber_starts s neg n x : jnumber s neg n x -> exists c r, s = String c r /\ (byte c = 45 \/ 48 <= byte c <= 57).
Proof.
  intros [neg' w f d e x' Hw Hne _ _ _]. destruct neg'; [eexists _, _; split; [reflexivity|by left]|].
  destruct w as [|c w]; [done|]. apply Forall_cons in Hw as [Hc _]. apply digit_code_bounds in Hc.
  eexists c, _. split; [reflexivity|by right].
Qed.
Lemma jvalue_starts u t : jvalue true u t -> starts u.
Proof.
  intros H. destruct H as [| | |s neg n x J|s x (b & -> & _)|a _|ss ts _ _|a _|ss m _ _];
    try (eexists _, _; split; [reflexivity|by vm_compute]).
  apply jnumber_starts in J as (c & r & -> & Hc). exists c, r. split; [done|]. unfold is_space.
  destruct (N.eqb_spec (byte c) 32), (N.eqb_spec (byte c) 9), (N.eqb_spec (byte c) 10), (N.eqb_spec (byte c) 13); lia.
Qed.

(** [u] is read as [v], whatever ends it. *)
Definition reads (d : N) (u : string) (v : value) : Prop :=
  exists f0 : nat, forall fuel rest, (f0 <= fuel)%nat -> ends rest -> Json.read_value fuel d (u ++ rest) = Some (v, rest).
Lemma read_value_space fuel d a s : space a -> Json.read_value fuel d (a ++ s) = Json.read_value fuel d s.
Proof. intros Ha. destruct fuel as [|f]; [done|]. cbn [Json.read_value]. by rewrite skip_space_app. Qed.
Lemma is_space_punct : is_space "," = false /\ is_space "]" = false /\ is_space "}" = false /\ is_space ":" = false /\ is_space """" = false.
Proof. done. Qed.

Definition read_padded d (s : string) (v : value) : Prop :=
  exists a u b, s = a ++ u ++ b /\ space a /\ space b /\ starts u /\ reads d u v.
Lemma elements_run d ss vs : Forall2 (read_padded d) ss vs -> ss <> [] ->
  exists f0 : nat, forall fuel rest, (f0 <= fuel)%nat ->
    read_elements fuel d (String.concat "," ss ++ String "]" rest) = Some (vs, rest).
Proof.
  induction 1 as [|s v ss vs (a & u & b & -> & Ha & Hb & Hs & (f1 & R)) F IH]; [done|]. intros _.
  destruct F as [|s2 v2 ss vs H2 F].
  - exists (S f1). intros fuel rest Hf. destruct fuel as [|f]; [lia|]. rewrite read_elements_S. cbn [String.concat].
    rewrite !sapp_assoc, read_value_space by done. rewrite R; [|lia|apply ends_space; [done|apply ends_bracket]].
    rewrite skip_to by done. done.
  - destruct IH as (f2 & IH); [done|]. exists (S (f1 + f2)). intros fuel rest Hf. destruct fuel as [|f]; [lia|].
    rewrite read_elements_S, concat_cons, !sapp_assoc, read_value_space by done.
    match goal with |- context ["," ++ ?x] => change ("," ++ x) with (String "," x) end.
    rewrite R; [|lia|apply ends_space; [done|apply ends_comma]].
    rewrite skip_to by done. change (byte "," =? 93) with false. change (byte "," =? 44) with true. cbv iota.
    rewrite IH by lia. done.
Qed.
Definition read_member d (s : string) (kv : string * value) : Prop :=
  exists a k b c u e, s = a ++ k ++ b ++ ":" ++ c ++ u ++ e
    /\ space a /\ space b /\ space c /\ space e /\ jstring true k (fst kv) /\ reads d u (snd kv).
Lemma member_run d s k v : read_member d s (k, v) ->
  exists f0 : nat, forall f rest m, (f0 <= f)%nat -> ends rest -> Json.read_members (S f) d m (s ++ rest) =
    match skip_space rest with
    | String c r =>
        if byte c =? 125 then Some (assoc_set k v m, r)
        else if byte c =? 44 then Json.read_members f d (assoc_set k v m) r
        else None
    | EmptyString => None
    end.
Proof.
  intros (a & kt & b & c & u & e & -> & Ha & Hb & Hc & He & (kb & -> & Jk) & (f1 & R)). cbn [fst snd] in *.
  exists f1. intros f rest m Hf Hr. rewrite read_members_S, !sapp_assoc.
  match goal with |- context ["""" ++ kb ++ ?x] => change ("""" ++ kb ++ x) with (String """" (kb ++ x)) end.
  rewrite skip_to by done. cbn [after]. rewrite Ascii.eqb_refl.
  match goal with |- context [kb ++ ("""" ++ ?x)] => change ("""" ++ x) with (String """" x) end.
  rewrite (jchars_unquote kb k Jk).
  match goal with |- context [":" ++ ?x] => change (":" ++ x) with (String ":" x) end.
  rewrite skip_to by done. cbn [after]. rewrite Ascii.eqb_refl, read_value_space by done.
  rewrite R; [|lia|by apply ends_space]. rewrite skip_space_app by done. done.
Qed.
Lemma members_run d ss kvs : Forall2 (read_member d) ss kvs -> ss <> [] ->
  exists f0 : nat, forall fuel rest m, (f0 <= fuel)%nat ->
    Json.read_members fuel d m (String.concat "," ss ++ String "}" rest) = Some (set_all kvs m, rest).
Proof.
  induction 1 as [|s [k v] ss kvs Hm F IH]; [done|]. intros _. apply member_run in Hm as (f1 & R).
  destruct F as [|s2 v2 ss kvs H2 F].
  - exists (S f1). intros fuel rest m Hf. destruct fuel as [|f]; [lia|]. cbn [String.concat].
    rewrite R; [|lia|apply ends_brace]. done.
  - destruct IH as (f2 & IH); [done|]. exists (S (f1 + f2)). intros fuel rest m Hf. destruct fuel as [|f]; [lia|].
    rewrite concat_cons, !sapp_assoc.
    match goal with |- context ["," ++ ?x] => change ("," ++ x) with (String "," x) end.
    rewrite R; [|lia|apply ends_comma]. change (skip_space (String "," ?x)) with (String "," x).
    cbn [skip_space]. change (is_space ",") with false. cbv iota.
    change (byte "," =? 125) with false. change (byte "," =? 44) with true. cbv iota.
    rewrite IH by lia. done.
Qed.

Lemma concat_length s ss : s ∈ ss -> (String.length s <= String.length (String.concat "," ss))%nat.
Proof.
  induction ss as [|s0 ss IH]; [by rewrite elem_of_nil|]. rewrite elem_of_cons. destruct ss as [|s1 ss].
  - rewrite elem_of_nil. by intros [->|[]].
  - rewrite concat_cons, !slength_app. intros [->|H]; [lia|]. apply IH in H. cbn [String.length]. lia.
Qed.
Lemma first_not_space c r d f rest : is_space c = false ->
  Json.read_value (S f) d (String c r ++ rest) =
  (if byte c =? 34 then
     match unquote 0 (r ++ rest) with Some (x, r) => Some (VStr x, r) | None => None end
   else if byte c =? 91 then
     if d =? 0 then None
     else match after "]" (skip_space (r ++ rest)) with
          | Some r => Some (VSlice (Some []), r)
          | None => match read_elements f (d - 1) (r ++ rest) with
                    | Some (l, r) => Some (VSlice (Some l), r)
                    | None => None
                    end
          end
   else if byte c =? 123 then
     if d =? 0 then None
     else match after "}" (skip_space (r ++ rest)) with
          | Some r => Some (VMap (Some []), r)
          | None => match Json.read_members f (d - 1) [] (r ++ rest) with
                    | Some (m, r) => Some (VMap (Some m), r)
                    | None => None
                    end
          end
   else if byte c =? 110 then read_word "null" VNil (String c (r ++ rest))
   else if byte c =? 116 then read_word "true" (VBool true) (String c (r ++ rest))
   else if byte c =? 102 then read_word "false" (VBool false) (String c (r ++ rest))
   else match read_number (String c (r ++ rest)) with Some (x, r) => Some (VF64 x, r) | None => None end).
Proof. intros H. change (String c r ++ rest) with (String c (r ++ rest)). cbn [Json.read_value skip_space]. by rewrite H. Qed.

Lemma read_complete n : forall u t d, (String.length u <= n)%nat -> jvalue true u t -> depth t <= d -> in_range t ->
  exists v, means t v /\ reads d u v.
Proof.
  induction n as [|n IH]; intros u t d Hn H Hd Hr; pose proof (starts_length u (jvalue_starts u t H)) as Hl; [lia|].
  destruct H as [| | |s neg k x J|s x (b & -> & J)|a Ha|ss ts Hne F|a Ha|ss m Hne F].
  - exists VNil. split; [constructor|]. exists 1%nat. intros [|f] rest Hf He; [lia|]. done.
  - exists (VBool true). split; [constructor|]. exists 1%nat. intros [|f] rest Hf He; [lia|]. done.
  - exists (VBool false). split; [constructor|]. exists 1%nat. intros [|f] rest Hf He; [lia|]. done.
  - inversion Hr as [| |? ? ? Hx| | |]; subst. pose proof (number_spec neg k x) as V.
    pose proof (fun rest => number_run s neg k x rest J) as N. destruct (value_of k x) as [g|]; [|done].
    exists (VF64 (negate neg g)). split; [by constructor|]. exists 1%nat. intros [|f] rest Hf He; [lia|].
    specialize (N rest He). pose proof (jvalue_starts _ _ (jv_number true _ _ _ _ J)) as (c & r & -> & Hc & _).
    pose proof (jnumber_starts _ _ _ _ J) as (c' & r' & E & Hb). injection E as <- <-.
    rewrite first_not_space by done. change (String c r ++ rest) with (String c (r ++ rest)) in N. rewrite N.
    destruct (N.eqb_spec (byte c) 34), (N.eqb_spec (byte c) 91), (N.eqb_spec (byte c) 123), (N.eqb_spec (byte c) 110),
      (N.eqb_spec (byte c) 116), (N.eqb_spec (byte c) 102); lia || done.
  - exists (VStr x). split; [constructor|]. exists 1%nat. intros [|f] rest Hf He; [lia|].
    change ("""" ++ b ++ """") with (String """" (b ++ """")). rewrite first_not_space by done.
    change (byte """" =? 34) with true. cbv iota. rewrite sapp_assoc. change ("""" ++ rest) with (String """" rest).
    by rewrite (jchars_unquote b x J).
  - apply depth_list_inv in Hd as [Hd _]. exists (VSlice (Some [])). split; [by constructor|]. exists 1%nat.
    intros [|f] rest Hf He; [lia|]. change ("[" ++ a ++ "]") with (String "[" (a ++ "]")). rewrite first_not_space by done.
    change (byte "[" =? 34) with false. change (byte "[" =? 91) with true. cbv iota. destruct (N.eqb_spec d 0); [done|].
    rewrite sapp_assoc. change ("]" ++ rest) with (String "]" rest). rewrite skip_to by done. done.
  - apply depth_list_inv in Hd as [Hd D]. inversion Hr as [| | | |? Rl|]; subst.
    assert (Hss : forall s, s ∈ ss -> (String.length s <= n)%nat).
    { intros s Hs. apply concat_length in Hs. cbn [String.length] in Hn. rewrite !slength_app in Hn. cbn [String.length] in Hn. lia. }
    assert (X : exists vs, Forall2 means ts vs /\ Forall2 (read_padded (d - 1)) ss vs).
    { clear Hne Hn Hr Hl. induction F as [|s t ss ts (a & u & b & -> & Ha & Hb & Ju) F IHF]; [by exists []|].
      apply Forall_cons in D as [D1 D]. apply Forall_cons in Rl as [R1 Rl].
      destruct IHF as (vs & Mv & Rv); [done|done|intros; apply Hss; by right|].
      destruct (IH u t (d - 1)) as (v & Mt & Rt); [|done|done|done|].
      - specialize (Hss (a ++ u ++ b) (elem_of_list_here _ _)). rewrite !slength_app in Hss. lia.
      - exists (v :: vs). split; [by constructor|]. constructor; [|done]. exists a, u, b.
        repeat (split; [done|]). split; [by apply (jvalue_starts u t)|done]. }
    destruct X as (vs & Mv & Rv). exists (VSlice (Some vs)). split; [by constructor|].
    assert (Hs : ss <> []) by (intros ->; by inversion F; subst).
    destruct (elements_run (d - 1) ss vs Rv Hs) as (f0 & R). exists (S f0). intros [|f] rest Hf He; [lia|].
    change ("[" ++ String.concat "," ss ++ "]") with (String "[" (String.concat "," ss ++ "]")). rewrite first_not_space by done.
    change (byte "[" =? 34) with false. change (byte "[" =? 91) with true. cbv iota. destruct (N.eqb_spec d 0); [done|].
    rewrite sapp_assoc. change ("]" ++ rest) with (String "]" rest).
    assert (after "]" (skip_space (String.concat "," ss ++ String "]" rest)) = None) as ->.
    { destruct Rv as [|s v ss vs (a & u & b & -> & Ha & Hb & Su & _) _]; [done|].
      destruct ss; [cbn [String.concat]|rewrite concat_cons]; rewrite !sapp_assoc, skip_space_app, starts_skip by done;
        by apply starts_bracket. }
    rewrite R by lia. done.
  - apply depth_dict_inv in Hd as [Hd _]. exists (VMap (Some [])).
    split; [apply (me_dict [] [] []); [constructor|apply (set_all_last [])]|]. exists 1%nat.
    intros [|f] rest Hf He; [lia|]. change ("{" ++ a ++ "}") with (String "{" (a ++ "}")). rewrite first_not_space by done.
    change (byte "{" =? 34) with false. change (byte "{" =? 91) with false. change (byte "{" =? 123) with true. cbv iota.
    destruct (N.eqb_spec d 0); [done|].
    rewrite sapp_assoc. change ("}" ++ rest) with (String "}" rest). rewrite skip_to by done. done.
  - apply depth_dict_inv in Hd as [Hd D]. inversion Hr as [| | | | |? Rl]; subst.
    assert (Hss : forall s, s ∈ ss -> (String.length s <= n)%nat).
    { intros s Hs. apply concat_length in Hs. cbn [String.length] in Hn. rewrite !slength_app in Hn. cbn [String.length] in Hn. lia. }
    assert (X : exists kvs, Forall2 entry_means m kvs /\ Forall2 (read_member (d - 1)) ss kvs).
    { clear Hne Hn Hr Hl. induction F as [|s [k t] ss ts (a & kt & b & c & u & e & -> & Ha & Hb & Hc & He & Jk & Ju) F IHF]; [by exists []|].
      cbn [fst snd] in *. apply Forall_cons in D as [D1 D]. apply Forall_cons in Rl as [R1 Rl]. cbn [snd] in *.
      destruct IHF as (vs & Mv & Rv); [done|done|intros; apply Hss; by right|].
      destruct (IH u t (d - 1)) as (v & Mt & Rt); [|done|done|done|].
      - specialize (Hss _ (elem_of_list_here _ _)). rewrite !slength_app in Hss. lia.
      - exists ((k, v) :: vs). split; [constructor; [by split|done]|]. constructor; [|done]. by exists a, kt, b, c, u, e. }
    destruct X as (kvs & Mv & Rv). exists (VMap (Some (set_all kvs []))).
    split; [apply (me_dict m kvs); [exact Mv|apply set_all_last]|].
    assert (Hs : ss <> []) by (intros ->; by inversion F; subst).
    destruct (members_run (d - 1) ss kvs Rv Hs) as (f0 & R). exists (S f0). intros [|f] rest Hf He; [lia|].
    change ("{" ++ String.concat "," ss ++ "}") with (String "{" (String.concat "," ss ++ "}")). rewrite first_not_space by done.
    change (byte "{" =? 34) with false. change (byte "{" =? 91) with false. change (byte "{" =? 123) with true. cbv iota.
    destruct (N.eqb_spec d 0); [done|]. rewrite sapp_assoc. change ("}" ++ rest) with (String "}" rest).
    assert (after "}" (skip_space (String.concat "," ss ++ String "}" rest)) = None) as ->.
    { destruct Rv as [|s v ss vs (a & k & b & c & u & e & -> & Ha & _ & _ & _ & (kb & -> & _) & _) _]; [done|].
      destruct ss; [cbn [String.concat]|rewrite concat_cons]; rewrite !sapp_assoc;
      match goal with |- context ["""" ++ kb ++ ?x] => change ("""" ++ kb ++ x) with (String """" (kb ++ x)) end;
        rewrite skip_to by done; by apply after_first. }
    rewrite R by lia. done.
Qed.

(** * Unmarshal *)

Lemma unmarshal_sound s l : json_unmarshal s = Ok l ->
  exists t, json true s t /\ depth t <= 10000 /\
    match l with None => t = JNull | Some vs => means t (VSlice (Some vs)) end.
Proof.
  unfold json_unmarshal. destruct (Json.read_value _ 10000 s) as [[v r]|] eqn:R; [|done].
  apply (read_sound _ 10000) in R as (a & u & t & -> & Ha & Ju & Dt & Mt).
  destruct (skip_space r) as [|] eqn:E; [|done]. apply skip_all_space in E.
  assert (J : json true (a ++ u ++ r) t) by (by exists a, u, r).
  destruct v; try done; intros [= <-].
  - exists t. split; [done|]. split; [done|]. by inversion Mt.
  - inversion Mt as [| | | |ts vs F|]; subst. by exists (JList ts).
Qed.
Lemma read_top s t : json true s t -> depth t <= 10000 -> in_range t ->
  exists v, means t v /\ exists r, space r /\ Json.read_value (2 * String.length s + 2) 10000 s = Some (v, r).
Proof.
  intros (a & u & b & -> & Ha & Hb & Ju) Dt Rt.
  destruct (read_complete _ u t 10000 (Nat.le_refl _) Ju Dt Rt) as (v & Mt & f0 & R). exists v. split; [done|]. exists b. split; [done|].
  rewrite fuel_irrelevant by lia. set (s := a ++ u ++ b).
  rewrite <- (fuel_irrelevant 10000 s (f0 + (2 * String.length s + 1))) by lia. unfold s at 2. rewrite read_value_space by done.
  apply R; [lia|]. rewrite <- (sapp_nil b). apply ends_space; [done|apply ends_nil].
Qed.
Lemma unmarshal_complete s t : json true s t -> depth t <= 10000 -> in_range t ->
  match t with
  | JNull => json_unmarshal s = Ok None
  | JList ts => exists vs, json_unmarshal s = Ok (Some vs) /\ means t (VSlice (Some vs))
  | _ => exists e, json_unmarshal s = Err e
  end.
Proof.
  intros J Dt Rt. destruct (read_top s t J Dt Rt) as (v & Mt & r & Hr & R). unfold json_unmarshal. rewrite R.
  apply skip_all_space in Hr. rewrite Hr. inversion Mt; subst; try done; by eexists.
Qed.
Lemma unmarshal_number s neg n x : jnumber s neg n x ->
  match json_unmarshal ("[" ++ s ++ "]") with
  | Ok l => exists f, l = Some [VF64 f] /\ stands_for (decimal neg n x) f
  | Err _ => ~ representable (decimal neg n x)
  | Panic _ => False
  end.
Proof.
  intros J. pose proof (number_spec neg n x) as V. pose proof (number_run s neg n x "]" J (ends_bracket "")) as R.
  assert (E : forall f, Json.read_value (S (S (S f))) 10000 ("[" ++ s ++ "]") =
     match value_of n x with Some g => Some (VSlice (Some [VF64 (negate neg g)]), "") | None => None end).
  { intros f. change ("[" ++ s ++ "]") with (String "[" "" ++ (s ++ "]")). rewrite first_not_space by done.
    change (byte "[" =? 34) with false. change (byte "[" =? 91) with true. change (10000 =? 0) with false. cbv iota.
    change ("" ++ s ++ "]") with (s ++ "]").
    pose proof (jvalue_starts _ _ (jv_number true _ _ _ _ J)) as St. rewrite starts_skip, starts_bracket by done.
    rewrite read_elements_S. pose proof (jnumber_starts _ _ _ _ J) as (c & r & -> & Hb). destruct St as (? & ? & [= <- <-] & Hc & _).
    rewrite first_not_space by done. change (String c r ++ "]") with (String c (r ++ "]")) in R. rewrite R.
    destruct (value_of n x);
    destruct (N.eqb_spec (byte c) 34), (N.eqb_spec (byte c) 91), (N.eqb_spec (byte c) 123), (N.eqb_spec (byte c) 110),
      (N.eqb_spec (byte c) 116), (N.eqb_spec (byte c) 102); lia || done. }
  unfold json_unmarshal. cbn [String.length].
  assert (K : exists f, (2 * String.length ("[" ++ s ++ "]") + 2 = S (S (S f)))%nat).
  { exists (2 * String.length ("[" ++ s ++ "]") - 1)%nat. rewrite !slength_app. cbn [String.length]. lia. }
  destruct K as (f & ->). rewrite E. destruct (value_of n x) as [g|]; [|done]. cbn [skip_space]. by eexists.
Qed.
