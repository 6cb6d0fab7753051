(** path.Match against the glob language. *)
From Coq Require Import Ascii.
From Coq Require Import ZifyN ZifyNat.
From Verif Require Import Prelude PathMatch PathMatchSpec PathUtf8 PathMatchParse.

Local Open Scope string_scope.
Local Open Scope N_scope.

(** * scanChunk *)

Lemma string_ind2 (P : string -> Prop) : P "" -> (forall a, P (String a "")) ->
  (forall a b s, P s -> P (String b s) -> P (String a (String b s))) -> forall s, P s.
Proof.
  intros H0 H1 H2 s. assert (P s /\ forall a, P (String a s)) as [H _]; [|exact H].
  induction s as [|b s [IH1 IH2]]; [split; [exact H0|exact H1]|]. split; [apply IH2|].
  intros a. by apply H2.
Qed.

Lemma scan_split p : forall b c r, scan b p = (c, r) -> p = c ++ r /\ (r = "" \/ first_is "*" r).
Proof.
  induction p as [|a|a a2 p IH1 IH2] using string_ind2; intros b c r.
  - intros [= <- <-]. by split; [|left].
  - cbn [scan]. chars. destruct (Ascii.eqb_spec a "\"); [intros [= <- <-]; by split; [|left]|].
    destruct (Ascii.eqb_spec a "*") as [->|]; [destruct b|]; cbn [andb negb]; intros [= <- <-]; (split; [done|]); [by left|right; by exists ""|by left].
  - remember (String a2 p) as q eqn:Eq. cbn [scan]. chars. destruct (Ascii.eqb_spec a "\").
    { subst q. destruct (scan b p) as [c' r'] eqn:E. intros [= <- <-]. apply IH1 in E as [-> E]. by split. }
    destruct (Ascii.eqb_spec a "*") as [->|]; [destruct b|]; cbn [andb negb].
    2: { intros [= <- <-]. split; [done|]. right. by exists q. }
    all: destruct (scan _ q) as [c' r'] eqn:E; intros [= <- <-]; apply IH2 in E as [E1 E2]; (split; [by rewrite sapp_cons, <- E1|exact E2]).
Qed.
Lemma scan_idem p : forall b c r, scan b p = (c, r) -> scan b c = (c, "").
Proof.
  induction p as [|a|a a2 p IH1 IH2] using string_ind2; intros b c r.
  - by intros [= <- <-].
  - cbn [scan]. chars. destruct (Ascii.eqb_spec a "\") as [->|Na]; [by intros [= <- <-]|].
    destruct (Ascii.eqb_spec a "*") as [->|Nb]; [destruct b|]; cbn [andb negb]; intros [= <- <-]; [done|done|].
    cbn [scan]. chars. destruct (Ascii.eqb_spec a "\"); [done|]. by destruct (Ascii.eqb_spec a "*").
  - remember (String a2 p) as q eqn:Eq. cbn [scan]. chars. destruct (Ascii.eqb_spec a "\") as [->|Na].
    { subst q. destruct (scan b p) as [c' r'] eqn:E. intros [= <- <-]. apply IH1 in E.
      cbn [scan]. chars. cbn [Ascii.eqb Bool.eqb]. by rewrite E. }
    destruct (Ascii.eqb_spec a "*") as [->|Nb]; [destruct b|]; cbn [andb negb].
    2: by intros [= <- <-].
    all: destruct (scan _ q) as [c' r'] eqn:E; intros [= <- <-]; apply IH2 in E; cbn [scan]; chars.
    + cbn [Ascii.eqb Bool.eqb andb negb]. chars. cbn [Ascii.eqb Bool.eqb] in E |- *. by rewrite E.
    + destruct (Ascii.eqb_spec a "\"); [done|]. destruct (Ascii.eqb_spec a "*"); [done|]. cbn [andb]. by rewrite E.
Qed.

Lemma scan_plain b a s : a <> "\"%char -> (b = false -> a <> "*"%char) ->
  scan b (String a s) =
  (let '(c, r) := scan (if Ascii.eqb a "[" then true else if Ascii.eqb a "]" then false else b) s in (String a c, r)).
Proof.
  intros H1 H2. cbn [scan]. chars. destruct (Ascii.eqb_spec a "\"); [done|].
  destruct (Ascii.eqb_spec a "*"); [|done]. destruct b; [done|]. by destruct H2.
Qed.
Lemma scan_escape b x s : scan b (String "\" (String x s)) = (let '(c, r) := scan b s in (String "\" (String x c), r)).
Proof. done. Qed.

Definition glue (x : string) (cr : string * string) : string * string := let '(c, r) := cr in (x ++ c, r).
Lemma glue_app x y cr : glue x (glue y cr) = glue (x ++ y) cr.
Proof. destruct cr. cbn. by rewrite sapp_assoc. Qed.
Lemma glue_cons a y cr : (let '(c, r) := glue y cr in (String a c, r)) = glue (String a y) cr.
Proof. by destruct cr. Qed.

Lemma high_byte a (c : ascii) : 128 <= byte_of a -> byte_of c < 128 -> a <> c.
Proof. intros H1 H2 ->. lia. Qed.
Lemma scan_conts b tl s : conts tl -> scan b (tl ++ s) = glue tl (scan b s).
Proof.
  induction tl as [|a tl IH]; [intros _; change (scan b s = glue "" (scan b s)); by destruct (scan b s)|]. intros [Ha Ht]. rewrite sapp_cons.
  assert (forall c, byte_of c < 128 -> a <> c) as N by (intros; apply high_byte; [lia|done]).
  rewrite scan_plain; [|by apply N|intros; by apply N].
  destruct (Ascii.eqb_spec a "["); [by destruct (N "["%char)|]. destruct (Ascii.eqb_spec a "]"); [by destruct (N "]"%char)|].
  rewrite IH by exact Ht. apply glue_cons.
Qed.
Lemma scan_class_char x r s : class_char x r -> scan true (x ++ s) = glue x (scan true s).
Proof.
  intros [r' H H1 H2 H3|r' H]; destruct (utf8_shape r' H) as (a & tl & E & D).
  - rewrite E in *. rewrite first_is_cons in H2, H3. rewrite sapp_cons, scan_plain by done.
    destruct (Ascii.eqb_spec a "]"); [done|].
    assert ((if Ascii.eqb a "[" then true else true) = true) as -> by (by destruct (Ascii.eqb a "[")).
    rewrite scan_conts; [apply glue_cons|]. destruct D as [(_ & _ & ->)|(_ & _ & D)]; done.
  - rewrite E, !sapp_cons, scan_escape. 
    rewrite scan_conts by (destruct D as [(_ & _ & ->)|(_ & _ & D)]; done). by destruct (scan true s).
Qed.
Lemma scan_class_body b l s : class_body b l -> scan true (b ++ String "]" s) = glue (b ++ "]") (scan false s).
Proof.
  induction 1 as [|x r b l Hx Hb IH|x lo y hi b l Hx Hy Hb IH].
  - change (scan true (String "]" s) = glue "]" (scan false s)). by rewrite scan_plain.
  - rewrite !sapp_assoc, (scan_class_char x r) by exact Hx. rewrite IH. apply glue_app.
  - rewrite !sapp_assoc, sapp_cons, sapp_assoc, (scan_class_char x lo) by exact Hx.
    rewrite scan_plain by done. cbn [Ascii.eqb Bool.eqb]. rewrite (scan_class_char y hi) by exact Hy. rewrite IH, glue_app, glue_cons, glue_app.
    by rewrite sapp_cons, sapp_assoc.
Qed.

(** * The grammar, chunk by chunk *)

Lemma glob_app a b ts1 ts2 : glob a ts1 -> glob b ts2 -> glob (a ++ b) (ts1 ++ ts2)%list.
Proof.
  intros H1 H2. induction H1 as [|p ts Hp IH|p ts Hp IH|b' l p ts Hb Hl Hc Hp IH|b' l p ts Hb Hl Hp IH|c p ts Hp IH|c p ts N1 N2 N3 N4 Hp IH];
    rewrite ?sapp_cons, ?sapp_assoc, ?sapp_cons; cbn [app]; try (constructor; assumption). exact H2.
Qed.
Lemma glob_star_inv p ts : glob (String "*" p) ts -> exists ts', ts = TStar :: ts' /\ glob p ts'.
Proof. inversion 1; subst; [by eexists|done]. Qed.

Lemma match_chunk_inv fuel : forall c s failed x, match_chunk fuel c s failed = Some x -> scan false c = (c, "") ->
  exists cs, glob c cs /\ starless cs.
Proof.
  induction fuel as [|fuel IH]; intros c s failed x; [done|]. destruct c as [|a c1].
  { intros _ _. exists []. split; constructor. }
  cbn [match_chunk]. set (fl := failed || _). chars. destruct (Ascii.eqb_spec a "[") as [->|N1].
  { set (rs := if fl then _ else _). destruct rs as [r s'].
    set (nc := match c1 with String b c2 => _ | _ => _ end). destruct nc as [neg c2] eqn:Enc. unfold nc in Enc. clear nc.
    destruct (match_class _ r c2 0 false) as [[m c3]|] eqn:E; [|done]. intros H Hsc.
    apply match_class_inv in E as (b & l & E2 & Hb & [Hl|Hl]); [|lia].
    rewrite scan_plain in Hsc by done. cbn [Ascii.eqb Bool.eqb] in Hsc.
    destruct c1 as [|b0 c1]; [injection Enc as <- <-; by destruct b|]. chars.
    destruct (Ascii.eqb_spec b0 "^") as [->|Nc]; injection Enc as <- <-.
    - rewrite scan_plain in Hsc by done. cbn [Ascii.eqb Bool.eqb] in Hsc. rewrite E2 in Hsc.
      rewrite (scan_class_body b l) in Hsc by exact Hb. destruct (scan false c3) as [c4 r4] eqn:E4. cbn [glue] in Hsc.
      injection Hsc as Hsc ->. rewrite sapp_assoc in Hsc.
      assert (c4 = c3) as ->. { clear -Hsc. induction b as [|y b IHb]; [by injection Hsc|]. rewrite !sapp_cons in Hsc. injection Hsc as Hsc. by apply IHb. }
      destruct (IH _ _ _ _ H E4) as (cs & Hg & Hst). exists (TClass true l :: cs). rewrite E2. split; [by constructor|by constructor].
    - rewrite E2 in Hsc. rewrite (scan_class_body b l) in Hsc by exact Hb. destruct (scan false c3) as [c4 r4] eqn:E4. cbn [glue] in Hsc.
      injection Hsc as Hsc ->. rewrite sapp_assoc in Hsc.
      assert (c4 = c3) as ->. { clear -Hsc. induction b as [|y b IHb]; [by injection Hsc|]. rewrite !sapp_cons in Hsc. injection Hsc as Hsc. by apply IHb. }
      destruct (IH _ _ _ _ H E4) as (cs & Hg & Hst). exists (TClass false l :: cs). rewrite E2. split; [|by constructor].
      constructor; [done|done| |done]. intros (b' & ->). rewrite sapp_cons in E2. by injection E2 as -> _. }
  destruct (Ascii.eqb_spec a "?") as [->|N2].
  { intros H Hsc. rewrite scan_plain in Hsc by done. cbn [Ascii.eqb Bool.eqb] in Hsc. destruct (scan false c1) as [c4 r4] eqn:E4. injection Hsc as -> ->.
    assert (exists cs, glob c1 cs /\ starless cs) as (cs & Hg & Hst).
    { destruct s as [|b s']; [by apply (IH _ _ _ _ H)|]. destruct fl; by apply (IH _ _ _ _ H). }
    exists (TAny :: cs). split; by constructor. }
  destruct (Ascii.eqb_spec a "\") as [->|N3].
  { destruct c1 as [|y c2]; [done|]. intros H Hsc. rewrite scan_escape in Hsc. destruct (scan false c2) as [c4 r4] eqn:E4. injection Hsc as -> ->.
    assert (exists cs, glob c2 cs /\ starless cs) as (cs & Hg & Hst).
    { destruct s as [|b s']; [by apply (IH _ _ _ _ H)|]. destruct fl; by apply (IH _ _ _ _ H). }
    exists (TLit y :: cs). split; by constructor. }
  intros H Hsc. destruct (ascii_dec a "*") as [->|N4]; [done|].
  rewrite scan_plain in Hsc by done. destruct (Ascii.eqb_spec a "["); [done|].
  assert ((if Ascii.eqb a "]" then false else false) = false) as E0 by (by destruct (Ascii.eqb a "]")). rewrite E0 in Hsc.
  destruct (scan false c1) as [c4 r4] eqn:E4. injection Hsc as -> ->.
  assert (exists cs, glob c1 cs /\ starless cs) as (cs & Hg & Hst).
  { destruct s as [|b s']; [by apply (IH _ _ _ _ H)|]. destruct fl; by apply (IH _ _ _ _ H). }
  exists (TLit a :: cs). split; by constructor.
Qed.

(** A well-formed pattern splits into a well-formed chunk and rest. *)
Lemma glob_scan p ts : glob p ts -> exists c r cs ts', scan false p = (c, r) /\ glob c cs /\ starless cs
  /\ glob r ts' /\ ts = (cs ++ ts')%list.
Proof.
  induction 1 as [|p ts Hp IH|p ts Hp IH|b l p ts Hb Hl Hc Hp IH|b l p ts Hb Hl Hp IH|c p ts Hp IH|c p ts N1 N2 N3 N4 Hp IH];
    try destruct IH as (c1 & r & cs & ts' & E & Hg & Hst & Hr & ->).
  - exists "", "", [], []. repeat split; try constructor.
  - exists "", (String "*" p), [], (TStar :: (cs ++ ts'))%list. split; [done|]. split; [constructor|]. split; [constructor|].
    split; [by constructor|done].
  - exists (String "?" c1), r, (TAny :: cs), ts'. rewrite scan_plain by done. cbn [Ascii.eqb Bool.eqb]. rewrite E.
    repeat split; try done; by constructor.
  - exists (String "[" (b ++ String "]" c1)), r, (TClass false l :: cs), ts'. rewrite scan_plain by done. cbn [Ascii.eqb Bool.eqb].
    rewrite (scan_class_body b l), E by exact Hb. cbn [glue]. rewrite sapp_assoc. repeat split; try done; by constructor.
  - exists (String "[" (String "^" (b ++ String "]" c1))), r, (TClass true l :: cs), ts'.
    rewrite scan_plain by done. cbn [Ascii.eqb Bool.eqb]. rewrite scan_plain by done. cbn [Ascii.eqb Bool.eqb].
    rewrite (scan_class_body b l), E by exact Hb. cbn [glue]. rewrite sapp_assoc. repeat split; try done; by constructor.
  - exists (String "\" (String c c1)), r, (TLit c :: cs), ts'. rewrite scan_escape, E. repeat split; try done; by constructor.
  - exists (String c c1), r, (TLit c :: cs), ts'. rewrite scan_plain by done. destruct (Ascii.eqb_spec c "["); [done|].
    assert ((if Ascii.eqb c "]" then false else false) = false) as -> by (by destruct (Ascii.eqb c "]")). rewrite E.
    repeat split; try done; by constructor.
Qed.

Lemma strip_stars_split p : exists k q, strip_stars p = ((0 <? k)%nat, q) /\ ~ first_is "*" q
  /\ (String.length p = k + String.length q)%nat
  /\ (forall ts, glob q ts -> glob p (repeat TStar k ++ ts)%list)
  /\ (forall ts, glob p ts -> exists ts', ts = (repeat TStar k ++ ts')%list /\ glob q ts').
Proof.
  induction p as [|a p (k & q & E & Hq & Hl & H1 & H2)].
  - exists 0%nat, "". split; [done|]. split; [by intros (?&?)|]. split; [done|]. split; [done|]. intros ts H. by exists ts.
  - cbn [strip_stars]. chars. destruct (Ascii.eqb_spec a "*") as [->|Na].
    + exists (S k), q. rewrite E. split; [done|]. split; [done|]. split; [cbn; lia|].
      split; [intros ts H; cbn [repeat app]; constructor; by apply H1|].
      intros ts H. apply glob_star_inv in H as (ts' & -> & H). apply H2 in H as (ts'' & -> & H). by exists ts''.
    + exists 0%nat, (String a p). split; [done|]. split; [by rewrite first_is_cons|]. split; [done|]. split; [done|]. intros ts H. by exists ts.
Qed.

(** * Characters *)

Lemma any_char_decode s r rest : any_char s r rest <-> s <> "" /\ exists n, decode_rune s = (r, n) /\ rest = sdrop n s.
Proof.
  split.
  - intros [s' r' rest' [r1 rest1 Hr]|b rest' H].
    + split; [destruct (utf8_shape r1 Hr) as (a & tl & -> & _); done|]. exists (String.length (utf8 r1)).
      rewrite decode_utf8 by exact Hr. by rewrite sdrop_app.
    + split; [done|]. exists 1%nat. split; [|by destruct rest'].
      destruct (decode_inv (String b rest')) as [(r2 & rest2 & Hr & E & _)|[D _]]; [done| |exact D].
      destruct (H r2 rest2). rewrite E. by constructor.
  - intros (Hne & n & D & ->). destruct (decode_inv s Hne) as [(r' & rest & Hr & E & D')|[D' H]].
    + rewrite D' in D. injection D as -> <-. constructor. rewrite E, sdrop_app. by constructor.
    + rewrite D' in D. injection D as <- <-. destruct s as [|b s]; [done|].
      replace (sdrop 1 (String b s)) with s by (by destruct s). apply ac_stray. intros r2 rest W.
      inversion W as [r0 rest0 Hr E]. subst. by apply (H r2 rest Hr).
Qed.
Lemma whole_inv s r rest : whole_char s r rest -> scalar r /\ s = utf8 r ++ rest.
Proof. by intros [r' rest' H]. Qed.
Lemma whole_any s r rest : whole_char s r rest -> any_char s r rest.
Proof. apply ac_whole. Qed.
Lemma char_slash b s r rest : any_char (String b s) r rest -> (r = 47 <-> b = "/"%char).
Proof.
  intros H. apply any_char_decode in H as (_ & n & D & _). cbn [decode_rune] in D. split; intros E.
  - subst r. destruct (decode_inv (String b s)) as [(r' & rest' & Hr & E & D')|[D' H]]; [done| |].
    + cbn [decode_rune] in D'. rewrite D in D'. injection D' as <- ->. change (utf8 47) with "/" in E. by injection E as ->.
    + cbn [decode_rune] in D'. rewrite D in D'. discriminate D'.
  - subst b. cbn in D. by injection D as <- _.
Qed.

(** * Consuming a chunk *)

Inductive eats (char : string -> N -> string -> Prop) : list token -> string -> string -> Prop :=
| e_nil s : eats char [] s s
| e_lit c ts s t : eats char ts s t -> eats char (TLit c :: ts) (String c s) t
| e_any ts s r rest t : char s r rest -> r <> 47 -> eats char ts rest t -> eats char (TAny :: ts) s t
| e_class neg l ts s r rest t : char s r rest -> in_class neg l r -> eats char ts rest t ->
    eats char (TClass neg l :: ts) s t.

Lemma denotes_eats char cs ts s : starless cs ->
  (denotes char (cs ++ ts)%list s <-> exists t, eats char cs s t /\ denotes char ts t).
Proof.
  intros Hst. revert s. induction Hst as [|x cs Hx Hst IH]; intros s; cbn [app].
  - split; [intros H; exists s; split; [constructor|done]|]. intros (t & H & H2). inversion H. by subst.
  - split.
    + inversion 1 as [|c ts0 s0 Hd|ts0 s0 r rest Hc Hn Hd|neg l ts0 s0 r rest Hc Hn Hd|]; subst; [..|done].
      * apply IH in Hd as (t & H1 & H2). exists t. split; [by constructor|done].
      * apply IH in Hd as (t & H1 & H2). exists t. split; [by eapply e_any|done].
      * apply IH in Hd as (t & H1 & H2). exists t. split; [by eapply e_class|done].
    + intros (t & H1 & H2). inversion H1; subst.
      * constructor. apply IH. by exists t.
      * eapply d_any; [done|done|]. apply IH. by exists t.
      * eapply d_class; [done|done|]. apply IH. by exists t.
Qed.
Lemma eats_any cs s t : eats whole_char cs s t -> eats any_char cs s t.
Proof. induction 1; econstructor; eauto using ac_whole. Qed.
Lemma eats_run cs s t : starless cs -> (eats any_char cs s t <-> run cs s = Some t).
Proof.
  intros Hst. revert s. induction Hst as [|x cs Hx Hst IH]; intros s.
  - cbn [run]. split; [by inversion 1|]. intros [= ->]. constructor.
  - cbn [run]. split.
    + inversion 1 as [|c ts0 s0 t0 He|ts0 s0 r rest t0 Hc Hn He|neg l ts0 s0 r rest t0 Hc Hn He]; subst.
      * cbn [step]. rewrite Ascii.eqb_refl. by apply IH.
      * destruct s as [|b s]; [by apply any_char_decode in Hc as [? _]|]. cbn [step].
        destruct (Ascii.eqb_spec b "/") as [->|Nb]; [destruct Hn; by apply (char_slash _ _ _ _ Hc)|].
        apply any_char_decode in Hc as (_ & n & D & ->). rewrite D. by apply IH.
      * destruct s as [|b s]; [by apply any_char_decode in Hc as [? _]|]. cbn [step].
        apply any_char_decode in Hc as (_ & n & D & ->). rewrite D. apply in_classb_spec in Hn. rewrite Hn. by apply IH.
    + destruct s as [|b s]; [done|]. cbn [step]. destruct x as [c| |neg l|]; [| | |done].
      * destruct (Ascii.eqb_spec c b) as [->|]; [|done]. intros H. constructor. by apply IH.
      * destruct (Ascii.eqb_spec b "/") as [->|Nb]; [done|]. destruct (decode_rune (String b s)) as [r n] eqn:D.
        assert (any_char (String b s) r (sdrop n (String b s))) as Hc. { apply any_char_decode. split; [done|]. by exists n. }
        intros H. eapply e_any; [exact Hc|by rewrite (char_slash _ _ _ _ Hc)|by apply IH].
      * destruct (decode_rune (String b s)) as [r n] eqn:D.
        assert (any_char (String b s) r (sdrop n (String b s))) as Hc. { apply any_char_decode. split; [done|]. by exists n. }
        destruct (in_classb neg l r) eqn:En; [|done]. intros H. eapply e_class; [exact Hc|by apply in_classb_spec|by apply IH].
Qed.

(** * Slashes *)

Lemma slash_free_app a b : slash_free (a ++ b) <-> slash_free a /\ slash_free b.
Proof. induction a as [|c a IH]; [cbn; tauto|]. rewrite sapp_cons. cbn [slash_free]. rewrite IH. tauto. Qed.
Lemma no_slash_spec s : no_slash s = true <-> slash_free s.
Proof.
  induction s as [|c s IH]; [done|]. cbn [no_slash slash_free]. chars. rewrite andb_true_iff, negb_true_iff, IH.
  destruct (Ascii.eqb_spec c "/") as [->|]; [|tauto]. split; [by intros [? _]|by intros [? _]].
Qed.
Lemma utf8_slash_free r : scalar r -> r <> 47 -> slash_free (utf8 r).
Proof.
  intros Hr Hn. destruct (utf8_shape r Hr) as (a & tl & E & [(A & B & ->)|(A & B & C)]); rewrite E; cbn [slash_free].
  - split; [|done]. intros ->. by apply Hn.
  - split; [intros ->; change (byte_of slash) with 47 in B; lia|]. clear E A B. induction tl as [|c tl IH]; [done|]. destruct C as [C1 C2].
    split; [intros ->; change (byte_of slash) with 47 in C1; lia|by apply IH].
Qed.

(** * Reading from an earlier position *)

Lemma app_eq_cut (a b c d : string) : a ++ b = c ++ d ->
  (exists x, c = a ++ x /\ b = x ++ d) \/ (exists x, a = c ++ x /\ d = x ++ b).
Proof.
  revert c. induction a as [|y a IH]; intros c E; [left; by exists c|]. destruct c as [|z c]; [right; by exists (String y a)|].
  rewrite !sapp_cons in E. injection E as -> E. destruct (IH c E) as [(x & -> & ->)|(x & -> & ->)]; [left|right]; by exists x.
Qed.
Lemma conts_app a b : conts (a ++ b) <-> conts a /\ conts b.
Proof. induction a as [|c a IH]; [cbn; tauto|]. rewrite sapp_cons. cbn [conts]. rewrite IH. tauto. Qed.

(** A character read before position [s] does not reach beyond it, when [s]
    begins with a character. *)
Lemma char_width w s r rest r' rest' : w <> "" -> whole_char s r rest -> any_char (w ++ s) r' rest' ->
  exists w1 w2, w = w1 ++ w2 /\ rest' = w2 ++ s.
Proof.
  intros Hw Hs Hc. inversion Hc as [s0 r0 rest0 Hwc|b rest0 Hno Eb]; subst.
  - inversion Hwc as [r1 rest1 Hr1 E]; subst. apply app_eq_cut in E as [(x & E1 & E2)|(x & E1 & E2)].
    + exists (utf8 r'), x. by split.
    + destruct x as [|c x]; [exists (utf8 r'), ""; rewrite sapp_nil in E1; rewrite sapp_nil; by split|].
      exfalso. apply whole_inv in Hs as [Hr2 E3].
      destruct (utf8_shape r' Hr1) as (a & tl & E4 & D). destruct w as [|w0 w]; [done|]. rewrite E4, sapp_cons in E1. injection E1 as -> ->.
      destruct (utf8_shape r Hr2) as (a2 & tl2 & E5 & D2). rewrite E3, E5 in E2. rewrite !sapp_cons in E2. injection E2 as -> _.
      destruct D as [(_ & _ & D)|(_ & _ & D)]; [by destruct w|]. apply conts_app in D as [_ [D _]].
      destruct D2 as [(D2 & D3 & _)|(_ & D2 & _)]; [rewrite D2 in D; lia|lia].
  - destruct w as [|w0 w]; [done|]. rewrite sapp_cons in Eb. injection Eb as <- ->. by exists (String b ""), w.
Qed.

Lemma eats_earlier cs s t : eats whole_char cs s t ->
  (forall neg l, In (TClass neg l) cs -> ~ in_class neg l 47) ->
  forall w t', slash_free w -> eats any_char cs (w ++ s) t' -> exists v, t' = v ++ t /\ slash_free v.
Proof.
  assert (one : forall s r rest w r' rest', whole_char s r rest -> r <> 47 -> slash_free w -> any_char (w ++ s) r' rest' ->
    exists v, rest' = v ++ rest /\ slash_free v).
  { clear. intros s r rest w r' rest' Hs Hr Hw Hc. destruct (decide (w = "")) as [->|Hne].
    - change ("" ++ s) with s in Hc. exists "". split; [|done]. apply whole_any in Hs.
      apply any_char_decode in Hc as (_ & n & D & ->), Hs as (_ & n' & D' & ->). rewrite D' in D. by injection D as _ ->.
    - destruct (char_width w s r rest r' rest' Hne Hs Hc) as (w1 & w2 & -> & ->). inversion Hs as [r0 rest0 Hsc]; subst.
      exists (w2 ++ utf8 r). rewrite sapp_assoc. split; [done|]. apply slash_free_app in Hw as [_ Hw].
      apply slash_free_app. split; [done|]. by apply utf8_slash_free. }
  induction 1 as [s|c ts s t He IH|ts s r rest t Hc Hn He IH|neg l ts s r rest t Hc Hn He IH]; intros Hav w t' Hw Ht.
  - inversion Ht; subst. by exists w.
  - assert (forall neg l, In (TClass neg l) ts -> ~ in_class neg l 47) as Hav' by (intros; apply Hav; by right).
    destruct w as [|w0 w].
    + change ("" ++ String c s) with (String c s) in Ht. inversion Ht; subst. apply (IH Hav' ""); [done|]. done.
    + rewrite sapp_cons in Ht. inversion Ht; subst. destruct Hw as [Hw0 Hw].
      apply (IH Hav' (w ++ String w0 "")); [apply slash_free_app; by split|]. by rewrite sapp_assoc.
  - assert (forall neg l, In (TClass neg l) ts -> ~ in_class neg l 47) as Hav' by (intros; apply Hav; by right).
    inversion Ht as [| |ts0 s0 r' rest' t0 Hc' Hn' He'|]; subst.
    destruct (one _ _ _ _ _ _ Hc Hn Hw Hc') as (v & -> & Hv). by apply (IH Hav' v).
  - assert (forall neg l, In (TClass neg l) ts -> ~ in_class neg l 47) as Hav' by (intros; apply Hav; by right).
    inversion Ht as [| | |neg0 l0 ts0 s0 r' rest' t0 Hc' Hn' He']; subst.
    assert (r <> 47) as H47. { intros ->. by apply (Hav neg l); [left|]. }
    destruct (one _ _ _ _ _ _ Hc H47 Hw Hc') as (v & -> & Hv). by apply (IH Hav' v).
Qed.
