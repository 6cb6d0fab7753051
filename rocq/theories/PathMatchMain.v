(** path.Match is sound for the glob language, and complete outside the known gaps. *)
From Coq Require Import Ascii.
From Coq Require Import ZifyN ZifyNat.
From Verif Require Import Prelude PathMatch PathMatchSpec PathUtf8 PathMatchParse PathMatchProofs.

Local Open Scope string_scope.
Local Open Scope N_scope.

(** One round: what scanChunk returns. *)
Lemma scan_chunk_split p : p <> "" -> exists k q c r,
  scan_chunk p = ((0 <? k)%nat, c, r)
  /\ scan false c = (c, "")
  /\ (String.length r < String.length p)%nat
  /\ (c = "" -> k <> 0%nat /\ r = "")
  /\ (r = "" \/ first_is "*" r)
  /\ (forall cs ts, glob c cs -> glob r ts -> glob p (repeat TStar k ++ cs ++ ts)%list)
  /\ (forall ts, glob p ts -> exists cs ts', ts = (repeat TStar k ++ cs ++ ts')%list
        /\ glob c cs /\ starless cs /\ glob r ts')
  /\ q = c ++ r.
Proof.
  intros Hne. destruct (strip_stars_split p) as (k & q & E & Hq & Hl & H1 & H2).
  destruct (scan false q) as [c r] eqn:Esc. exists k, q, c, r.
  destruct (scan_split _ _ _ _ Esc) as [Eq Hr]. pose proof (scan_idem _ _ _ _ Esc) as Hid.
  assert (c = "" -> k <> 0%nat /\ r = "") as Hc.
  { intros ->. change ("" ++ r) with r in Eq. subst r. destruct Hr as [->|Hr]; [|done].
    split; [|done]. intros ->. cbn in Hl. by destruct p. }
  split; [unfold scan_chunk; by rewrite E, Esc|]. split; [exact Hid|]. split.
  { rewrite Hl, Eq, slength_app. destruct c; [destruct (Hc eq_refl); cbn; lia|cbn; lia]. }
  split; [exact Hc|]. split; [exact Hr|]. split; [|split; [|exact Eq]].
  - intros cs ts Hg Hg2. apply H1. rewrite Eq. by apply glob_app.
  - intros ts H. apply H2 in H as (ts' & -> & H). apply glob_scan in H as (c' & r' & cs & ts'' & E' & Hg & Hst & Hg2 & ->).
    rewrite Esc in E'. injection E' as <- <-. by exists cs, ts''.
Qed.

Lemma denotes_stars_nil char k ts s : denotes char ts s -> denotes char (repeat TStar k ++ ts)%list s.
Proof. intros H. induction k as [|k IH]; [done|]. cbn [repeat app]. by apply (d_star char ""). Qed.
Lemma denotes_stars char k ts u s : k <> 0%nat -> slash_free u -> denotes char ts s ->
  denotes char (repeat TStar k ++ ts)%list (u ++ s).
Proof. intros Hk Hu H. destruct k as [|k]; [done|]. cbn [repeat app]. apply d_star; [done|]. by apply denotes_stars_nil. Qed.
Lemma denotes_stars_inv char k ts name : denotes char (repeat TStar k ++ ts)%list name ->
  exists u s, name = u ++ s /\ slash_free u /\ (k = 0%nat -> u = "") /\ denotes char ts s.
Proof.
  revert name. induction k as [|k IH]; intros name; cbn [repeat app].
  - intros H. by exists "", name.
  - inversion 1 as [| | | |u0 ts0 s0 Hu Hd]; subst. apply IH in Hd as (u & s & -> & Hu2 & _ & Hd).
    exists (u0 ++ u), s. rewrite sapp_assoc. split; [done|]. split; [by apply slash_free_app|]. by split.
Qed.

Lemma try_skip_inv c last name t : try_skip c last name = Some (Some t) ->
  exists u s, name = u ++ s /\ slash_free u /\ matchChunk c s = Some (Some t) /\ (last = true -> t = "").
Proof.
  induction name as [|a name IH]; [done|]. cbn [try_skip]. chars. destruct (Ascii.eqb_spec a "/") as [|Na]; [done|].
  assert (try_skip c last name = Some (Some t) -> exists u s, String a name = u ++ s /\ slash_free u
    /\ matchChunk c s = Some (Some t) /\ (last = true -> t = "")) as K.
  { intros H. apply IH in H as (u & s & -> & Hu & H). by exists (String a u), s. }
  destruct (matchChunk c name) as [[t'|]|] eqn:E; [|exact K|done].
  assert (Some (Some t') = Some (Some t) -> (last = true -> t' = "") -> exists u s, String a name = u ++ s /\ slash_free u
    /\ matchChunk c s = Some (Some t) /\ (last = true -> t = "")) as K2.
  { intros [= <-] Hl. by exists (String a ""), name. }
  destruct last; [destruct t'; [|exact K]|]; intros H; by apply K2.
Qed.
Lemma try_skip_None c last name cs : glob c cs -> starless cs -> try_skip c last name <> None.
Proof.
  intros Hg Hst. induction name as [|a name IH]; [done|]. cbn [try_skip]. destruct (is_chr a cSlash); [done|].
  rewrite (matchChunk_parsed c cs) by done. destruct (run cs name) as [t|]; [|done]. destruct last, t; done.
Qed.
Lemma check_rest_false fuel p b : check_rest fuel p = Some b -> b = false.
Proof.
  revert p. induction fuel as [|fuel IH]; intros p; [done|]. cbn [check_rest].
  destruct p as [|a p]; [by intros [= <-]|]. destruct (scan_chunk _) as [[st c] r].
  destruct (matchChunk c ""); [apply IH|done].
Qed.
Lemma check_rest_glob fuel : forall p b, check_rest fuel p = Some b -> exists ts, glob p ts.
Proof.
  induction fuel as [|fuel IH]; intros p b; [done|]. cbn [check_rest]. destruct p as [|a p]; [intros _; exists []; constructor|].
  destruct (scan_chunk_split (String a p)) as (k & q & c & r & E & Hid & _ & _ & _ & Hg & _); [done|]. rewrite E.
  destruct (matchChunk c "") as [x|] eqn:Em; [|done]. intros H. apply IH in H as (ts & Hr).
  destruct (match_chunk_inv _ _ _ _ _ Em Hid) as (cs & Hc & _). eexists. by apply Hg.
Qed.
Lemma check_rest_parsed fuel : forall p ts, (String.length p < fuel)%nat -> glob p ts -> check_rest fuel p = Some false.
Proof.
  induction fuel as [|fuel IH]; intros p ts Hf Hp; [lia|]. cbn [check_rest]. destruct p as [|a p]; [done|].
  destruct (scan_chunk_split (String a p)) as (k & q & c & r & E & _ & Hl & _ & _ & _ & Hg & _); [done|]. rewrite E.
  destruct (Hg _ Hp) as (cs & ts' & -> & Hc & Hst & Hr). rewrite (matchChunk_parsed c cs) by done. apply (IH r ts'); [lia|done].
Qed.

(** A pattern that leads to an answer is well-formed. *)
Lemma answered_glob fuel : forall p name b, path_match fuel p name = Some b -> exists ts, glob p ts.
Proof.
  induction fuel as [|fuel IH]; intros p name b; [done|]. cbn [path_match]. destruct p as [|a p]; [intros _; exists []; constructor|].
  destruct (scan_chunk_split (String a p)) as (k & q & c & r & E & Hid & _ & Hc & _ & Hg & _); [done|]. rewrite E. clear E.
  assert (forall x s, matchChunk c s = Some x -> (exists ts, glob r ts) -> exists ts, glob (String a p) ts) as K.
  { intros x s Em (ts & Hr). destruct (match_chunk_inv _ _ _ _ _ Em Hid) as (cs & Hcs & _). eexists. by apply Hg. }
  assert (forall x s, matchChunk c s = Some x ->
    match (if (0 <? k)%nat then try_skip c match r with "" => true | _ => false end name else Some None) with
    | Some (Some t) => path_match fuel r t
    | Some None => check_rest fuel r
    | None => None
    end = Some b -> exists ts, glob (String a p) ts) as K2.
  { intros x s Em H. apply (K _ _ Em). destruct (if (0 <? k)%nat then _ else _) as [[t|]|]; [by apply (IH _ _ _ H)|by apply check_rest_glob in H|done]. }
  destruct (0 <? k)%nat eqn:Ek, c as [|c0 c].
  { intros _. destruct (Hc eq_refl) as [_ ->]. eexists. apply (Hg [] []); constructor. }
  2: { destruct (Hc eq_refl) as [H0 _]. apply Nat.ltb_ge in Ek. lia. }
  all: destruct (matchChunk (String c0 c) name) as [[t|]|] eqn:Em; [|by apply (K2 _ _ Em)|done];
    destruct r; [destruct t; [intros H; apply (K _ _ Em); by apply (IH _ _ _ H)|by apply (K2 _ _ Em)]
                |intros H; apply (K _ _ Em); by apply (IH _ _ _ H)].
Qed.

(** A well-formed pattern is always answered. *)
Lemma glob_answered fuel : forall p name ts, (String.length p < fuel)%nat -> glob p ts -> path_match fuel p name <> None.
Proof.
  induction fuel as [|fuel IH]; intros p name ts Hf Hp; [lia|]. cbn [path_match]. destruct p as [|a p]; [done|].
  destruct (scan_chunk_split (String a p)) as (k & q & c & r & E & _ & Hl & Hc & _ & _ & Hg & _); [done|]. rewrite E. clear E.
  destruct (Hg _ Hp) as (cs & ts' & -> & Hcs & Hst & Hr).
  set (rt := match (if (0 <? k)%nat then try_skip _ _ _ else _) with Some _ => _ | None => _ end).
  assert (rt <> None) as Hrt.
  { unfold rt. destruct (0 <? k)%nat; [|rewrite (check_rest_parsed fuel r ts'); [done|lia|done]].
    destruct (try_skip _ _ _) as [[t|]|] eqn:Et; [apply (IH _ _ ts'); [lia|done]|
      rewrite (check_rest_parsed fuel r ts'); [done|lia|done]|by apply (try_skip_None c _ name cs) in Et]. }
  assert (match matchChunk c name with
          | Some (Some t) => match (match r with "" => true | _ => false end), t with true, String _ _ => rt | _, _ => path_match fuel r t end
          | Some None => rt
          | None => None end <> None) as K.
  { rewrite (matchChunk_parsed c cs) by done. destruct (run cs name) as [t|]; [|exact Hrt].
    destruct r; [destruct t; [|exact Hrt]|]; (apply (IH _ _ ts'); [lia|done]). }
  destruct (0 <? k)%nat, c; exact K || done.
Qed.

(** * Soundness *)

Lemma path_match_sound fuel : forall p name, path_match fuel p name = Some true ->
  exists ts, glob p ts /\ denotes any_char ts name.
Proof.
  induction fuel as [|fuel IH]; intros p name; [done|]. cbn [path_match]. destruct p as [|a p].
  { destruct name; [|done]. intros _. exists []. split; constructor. }
  destruct (scan_chunk_split (String a p)) as (k & q & c & r & E & Hid & _ & Hc & _ & Hg & _); [done|]. rewrite E. clear E.
  assert (forall t s u, name = u ++ s -> slash_free u -> (k = 0%nat -> u = "") -> matchChunk c s = Some (Some t) ->
    path_match fuel r t = Some true -> exists ts, glob (String a p) ts /\ denotes any_char ts name) as K.
  { intros t s u -> Hu Hk Em H. apply IH in H as (ts & Hr & Hd). destruct (match_chunk_inv _ _ _ _ _ Em Hid) as (cs & Hcs & Hst).
    exists (repeat TStar k ++ cs ++ ts)%list. split; [by apply Hg|].
    rewrite (matchChunk_parsed c cs) in Em by done. injection Em as Em. apply eats_run in Em; [|done].
    assert (denotes any_char (cs ++ ts)%list s) as Hs by (apply denotes_eats; [done|]; by exists t).
    destruct k as [|k]; [rewrite Hk by done; exact Hs|]. by apply denotes_stars. }
  assert (match (if (0 <? k)%nat then try_skip c match r with "" => true | _ => false end name else Some None) with
    | Some (Some t) => path_match fuel r t
    | Some None => check_rest fuel r
    | None => None
    end = Some true -> exists ts, glob (String a p) ts /\ denotes any_char ts name) as K2.
  { destruct (Nat.ltb_spec 0 k) as [Hk|Hk].
    - destruct (try_skip _ _ _) as [[t|]|] eqn:Et; [|intros H; by apply check_rest_false in H|done].
      apply try_skip_inv in Et as (u & s & E & Hu & Em & _). apply (K t s u E Hu); [lia|done].
    - intros H. by apply check_rest_false in H. }
  assert (forall t, matchChunk c name = Some (Some t) -> path_match fuel r t = Some true ->
     exists ts, glob (String a p) ts /\ denotes any_char ts name) as K1.
  { intros t. by apply (K t name ""). }
  destruct (0 <? k)%nat eqn:Ek, c as [|c0 c].
  { intros H. injection H as H. apply no_slash_spec in H. destruct (Hc eq_refl) as [Hk ->]. eexists.
    split; [apply (Hg [] []); constructor|]. rewrite <- (sapp_nil name). apply denotes_stars; [done|done|constructor]. }
  2: { destruct (Hc eq_refl) as [H0 _]. apply Nat.ltb_ge in Ek. lia. }
  all: destruct (matchChunk (String c0 c) name) as [[t|]|] eqn:Em; [|exact K2|done];
    destruct r; [destruct t; [by apply K1|exact K2]|by apply K1].
Qed.

(** * Completeness *)

Lemma try_skip_found c cs last u : forall s t, glob c cs -> starless cs -> u <> "" -> slash_free u ->
  run cs s = Some t -> (last = true -> t = "") ->
  exists w t', try_skip c last (u ++ s) = Some (Some t') /\ (exists u', u = u' ++ w) /\ run cs (w ++ s) = Some t'
    /\ (last = true -> t' = "").
Proof.
  induction u as [|a u IH]; intros s t Hg Hst Hu Hsf Hr Hl; [done|]. destruct Hsf as [Ha Hsf]. rewrite sapp_cons.
  cbn [try_skip]. chars. destruct (Ascii.eqb_spec a "/"); [done|].
  rewrite (matchChunk_parsed c cs) by done.
  assert (forall t', run cs (u ++ s) = Some t' -> (last = true -> t' = "") ->
    exists w t'', Some (Some t') = Some (Some t'') /\ (exists u', String a u = u' ++ w) /\ run cs (w ++ s) = Some t''
    /\ (last = true -> t'' = "")) as K1.
  { intros t' E Ht'. exists u, t'. split; [done|]. split; [by exists (String a "")|]. done. }
  assert (u <> "" -> exists w t', try_skip c last (u ++ s) = Some (Some t') /\ (exists u', String a u = u' ++ w) /\ run cs (w ++ s) = Some t'
    /\ (last = true -> t' = "")) as K2.
  { intros Hne. destruct (IH s t Hg Hst Hne Hsf Hr Hl) as (w & t' & A & (u' & B) & C & D). exists w, t'. split; [done|]. split; [|done].
    exists (String a u'). by rewrite sapp_cons, B. }
  destruct (decide (u = "")) as [->|Hne].
  - change ("" ++ s) with s in *. rewrite Hr. destruct last; [rewrite (Hl eq_refl) in *|]; [by apply K1|]. by apply K1.
  - destruct (run cs (u ++ s)) as [t'|] eqn:E; [|by apply K2]. destruct last.
    + destruct t'; [by apply K1|by apply K2].
    + by apply K1.
Qed.

Lemma path_match_complete fuel : forall p ts name, (String.length p < fuel)%nat -> glob p ts -> classes_avoid_slash ts ->
  denotes whole_char ts name -> path_match fuel p name = Some true.
Proof.
  induction fuel as [|fuel IH]; intros p ts name Hf Hp Hav Hd; [lia|]. cbn [path_match]. destruct p as [|a p].
  { inversion Hp; subst. inversion Hd; by subst. }
  destruct (scan_chunk_split (String a p)) as (k & q & c & r & E & _ & Hl & Hc & Hrest & _ & Hg & _); [done|]. rewrite E. clear E.
  destruct (Hg _ Hp) as (cs & ts' & -> & Hcs & Hst & Hr). clear Hg.
  apply denotes_stars_inv in Hd as (u & s & -> & Hu & Hk & Hd). apply denotes_eats in Hd as (t & He & Hd); [|done].
  pose proof (eats_any _ _ _ He) as Hrun. apply eats_run in Hrun; [|done].
  set (last := match r with "" => true | _ => false end).
  assert (last = true -> t = "") as Hlast.
  { unfold last. destruct r; [|done]. intros _. inversion Hr; subst. by inversion Hd. }
  assert (Hav' : classes_avoid_slash ts').
  { intros pre neg l post -> Hpre Hpost. apply (Hav (repeat TStar k ++ cs ++ pre)%list neg l post); [by rewrite <- !app_assoc| |done].
    rewrite !in_app_iff. tauto. }
  (* what was found at an earlier position still works *)
  assert (next : forall w t', (exists u', u = u' ++ w) -> run cs (w ++ s) = Some t' -> (last = true -> t' = "") ->
    path_match fuel r t' = Some true).
  { intros w t' (u' & Eu) Hr' Hl'. apply (IH r ts' t'); [lia|done|done|].
    destruct r as [|r0 r].
    - rewrite (Hl' eq_refl). by rewrite <- (Hlast eq_refl).
    - destruct Hrest as [|(r' & Er)]; [done|]. injection Er as -> ->. apply glob_star_inv in Hr as (ts2 & -> & Hr).
      destruct (decide (w = "")) as [->|Hw].
      + change ("" ++ s) with s in Hr'. rewrite Hrun in Hr'. by injection Hr' as <-.
      + assert (k <> 0%nat) as Hk0. { intros ->. rewrite Hk in Eu by done. destruct u'; [|done]. by symmetry in Eu. }
        assert (slash_free w) as Hws. { rewrite Eu in Hu. by apply slash_free_app in Hu as [_ Hu]. }
        apply eats_run in Hr'; [|done].
        destruct (eats_earlier cs s t He) with (w := w) (t' := t') as (v & -> & Hv); [|done|done|].
        { intros neg l Hin. apply in_split in Hin as (c1 & c2 & ->).
          apply (Hav (repeat TStar k ++ c1)%list neg l (c2 ++ TStar :: ts2)%list).
          - by rewrite <- !app_assoc.
          - apply in_app_iff. left. destruct k; [done|by left].
          - apply in_app_iff. right. by left. }
        inversion Hd as [| | | |v2 ts3 s3 Hv2 Hd3]; subst. rewrite <- sapp_assoc. apply d_star; [by apply slash_free_app|done]. }
  set (rt := match (if (0 <? k)%nat then try_skip c last (u ++ s) else Some None) with Some _ => _ | None => _ end).
  assert (u <> "" -> rt = Some true) as Hrt.
  { intros Hu0. unfold rt. destruct (Nat.ltb_spec 0 k) as [_|Hk0]; [|rewrite Hk in Hu0 by lia; done].
    destruct (try_skip_found c cs last u s t Hcs Hst Hu0 Hu Hrun Hlast) as (w & t' & -> & Hw & Hr' & Hl'). by apply (next w). }
  assert (match matchChunk c (u ++ s) with
          | Some (Some t) => match last, t with true, String _ _ => rt | _, _ => path_match fuel r t end
          | Some None => rt
          | None => None end = Some true) as K.
  { rewrite (matchChunk_parsed c cs) by done. destruct (decide (u = "")) as [Eu|Hu0].
    - rewrite Eu. change ("" ++ s) with s. rewrite Hrun.
      assert (path_match fuel r t = Some true) as Kt by (apply (next "" t); [by exists u; rewrite sapp_nil|done|done]).
      destruct last; [rewrite (Hlast eq_refl) in Kt |- *|]; exact Kt.
    - destruct (run cs (u ++ s)) as [t'|] eqn:E; [|by apply Hrt].
      assert ((last = true -> t' = "") -> path_match fuel r t' = Some true) as Kt.
      { intros Ht. apply (next u t'); [by exists ""|done|done]. }
      destruct last; [destruct t'; [by apply Kt|by apply Hrt]|by apply Kt]. }
  destruct (Nat.ltb_spec 0 k) as [Hk0|Hk0], c as [|c0 c]; try exact K.
  destruct (Hc eq_refl) as [_ ->]. inversion Hcs; subst. inversion He; subst. rewrite (Hlast eq_refl). rewrite sapp_nil.
  f_equal. by apply no_slash_spec.
Qed.

(** * wildcardMatch *)

Lemma wildcard_sound name p : wildcard_match name p = true -> exists ts, glob p ts /\ denotes any_char ts name.
Proof.
  unfold wildcard_match. destruct (path_match _ p name) as [b|] eqn:E; [|done]. intros ->. by apply path_match_sound in E.
Qed.
Lemma wildcard_complete name p ts : glob p ts -> classes_avoid_slash ts -> denotes whole_char ts name ->
  wildcard_match name p = true.
Proof. intros H1 H2 H3. unfold wildcard_match. by rewrite (path_match_complete _ p ts name) by (done || lia). Qed.
Lemma well_formed_iff name p : path_match (S (String.length p)) p name <> None <-> exists ts, glob p ts.
Proof.
  split.
  - intros H. destruct (path_match _ p name) as [b|] eqn:E; [|done]. by apply answered_glob in E.
  - intros (ts & H). apply (glob_answered _ p name ts); [lia|done].
Qed.
Lemma malformed_matches_nothing name p : (forall ts, ~ glob p ts) -> wildcard_match name p = false.
Proof.
  intros H. destruct (wildcard_match name p) eqn:E; [|done]. apply wildcard_sound in E as (ts & Hg & _). by apply H in Hg.
Qed.

(** The grammar is unambiguous. *)

Lemma ne_close b p : b ++ String "]" p <> "".
Proof. by destruct b. Qed.
Lemma class_det b1 l1 : class_body b1 l1 -> forall b2 l2 p1 p2, class_body b2 l2 ->
  b1 ++ String "]" p1 = b2 ++ String "]" p2 -> l1 = l2 /\ p1 = p2.
Proof.
  induction 1 as [|x r b l Hx Hb IH|x lo y hi b l Hx Hy Hb IH]; intros b2 l2 p1 p2 H2 E;
    destruct H2 as [|x2 r2 b2 l2 Hx2 Hb2|x2 lo2 y2 hi2 b2 l2 Hx2 Hy2 Hb2].
  - by injection E.
  - destruct (class_char_head x2 r2 Hx2) as (a & x' & -> & _ & Hn). rewrite !sapp_cons in E. by injection E as <- _.
  - destruct (class_char_head x2 lo2 Hx2) as (a & x' & -> & _ & Hn). rewrite !sapp_cons in E. by injection E as <- _.
  - destruct (class_char_head x r Hx) as (a & x' & -> & _ & Hn). rewrite !sapp_cons in E. by injection E as -> _.
  - rewrite !sapp_assoc in E.
    assert (get_esc (x ++ (b ++ String "]" p1)) = get_esc (x2 ++ (b2 ++ String "]" p2))) as G by (by rewrite E).
    rewrite (get_esc_char x r), (get_esc_char x2 r2) in G by (done || apply ne_close).
    injection G as -> G. by destruct (IH _ _ _ _ Hb2 G) as [-> ->].
  - rewrite !sapp_assoc in E.
    assert (get_esc (x ++ (b ++ String "]" p1)) = get_esc (x2 ++ (String "-" (y2 ++ b2) ++ String "]" p2))) as G by (by rewrite E).
    rewrite (get_esc_char x r), (get_esc_char x2 lo2) in G by (done || apply ne_close).
    injection G as _ G. destruct (class_body_head b l p1 Hb) as (a & s & Ea & Hd & _). rewrite Ea in G. by injection G as -> _.
  - destruct (class_char_head x lo Hx) as (a & x' & -> & _ & Hn). rewrite !sapp_cons in E. by injection E as -> _.
  - rewrite !sapp_assoc in E.
    assert (get_esc (x ++ (String "-" (y ++ b) ++ String "]" p1)) = get_esc (x2 ++ (b2 ++ String "]" p2))) as G by (by rewrite E).
    rewrite (get_esc_char x lo), (get_esc_char x2 r2) in G by (done || apply ne_close).
    injection G as _ G. destruct (class_body_head b2 l2 p2 Hb2) as (a & s & Ea & Hd & _). rewrite Ea in G. by injection G as <- _.
  - rewrite !sapp_assoc in E.
    assert (get_esc (x ++ (String "-" (y ++ b) ++ String "]" p1)) = get_esc (x2 ++ (String "-" (y2 ++ b2) ++ String "]" p2))) as G by (by rewrite E).
    rewrite (get_esc_char x lo), (get_esc_char x2 lo2) in G by done.
    injection G as -> G. rewrite !sapp_assoc in G.
    assert (get_esc (y ++ (b ++ String "]" p1)) = get_esc (y2 ++ (b2 ++ String "]" p2))) as G2 by (by rewrite G).
    rewrite (get_esc_char y hi), (get_esc_char y2 hi2) in G2 by (done || apply ne_close).
    injection G2 as -> G2. by destruct (IH _ _ _ _ Hb2 G2) as [-> ->].
Qed.
Lemma glob_det p ts1 : glob p ts1 -> forall ts2, glob p ts2 -> ts1 = ts2.
Proof.
  induction 1 as [|p ts Hp IH|p ts Hp IH|b l p ts Hb Hl Hc Hp IH|b l p ts Hb Hl Hp IH|c p ts Hp IH|c p ts N1 N2 N3 N4 Hp IH];
    intros ts2 H2.
  - by inversion H2.
  - inversion H2; subst; [f_equal; by apply IH|done].
  - inversion H2; subst; [f_equal; by apply IH|done].
  - inversion H2 as [| | |b2 l2 p2 ts3 Hb2 Hl2 Hc2 Hp2 E|b2 l2 p2 ts3 Hb2 Hl2 Hp2 E| |]; subst; [| |done].
    + symmetry in E. destruct (class_det b l Hb _ _ _ _ Hb2 E) as [-> ->]. f_equal. by apply IH.
    + destruct Hc. destruct b as [|b0 b]; [by inversion Hb|]. rewrite sapp_cons in E. injection E as <- _. by exists b.
  - inversion H2 as [| | |b2 l2 p2 ts3 Hb2 Hl2 Hc2 Hp2 E|b2 l2 p2 ts3 Hb2 Hl2 Hp2 E| |]; subst; [| |done].
    + destruct Hc2. destruct b2 as [|b0 b2]; [inversion Hb2; subst; by destruct Hl2|]. rewrite sapp_cons in E. injection E as -> _. by exists b2.
    + symmetry in E. destruct (class_det b l Hb _ _ _ _ Hb2 E) as [-> ->]. f_equal. by apply IH.
  - inversion H2; subst; [f_equal; by apply IH|done].
  - inversion H2; subst; try done. f_equal. by apply IH.
Qed.

(** * Where the matcher is exact *)

Lemma ascii_app a b : all_ascii (a ++ b) <-> all_ascii a /\ all_ascii b.
Proof. induction a as [|c a IH]; [cbn; tauto|]. rewrite sapp_cons. cbn [all_ascii]. rewrite IH. tauto. Qed.
Lemma ascii_char s r rest : all_ascii s -> any_char s r rest -> whole_char s r rest /\ all_ascii rest.
Proof.
  intros Ha H. assert (whole_char s r rest) as W.
  { destruct H as [s r rest H|b rest Hno]; [exact H|]. destruct Ha as [Hb _]. destruct (Hno (byte_of b) rest).
    assert (String b rest = utf8 (byte_of b) ++ rest) as ->; [|constructor; unfold scalar, byte_of; lia].
    unfold utf8. destruct (N.ltb_spec (byte_of b) 128) as [_|Hge]; [|unfold byte_of in Hge; lia].
    rewrite sapp_cons. by rewrite (val_octet b (byte_of b)). }
  split; [exact W|]. apply whole_inv in W as [_ ->]. by apply ascii_app in Ha as [_ Ha].
Qed.
Lemma denotes_ascii ts s : denotes any_char ts s -> all_ascii s -> denotes whole_char ts s.
Proof.
  induction 1 as [|c ts s Hd IH|ts s r rest Hc Hn Hd IH|neg l ts s r rest Hc Hn Hd IH|u ts s Hu Hd IH]; intros Ha.
  - constructor.
  - constructor. destruct Ha as [_ Ha]. by apply IH.
  - destruct (ascii_char _ _ _ Ha Hc) as [W Hr]. eapply d_any; [exact W|done|by apply IH].
  - destruct (ascii_char _ _ _ Ha Hc) as [W Hr]. eapply d_class; [exact W|done|by apply IH].
  - apply ascii_app in Ha as [_ Ha]. constructor; [done|by apply IH].
Qed.
Lemma denotes_literals char char' ts s : denotes char ts s -> only_literals ts -> denotes char' ts s.
Proof.
  induction 1 as [|c ts s Hd IH|ts s r rest Hc Hn Hd IH|neg l ts s r rest Hc Hn Hd IH|u ts s Hu Hd IH]; intros Ho;
    inversion_clear Ho as [|?? Ho1 Ho2]; try done; constructor; auto.
Qed.

Lemma ascii_exact name p ts : glob p ts -> classes_avoid_slash ts -> all_ascii name ->
  (wildcard_match name p = true <-> denotes whole_char ts name).
Proof.
  intros Hg Hav Ha. split; [|by apply wildcard_complete]. intros H. apply wildcard_sound in H as (ts' & Hg' & Hd).
  rewrite <- (glob_det p ts Hg ts' Hg') in Hd. by apply denotes_ascii.
Qed.
Lemma literals_exact name p ts : glob p ts -> only_literals ts ->
  (wildcard_match name p = true <-> denotes whole_char ts name).
Proof.
  intros Hg Ho. split.
  - intros H. apply wildcard_sound in H as (ts' & Hg' & Hd). rewrite <- (glob_det p ts Hg ts' Hg') in Hd.
    by apply (denotes_literals any_char).
  - apply wildcard_complete; [done|]. intros pre neg l post -> _ _. unfold only_literals in Ho.
    apply List.Forall_app in Ho as [_ Ho]. by inversion Ho.
Qed.

(** * Where it is not *)

Lemma slash_class_missed :
  glob "*[^a]*b" [TStar; TClass true [(97, 97)]; TStar; TLit "b"]
  /\ denotes whole_char [TStar; TClass true [(97, 97)]; TStar; TLit "b"] "x/b"
  /\ wildcard_match "x/b" "*[^a]*b" = false.
Proof.
  split; [|split; [|vm_compute; reflexivity]].
  - constructor. apply (g_class_neg "a"); [|done|repeat (constructor; try done)].
    apply (cb_one "a" 97 "" []); [|constructor]. apply (cc_plain 97); [unfold scalar; lia|by intros (?&?)..].
  - apply (d_star whole_char "x"); [done|]. apply (d_class _ _ _ _ "/b" 47 "b").
    + apply (wc 47 "b"). unfold scalar; lia.
    + repeat constructor. lia.
    + apply (d_star whole_char ""); [done|]. repeat constructor.
Qed.

Definition euro : string := utf8 8364.
Lemma half_euro_matched :
  glob "*??" [TStar; TAny; TAny] /\ ~ denotes whole_char [TStar; TAny; TAny] euro /\ wildcard_match euro "*??" = true.
Proof.
  split; [repeat constructor|]. split; [|vm_compute; reflexivity].
  assert (forall s r rest, whole_char s r rest -> s <> "" /\ decode_rune s = (r, String.length (utf8 r)) /\ rest = sdrop (String.length (utf8 r)) s) as W.
  { intros s r rest [r' rest' Hr]. rewrite decode_utf8, sdrop_app by done. split; [|done]. destruct (utf8_shape r' Hr) as (a & tl & -> & _). done. }
  inversion 1 as [| | | |u ts s Hu Hd E1 E2]; subst. inversion Hd as [| |ts s0 r rest Hc _ Hd2| |]; subst.
  inversion Hd2 as [| |ts s0 r2 rest2 Hc2 _ _| |]; subst.
  apply W in Hc as (Hne & D & ->), Hc2 as (Hne2 & _).
  change euro with (String (octet 226) (String (octet 130) (String (octet 172) ""))) in E2.
  assert ((65533, 1%nat) <> (r, String.length (utf8 r))) as Bad.
  { intros [= <- H1]. by vm_compute in H1. }
  destruct u as [|u0 u]; [|rewrite sapp_cons in E2; injection E2 as _ E2; destruct u as [|u1 u];
    [|rewrite sapp_cons in E2; injection E2 as _ E2; destruct u as [|u2 u];
      [|rewrite sapp_cons in E2; injection E2 as _ E2; destruct u as [|u3 u]; [|done]]]];
    change ("" ++ s) with s in E2; subst s.
  - change (decode_rune _) with (8364, 3%nat) in D. injection D as <- D. by apply Hne2.
  - change (decode_rune _) with (65533, 1%nat) in D. by apply Bad.
  - change (decode_rune _) with (65533, 1%nat) in D. by apply Bad.
  - done.
Qed.
