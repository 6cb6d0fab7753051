(** The chunks of path.Match against the grammar of patterns. *)
From Coq Require Import Ascii.
From Coq Require Import ZifyN ZifyNat.
From Verif Require Import Prelude PathMatch PathMatchSpec PathUtf8.

Local Open Scope string_scope.
Local Open Scope N_scope.

(** * Bytes *)

Lemma is_star a : is_chr a cStar = Ascii.eqb a "*". Proof. destruct a as [[] [] [] [] [] [] [] []]; reflexivity. Qed.
Lemma is_quest a : is_chr a cQuest = Ascii.eqb a "?". Proof. destruct a as [[] [] [] [] [] [] [] []]; reflexivity. Qed.
Lemma is_open a : is_chr a cOpen = Ascii.eqb a "[". Proof. destruct a as [[] [] [] [] [] [] [] []]; reflexivity. Qed.
Lemma is_close a : is_chr a cClose = Ascii.eqb a "]". Proof. destruct a as [[] [] [] [] [] [] [] []]; reflexivity. Qed.
Lemma is_back a : is_chr a cBack = Ascii.eqb a "\". Proof. destruct a as [[] [] [] [] [] [] [] []]; reflexivity. Qed.
Lemma is_caret a : is_chr a cCaret = Ascii.eqb a "^". Proof. destruct a as [[] [] [] [] [] [] [] []]; reflexivity. Qed.
Lemma is_dash a : is_chr a cDash = Ascii.eqb a "-". Proof. destruct a as [[] [] [] [] [] [] [] []]; reflexivity. Qed.
Lemma is_slash a : is_chr a cSlash = Ascii.eqb a "/". Proof. destruct a as [[] [] [] [] [] [] [] []]; reflexivity. Qed.
Ltac chars := rewrite ?is_star, ?is_quest, ?is_open, ?is_close, ?is_back, ?is_caret, ?is_dash, ?is_slash in *.

Fixpoint conts (s : string) : Prop :=
  match s with EmptyString => True | String c s' => 128 <= byte_of c <= 191 /\ conts s' end.
Lemma utf8_shape r : scalar r -> exists a tl, utf8 r = String a tl
  /\ ((byte_of a = r /\ r < 128 /\ tl = "") \/ (128 <= r /\ 192 <= byte_of a /\ conts tl)).
Proof.
  intros [Hr Hs]. unfold utf8. 
  destruct (N.ltb_spec r 128) as [H1|H1].
  { eexists _, _. split; [reflexivity|]. left. rewrite octet_val by lia. done. }
  destruct (N.ltb_spec r 2048) as [H2|H2].
  { eexists _, _. split; [reflexivity|]. right. cbn [conts]. rewrite !octet_val by lia. repeat split; lia. }
  destruct (N.ltb_spec r 65536) as [H3|H3].
  { eexists _, _. split; [reflexivity|]. right. cbn [conts]. rewrite !octet_val by lia. repeat split; lia. }
  { eexists _, _. split; [reflexivity|]. right. cbn [conts]. rewrite !octet_val by lia. repeat split; lia. }
Qed.

(** A byte below 128 begins exactly the character it spells. *)
Lemma utf8_first r a tl : scalar r -> utf8 r = String a tl -> byte_of a < 128 -> r = byte_of a /\ tl = "".
Proof.
  intros H E Ha. destruct (utf8_shape r H) as (a' & tl' & E' & [(A & B & C)|(A & B & C)]);
    rewrite E in E'; injection E' as -> ->; [done|lia].
Qed.

(** * Tokens of a chunk *)

Definition in_classb (neg : bool) (l : list (N * N)) (r : N) : bool :=
  negb (Bool.eqb (existsb (fun '(lo, hi) => (lo <=? r) && (r <=? hi)) l) neg).
Lemma in_classb_spec neg l r : in_classb neg l r = true <-> in_class neg l r.
Proof.
  assert (existsb (fun '(lo, hi) => (lo <=? r) && (r <=? hi)) l = true <-> Exists (fun '(lo, hi) => lo <= r <= hi) l) as H.
  { rewrite existsb_exists, List.Exists_exists. split; intros ([lo hi] & Hx & Hy); exists (lo, hi); (split; [exact Hx|]);
      [apply andb_true_iff in Hy as [A%N.leb_le B%N.leb_le]|apply andb_true_iff; rewrite !N.leb_le]; lia. }
  unfold in_classb, in_class. destruct (existsb _ l) eqn:E; destruct neg; cbn [Bool.eqb negb].
  - split; [discriminate|]. intros F. apply proj1 in H. specialize (H eq_refl).
    apply List.Exists_exists in H as ([lo hi] & Hx & Hy). rewrite List.Forall_forall in F. by destruct (F _ Hx).
  - split; [|done]. intros _. by apply H.
  - split; [|done]. intros _. apply List.Forall_forall. intros [lo hi] Hx Hy.
    assert (false = true); [|done]. apply H. apply List.Exists_exists. by exists (lo, hi).
  - split; [done|]. intros F. apply H. exact F.
Qed.

Definition step (t : token) (s : string) : option string :=
  match s with
  | EmptyString => None
  | String b s1 =>
      match t with
      | TLit c => if Ascii.eqb c b then Some s1 else None
      | TAny => if Ascii.eqb b "/" then None else Some (sdrop (snd (decode_rune s)) s)
      | TClass neg l => let (r, n) := decode_rune s in if in_classb neg l r then Some (sdrop n s) else None
      | TStar => None
      end
  end.
Fixpoint run (ts : list token) (s : string) : option string :=
  match ts with
  | [] => Some s
  | t :: ts' => match step t s with Some s' => run ts' s' | None => None end
  end.

Definition starless (ts : list token) : Prop := Forall (fun t => t <> TStar) ts.

(** * getEsc and class_char *)

Lemma first_is_cons c a s : first_is c (String a s) <-> a = c.
Proof. split; [by intros (s' & [= -> ->])|intros ->; by exists s]. Qed.

Lemma class_char_head x r : class_char x r ->
  exists a x', x = String a x' /\ a <> "-"%char /\ a <> "]"%char.
Proof.
  intros [r' H H1 H2 H3|r' H]; [|by eexists _, _].
  destruct (utf8_shape r' H) as (a & tl & E & _). rewrite E in *. rewrite first_is_cons in H1, H2. by eexists _, _.
Qed.
Lemma get_esc_char x r y : class_char x r -> y <> "" -> get_esc (x ++ y) = Some (r, y).
Proof.
  assert (forall r y, scalar r -> y <> "" ->
    match utf8 r ++ y with
    | EmptyString => None
    | _ => let (r', n) := decode_rune (utf8 r ++ y) in
           if (r' =? rune_error) && (n =? 1)%nat then None
           else match sdrop n (utf8 r ++ y) with EmptyString => None | nc => Some (r', nc) end
    end = Some (r, y)) as K.
  { clear. intros r y H Hy. rewrite decode_utf8 by exact H. rewrite sdrop_app.
    destruct (utf8_shape r H) as (a & tl & E & D). rewrite E, sapp_cons. cbn [String.length].
    destruct y as [|y0 y']; [done|]. destruct (N.eqb_spec r rune_error) as [->|]; [|done].
    cbn in E. injection E as <- <-. done. }
  intros [r' H H1 H2 H3|r' H] Hy; unfold get_esc.
  - specialize (K r' y H Hy).
    destruct (utf8_shape r' H) as (a & tl & E & D). rewrite E in *. rewrite first_is_cons in H1, H2, H3.
    rewrite !sapp_cons in *. chars. destruct (Ascii.eqb_spec a "-"); [done|]. destruct (Ascii.eqb_spec a "]"); [done|].
    destruct (Ascii.eqb_spec a "\"); [done|]. exact K.
  - rewrite sapp_cons. specialize (K r' y H Hy). chars. exact K.
Qed.
Lemma get_esc_inv c r y : get_esc c = Some (r, y) -> exists x, c = x ++ y /\ class_char x r /\ y <> "".
Proof.
  assert (forall c r y,
    match c with
    | EmptyString => None
    | _ => let (r', n) := decode_rune c in
           if (r' =? rune_error) && (n =? 1)%nat then None
           else match sdrop n c with EmptyString => None | nc => Some (r', nc) end
    end = Some (r, y) -> scalar r /\ c = utf8 r ++ y /\ y <> "") as K.
  { clear. intros c r y H. destruct (decode_inv c) as [(r' & rest & Hr & E & D)|[D _]]; [by destruct c| |].
    - destruct c; [done|]. rewrite D in H. rewrite E, sdrop_app in H.
      destruct (_ && _); [done|]. destruct rest; [done|]. injection H as <- <-. split; [exact Hr|]. by split.
    - rewrite D in H. destruct c; done. }
  unfold get_esc. destruct c as [|a c1]; [done|]. chars.
  destruct (Ascii.eqb_spec a "-") as [|N1]; [done|]. destruct (Ascii.eqb_spec a "]") as [|N2]; [done|]. cbn [orb].
  destruct (Ascii.eqb_spec a "\") as [->|N3]; intros H; [apply K in H as (Hr & E & Hy)|
    apply (K (String a c1)) in H as (Hr & E & Hy)].
  - exists (String "\" (utf8 r)). rewrite sapp_cons, <- E. split; [done|]. split; [by constructor|done].
  - exists (utf8 r). split; [done|]. split; [|done].
    destruct (utf8_shape r Hr) as (a' & tl & E' & _). rewrite E', sapp_cons in E. injection E as -> ->.
    constructor; [done|..]; rewrite E', first_is_cons; done.
Qed.

(** * Classes *)

Lemma class_body_head b l p : class_body b l -> exists a s, b ++ String "]" p = String a s /\ a <> "-"%char
  /\ (l <> [] -> a <> "]"%char).
Proof.
  intros [|x r b' l' Hx Hb|x lo y hi b' l' Hx Hy Hb].
  - by exists "]"%char, p.
  - destruct (class_char_head x r Hx) as (a & x' & -> & Ha & Hb'). rewrite !sapp_cons. by eexists _, _.
  - destruct (class_char_head x lo Hx) as (a & x' & -> & Ha & Hb'). rewrite !sapp_cons. by eexists _, _.
Qed.
Lemma class_char_length x r : class_char x r -> (0 < String.length x)%nat.
Proof. intros H. destruct (class_char_head x r H) as (a & x' & -> & _). cbn. lia. Qed.

Lemma match_class_body b l : class_body b l -> forall fuel r p n m,
  (l <> [] \/ (0 < n)%nat) -> (String.length b < fuel)%nat ->
  match_class fuel r (b ++ String "]" p) n m
  = Some (m || existsb (fun '(lo, hi) => (lo <=? r) && (r <=? hi)) l, p).
Proof.
  induction 1 as [|x c b l Hx Hb IH|x lo y hi b l Hx Hy Hb IH]; intros fuel r p n m Hn Hf.
  - destruct fuel as [|fuel]; [lia|]. destruct Hn as [Hn|Hn]; [done|]. cbn [match_class]. change ("" ++ String "]" p) with (String "]" p). chars. cbn [Ascii.eqb Bool.eqb].
    destruct (Nat.ltb_spec 0 n); [|lia]. cbn [existsb]. rewrite orb_false_r. done.
  - destruct fuel as [|fuel]; [lia|]. rewrite sapp_assoc. rewrite slength_app in Hf. pose proof (class_char_length x c Hx).
    destruct (class_body_head b l p Hb) as (a0 & s0 & E0 & Hd & _).
    assert (get_esc (x ++ (b ++ String "]" p)) = Some (c, b ++ String "]" p)) as G.
    { apply get_esc_char; [exact Hx|by rewrite E0]. }
    destruct (class_char_head x c Hx) as (a & x' & -> & Ha & Hc). rewrite !sapp_cons in *. cbn [match_class]. chars.
    destruct (Ascii.eqb_spec a "]"); [done|]. cbn [andb]. rewrite G. rewrite E0 at 1.
    chars. destruct (Ascii.eqb_spec a0 "-"); [done|].
    rewrite IH; [|right; lia|lia]. cbn [existsb]. by rewrite orb_assoc.
  - destruct fuel as [|fuel]; [lia|]. rewrite !sapp_assoc, sapp_cons, sapp_assoc.
    rewrite !slength_app in Hf. cbn [String.length] in Hf. rewrite slength_app in Hf. pose proof (class_char_length x lo Hx).
    destruct (class_body_head b l p Hb) as (a0 & s0 & E0 & _).
    assert (get_esc (y ++ (b ++ String "]" p)) = Some (hi, b ++ String "]" p)) as G2.
    { apply get_esc_char; [exact Hy|by rewrite E0]. }
    assert (get_esc (x ++ String "-" (y ++ (b ++ String "]" p))) = Some (lo, String "-" (y ++ (b ++ String "]" p)))) as G.
    { by apply get_esc_char. }
    destruct (class_char_head x lo Hx) as (a & x' & -> & Ha & Hc). rewrite !sapp_cons in *. cbn [match_class]. chars.
    destruct (Ascii.eqb_spec a "]"); [done|]. cbn [andb]. rewrite G. chars. cbn [Ascii.eqb Bool.eqb]. rewrite G2.
    rewrite IH; [|right; lia|lia]. cbn [existsb]. by rewrite orb_assoc.
Qed.

Lemma match_class_inv fuel : forall r c n m m' p, match_class fuel r c n m = Some (m', p) ->
  exists b l, c = b ++ String "]" p /\ class_body b l /\ (l <> [] \/ (0 < n)%nat).
Proof.
  induction fuel as [|fuel IH]; intros r c n m m' p; [done|]. destruct c as [|a c1]; [done|]. cbn [match_class]. chars.
  destruct (Ascii.eqb_spec a "]") as [->|Na]; cbn [andb].
  { destruct (Nat.ltb_spec 0 n) as [Hn|Hn]; [|by unfold get_esc; chars].
    intros [= <- <-]. exists "", []. split; [done|]. split; [constructor|by right]. }
  destruct (get_esc (String a c1)) as [[lo c2]|] eqn:E1; [|done].
  apply get_esc_inv in E1 as (x & E1 & Hx & Hne). destruct c2 as [|b c3]; [done|]. chars.
  destruct (Ascii.eqb_spec b "-") as [->|Nb].
  - destruct (get_esc c3) as [[hi c4]|] eqn:E2; [|done]. apply get_esc_inv in E2 as (y & -> & Hy & _).
    intros H. apply IH in H as (b & l & -> & Hb & _). exists (x ++ String "-" (y ++ b)), ((lo, hi) :: l).
    split; [|split; [by constructor|by left]]. rewrite E1, !sapp_assoc, sapp_cons, sapp_assoc. done.
  - intros H. apply IH in H as (b' & l & E2 & Hb & _). exists (x ++ b'), ((lo, lo) :: l).
    split; [|split; [by constructor|by left]]. by rewrite E1, E2, sapp_assoc.
Qed.

(** * Chunks *)

Lemma match_chunk_parsed c cs : glob c cs -> starless cs -> forall fuel s failed,
  (String.length c < fuel)%nat ->
  match_chunk fuel c s failed = Some (if failed then None else run cs s).
Proof.
  assert (K : forall b l neg p ts, class_body b l -> l <> [] ->
    (forall fuel s failed, (String.length p < fuel)%nat ->
      match_chunk fuel p s failed = Some (if failed then None else run ts s)) ->
    forall fuel s failed, (String.length (b ++ String "]" p) < fuel)%nat ->
    (let failed := failed || match s with EmptyString => true | _ => false end in
     let '(r, s') := if failed then (0, s) else let (r, n) := decode_rune s in (r, sdrop n s) in
     match match_class (S (String.length (b ++ String "]" p))) r (b ++ String "]" p) 0 false with
     | None => None
     | Some (m, c3) => match_chunk fuel c3 s' (failed || Bool.eqb m neg)
     end) = Some (if failed then None else run (TClass neg l :: ts) s)).
  { intros b l neg p ts Hb Hl IH fuel s failed Hf. rewrite slength_app in Hf |- *. cbn [String.length] in *. cbv zeta.
    destruct failed; cbn [orb].
    { rewrite (match_class_body b l Hb) by (try (by left); lia). rewrite IH by lia. done. }
    destruct s as [|c0 s0].
    { rewrite (match_class_body b l Hb) by (try (by left); lia). rewrite IH by lia. done. }
    cbn [run step]. unfold in_classb. destruct (decode_rune (String c0 s0)) as [r n].
    rewrite (match_class_body b l Hb) by (try (by left); lia). rewrite IH by lia. cbn [orb].
    destruct (Bool.eqb _ neg); done. }
  induction 1 as [|p ts Hp IH|p ts Hp IH|b l p ts Hb Hl Hc Hp IH|b l p ts Hb Hl Hp IH|c p ts Hp IH|c p ts N1 N2 N3 N4 Hp IH];
    intros Hs fuel s failed Hf; (destruct fuel as [|fuel]; [lia|]); cbn [String.length] in Hf.
  - cbn. by destruct failed.
  - by inversion Hs.
  - inversion_clear Hs as [|?? _ Hs']. specialize (IH Hs'). cbn [match_chunk]. chars. cbn [Ascii.eqb Bool.eqb].
    destruct s as [|b s1].
    { rewrite orb_true_r, IH by lia. by destruct failed. }
    rewrite orb_false_r. destruct failed; [by rewrite IH by lia|]. rewrite IH by lia. cbn [run step]. chars.
    by destruct (Ascii.eqb b "/").
  - inversion_clear Hs as [|?? _ Hs']. cbn [match_chunk]. chars. cbn [Ascii.eqb Bool.eqb].
    specialize (K b l false p ts Hb Hl (IH Hs') fuel s failed). rewrite <- K by lia. clear K.
    destruct (class_body_head b l p Hb) as (a & s0 & E & _).
    assert (a <> "^"%char) as Ha.
    { intros ->. apply Hc. destruct b as [|b0 b']; [inversion E|]. rewrite sapp_cons in E. injection E as -> _. by exists b'. }
    rewrite E. chars. destruct (Ascii.eqb_spec a "^"); [done|].
    destruct (failed || _) eqn:Ef; [|destruct (decode_rune s)]; rewrite ?Ef; reflexivity.
  - inversion_clear Hs as [|?? _ Hs']. cbn [match_chunk]. chars. cbn [Ascii.eqb Bool.eqb].
    specialize (K b l true p ts Hb Hl (IH Hs') fuel s failed). rewrite <- K by (cbn [String.length] in Hf; lia). clear K.
    destruct (failed || _) eqn:Ef; [|destruct (decode_rune s)]; rewrite ?Ef; reflexivity.
  - inversion_clear Hs as [|?? _ Hs']. specialize (IH Hs'). cbn [match_chunk]. chars. cbn [Ascii.eqb Bool.eqb].
    destruct s as [|b s1].
    { rewrite orb_true_r, IH by lia. by destruct failed. }
    rewrite orb_false_r. destruct failed; [by rewrite IH by lia|]. rewrite IH by lia. cbn [run step].
    by destruct (Ascii.eqb c b).
  - inversion_clear Hs as [|?? _ Hs']. specialize (IH Hs'). cbn [match_chunk]. chars.
    destruct (Ascii.eqb_spec c "["); [done|]. destruct (Ascii.eqb_spec c "?"); [done|]. destruct (Ascii.eqb_spec c "\"); [done|].
    destruct s as [|b s1].
    { rewrite orb_true_r, IH by lia. by destruct failed. }
    rewrite orb_false_r. destruct failed; [by rewrite IH by lia|]. rewrite IH by lia. cbn [run step].
    by destruct (Ascii.eqb c b).
Qed.
Lemma matchChunk_parsed c cs s : glob c cs -> starless cs -> matchChunk c s = Some (run cs s).
Proof. intros H1 H2. unfold matchChunk. by rewrite (match_chunk_parsed c cs H1 H2) by lia. Qed.
