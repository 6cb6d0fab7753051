(** Proofs: messages and payloads through CBOR and MessagePack. *)
From Coq Require Import Ascii ZifyN ZifyNat.
From Verif Require Import Prelude Value Msg BaseSpec WireSpec MsgSpec MsgWire PathMatch PathMatchSpec PathUtf8 Encoding JsonSpec JsonFacts JsonSafe JsonRound
  AuthSpec AuthProofs Payload PayloadFacts Binary BinarySpec BinaryRound BinaryLaws.

Local Open Scope string_scope.
Local Open Scope list_scope.
Local Open Scope N_scope.

Lemma marshal_short m : N.of_nat (length (marshal m)) <= 100.
Proof.
  destruct m; cbn [marshal]; rewrite ?app_length; cbn [length]; try lia;
    unfold tail_args, tail_args_abort; repeat case_match; cbn [app length]; lia.
Qed.

Section MESSAGE.
  Context (ints : ikind -> Z -> Prop) (strs bins : string -> Prop) (limit : N) (d d' : option N).
  Definition gfits (d : option N) (v : value) : Prop :=
    made_of ints strs bins v /\ widest v <= limit /\ room (nesting v) d.
  Context (Hint : forall n, n < 2 ^ 64 -> ints KUint64 (Z.of_N n)).
  Context (Hstr : forall s, Forall (fun c => byte c < 128) (chars s) -> shorter 100 s -> strs s).
  Context (Hlim : 100 <= limit) (Hd : forall n, room n d' -> room (1 + n) d) (H2 : room 2 d).

  Lemma room1 : room 1 d.
  Proof. eapply room_le; [|exact H2]. lia. Qed.

  Lemma room0 x : room 0 x.
  Proof. destruct x; cbn; lia. Qed.
  Lemma gfits_id x n : n < 2 ^ 64 -> gfits x (vid n).
  Proof. intros H. split; [apply mo_int; by apply Hint|]. split; [cbn; lia|apply room0]. Qed.
  Lemma gfits_code x n : n < 100 -> gfits x (vid n).
  Proof. intros H. apply gfits_id. lia. Qed.
  Lemma gfits_str x s : strs s -> gfits x (VStr s).
  Proof. intros H. split; [by apply mo_str|]. split; [cbn; lia|apply room0]. Qed.
  Lemma gfits_empty : gfits d (VSlice (Some [])).
  Proof. split; [apply mo_slice; constructor|]. split; [cbn; lia|exact room1]. Qed.
  Lemma gfits_nil : gfits d (VSlice None).
  Proof. split; [apply mo_slice; constructor|]. split; [cbn; lia|apply room0]. Qed.
  Lemma gfits_or_empty m : gfits d (VMap m) -> gfits d (VMap (or_empty m)).
  Proof.
    destruct m; [done|]. intros _. split; [apply mo_map; constructor|]. split; [cbn; lia|exact room1].
  Qed.
  Ltac each := repeat first [apply Forall_cons; split | apply Forall_nil; exact I | assumption | apply gfits_empty | apply gfits_nil].
  Lemma gfits_tail a k : gfits d (VSlice a) -> gfits d (VMap k) -> Forall (gfits d) (tail_args a k).
  Proof. intros Ha Hk. unfold tail_args. destruct a, k; cbn; each. Qed.
  Lemma gfits_tail_abort a k : gfits d (VSlice a) -> gfits d (VMap k) -> Forall (gfits d) (tail_args_abort a k).
  Proof. intros Ha Hk. unfold tail_args_abort. destruct a, k; cbn; each. Qed.

  Lemma hello_fits h : strs (he_authid h) -> gfits d' (VStrs (he_authmethods h)) ->
    gfits d' (VMap (he_authextra h)) -> gfits d' (VMap (he_roles h)) ->
    gfits d (VMap (Some [("authid", VStr (he_authid h)); ("authmethods", VStrs (he_authmethods h));
                   ("authextra", VMap (or_empty (he_authextra h))); ("roles", VMap (he_roles h))])).
  Proof.
    intros A (M1 & M2 & M3) (X1 & X2 & X3) (R1 & R2 & R3).
    assert (K : forall s, s ∈ ["authid"; "authmethods"; "authextra"; "roles"] -> strs s).
    { intros s Hs. repeat (apply elem_of_cons in Hs as [->|Hs]; [apply Hstr; [repeat constructor|cbn; unfold shorter; cbn; lia]|]).
      by apply elem_of_nil in Hs. }
    assert (E : made_of ints strs bins (VMap (or_empty (he_authextra h))) /\ widest (VMap (or_empty (he_authextra h))) <= limit
        /\ (room (nesting (VMap (or_empty (he_authextra h)))) d' \/ nesting (VMap (or_empty (he_authextra h))) = 1)).
    { destruct (he_authextra h); [by split; [|split; [|left]]|].
      split; [apply mo_map; constructor|]. split; [cbn; lia|]. by right. }
    destruct E as (E1 & E2 & E3). split; [|split].
    - apply mo_map; cbn [default from_option id].
      + repeat (apply Forall_cons; split); try apply Forall_nil; try exact I; cbn [fst snd];
          (split; [apply K; set_solver|]); try assumption. by apply mo_str.
      + cbn. repeat (apply NoDup_cons; split; [set_solver|]). apply NoDup_nil_2.
    - set (x := or_empty (he_authextra h)) in *. cbn [widest map snd foldr length] in *. 
      cbn [widest] in E2, R2. destruct (he_authmethods h), x, (he_roles h); cbn [widest] in *; lia.
    - assert (J : forall a b x, room (1 + a) x -> room (1 + b) x -> room (1 + N.max a b) x).
      { intros a b [x|]; cbn; lia. }
      set (x := or_empty (he_authextra h)) in *.
      change (room (1 + N.max 0 (N.max (nesting (VStrs (he_authmethods h))) (N.max (nesting (VMap x))
        (N.max (nesting (VMap (he_roles h))) 0)))) d).
      assert (Z : room 1 d) by exact room1.
      repeat apply J; try exact Z; try (apply Hd; assumption).
      destruct E3 as [E3| ->]; [by apply Hd|exact H2].
  Qed.

  Lemma message_gfits m : message_made_of strs (gfits d) (gfits d') m -> Forall (gfits d) (marshal m).
  Proof.
    intros [F H]. destruct m; cbn [msg_fields marshal] in *;
      repeat match goal with F : Forall _ (_ :: _) |- _ =>
        let A := fresh "A" in let B := fresh "B" in apply Forall_cons in F as [A B]; cbn [field_fits] in A end;
      cbn [app];
      repeat first [apply Forall_cons; split | apply Forall_nil; exact I | apply gfits_tail | apply gfits_tail_abort
        | apply gfits_code; reflexivity | apply gfits_id; assumption | apply gfits_str; assumption | apply gfits_or_empty | assumption].
    destruct H as (? & ? & ? & ?). by apply hello_fits.
  Qed.
End MESSAGE.

Lemma list_widest limit l : N.of_nat (length l) <= limit -> Forall (fun v => widest v <= limit) l ->
  widest (VSlice (Some l)) <= limit.
Proof.
  intros H F. cbn [widest]. assert (foldr N.max 0 (map widest l) <= limit); [|lia].
  clear H. induction F as [|v l W F IH]; cbn [map foldr]; lia.
Qed.
Lemma list_nesting d l : Forall (fun v => nesting v <= d) l -> nesting (VSlice (Some l)) <= 1 + d.
Proof.
  intros F. cbn [nesting]. assert (foldr N.max 0 (map nesting l) <= d); [|lia].
  induction F as [|v l W F IH]; cbn [map foldr]; lia.
Qed.

(** * The two formats *)
Lemma cbor_list l : N.of_nat (length l) <= 131072 -> Forall (fits_cbor 31) l -> forall sh, exists s l',
  bin_marshal cbor sh l = Ok s /\ item cbor_layout s (VSlice (Some l')) /\ bin_unmarshal cbor s = Ok (Some l') /\ Forall2 wire l l'.
Proof.
  intros H F sh. apply (list_through cbor cbor_layout 131072 fits cbor_str (shorter (2 ^ 64)) cbor_writes_atom
    cbor_writes_str cbor_writes_list cbor_writes_dict cbor_writes_key cbor_reads_atom cbor_reads_list cbor_reads_dict cbor_reads_key).
  - eapply Forall_impl; [exact F|]. by intros v [].
  - apply list_widest; [done|]. eapply Forall_impl; [exact F|]. by intros v (_ & ? & _).
  - cbn [fm_levels cbor room]. change 32 with (1 + 31). apply list_nesting. eapply Forall_impl; [exact F|]. by intros v (_ & _ & ?).
Qed.
Lemma mp_list_ok l : N.of_nat (length l) < 2 ^ 32 -> Forall fits_msgpack l -> forall sh, exists s l',
  bin_marshal msgpack sh l = Ok s /\ item mp_layout s (VSlice (Some l')) /\ bin_unmarshal msgpack s = Ok (Some l') /\ Forall2 wire l l'.
Proof.
  intros H F sh. apply (list_through msgpack mp_layout (2 ^ 32 - 1) not_int16 (shorter (2 ^ 32)) (shorter (2 ^ 32)) mp_writes_atom
    mp_writes_str mp_writes_list mp_writes_dict mp_writes_key mp_reads_atom mp_reads_list mp_reads_dict mp_reads_key).
  - eapply Forall_impl; [exact F|]. by intros v [].
  - apply list_widest; [lia|]. eapply Forall_impl; [exact F|]. intros v (_ & ?). cbn beta. lia.
  - done.
Qed.

Lemma message_cbor m : message_fits_cbor m -> Forall (fits_cbor 31) (marshal m).
Proof.
  intros H. apply (message_gfits fits cbor_str (shorter (2 ^ 64)) 131072 (Some 31) (Some 30)); [| |lia| |cbn; lia|exact H].
  - intros n Hn. unfold fits, kmin, kmax, two64. lia.
  - intros s Hs L. split; [by apply ascii_text|]. unfold shorter in *. lia.
  - intros n. cbn. lia.
Qed.
Lemma message_mp m : message_fits_msgpack m -> Forall fits_msgpack (marshal m).
Proof.
  intros H.
  assert (E : forall v, fits_msgpack v <-> gfits not_int16 (shorter (2 ^ 32)) (shorter (2 ^ 32)) (2 ^ 32 - 1) None v).
  { intros v. unfold fits_msgpack, gfits. cbn [room]. split; [intros [? ?]|intros (? & ? & _)]; repeat split; try done; lia. }
  eapply Forall_impl; [|intros v; apply E].
  apply (message_gfits not_int16 (shorter (2 ^ 32)) (shorter (2 ^ 32)) (2 ^ 32 - 1) None None); [| |lia|done|done|].
  - intros n Hn. split; [unfold fits, kmin, kmax, two64; lia|]. split; [done|]. by intros [? _].
  - intros s _ L. unfold shorter in *. lia.
  - destruct H as [F H]. split.
    + eapply Forall_impl; [exact F|]. intros []; cbn [field_fits]; try done; apply E.
    + destruct m; try done. rewrite <- !E. exact H.
Qed.

Section PLATFORM.
Context `{PL : Platform}.
Theorem message_through_cbor sh sh1 sh2 m : msg_ok m -> message_fits_cbor m ->
  exists s m', cbor_serialize sh m = Ok s /\ (exists l, item cbor_layout s (VSlice (Some l)) /\ Forall2 wire (marshal m) l)
    /\ cbor_deserialize sh1 sh2 s = Ok m' /\ msg_same m m'.
Proof.
  intros Hok Hf%message_cbor. pose proof (marshal_short m). destruct (cbor_list (marshal m)) with sh as (s & l & E & I & D & W); [lia|done|].
  destruct (deserialize_wire sh1 sh2 m l Hok W) as (m' & Hm & Hs). exists s, m'. split; [done|]. split; [by exists l|].
  split; [|done]. unfold cbor_deserialize, bin_deserialize. rewrite D. exact Hm.
Qed.
Theorem message_through_msgpack sh sh1 sh2 m : msg_ok m -> message_fits_msgpack m ->
  exists s m', msgpack_serialize sh m = Ok s /\ (exists l, item mp_layout s (VSlice (Some l)) /\ Forall2 wire (marshal m) l)
    /\ msgpack_deserialize sh1 sh2 s = Ok m' /\ msg_same m m'.
Proof.
  intros Hok Hf%message_mp. pose proof (marshal_short m). destruct (mp_list_ok (marshal m)) with sh as (s & l & E & I & D & W); [lia|done|].
  destruct (deserialize_wire sh1 sh2 m l Hok W) as (m' & Hm & Hs). exists s, m'. split; [done|]. split; [by exists l|].
  split; [|done]. unfold msgpack_deserialize, bin_deserialize. rewrite D. exact Hm.
Qed.
End PLATFORM.

(** * What is too deep *)
Section DEPTH.
  Context (F : format).
  Context (FT : forall s v r, fm_token F s = Some (TVal v, r) -> nesting v = 0).
  Lemma assoc_set_deep k v (m : list (string * value)) d : nesting v <= d -> Forall (fun kv => nesting (snd kv) <= d) m ->
    Forall (fun kv => nesting (snd kv) <= d) (assoc_set k v m).
  Proof.
    intros Hv. induction 1 as [|[k0 v0] m H0 H IH]; cbn [assoc_set]; [by repeat constructor|].
    destruct (String.eqb k k0); by constructor.
  Qed.
  Lemma foldr_deep {A} (f : A -> N) l d : Forall (fun x => f x <= d) l -> foldr N.max 0 (map f l) <= d.
  Proof. induction 1; cbn [map foldr]; lia. Qed.
  Lemma read_depth f : forall d,
    (forall s v r, read_item F f (Some d) s = Some (v, r) -> nesting v <= d)
    /\ (forall n s l r, read_items F f (Some d) n s = Some (l, r) -> Forall (fun v => nesting v <= d) l)
    /\ (forall n m s l r, Forall (fun kv => nesting (snd kv) <= d) m -> read_entries F f (Some d) n m s = Some (l, r) ->
          Forall (fun kv => nesting (snd kv) <= d) l).
  Proof.
    induction f as [|f IH]; intros d; [done|]. split; [|split].
    - intros s v r. rewrite read_item_S. destruct (fm_token F s) as [[[v1|n|n] r1]|] eqn:E; [| | |done].
      + intros [= -> ->]. rewrite (FT _ _ _ E). lia.
      + cbn [deeper]. destruct (N.eqb_spec d 0); [done|]. destruct (read_items F f _ n r1) as [[l r2]|] eqn:E1; [|done].
        intros [= <- <-]. destruct (IH (d - 1)) as (_ & H & _). apply H in E1. cbn [nesting].
        pose proof (foldr_deep nesting l (d - 1) E1). lia.
      + cbn [deeper]. destruct (N.eqb_spec d 0); [done|]. destruct (read_entries F f _ n [] r1) as [[l r2]|] eqn:E1; [|done].
        intros [= <- <-]. destruct (IH (d - 1)) as (_ & _ & H). apply H in E1; [|constructor]. cbn [nesting].
        pose proof (foldr_deep (fun kv => nesting (snd kv)) l (d - 1) E1). lia.
    - intros n s l r. rewrite read_items_S. destruct (next_part F n s) as [r0|n'|]; [intros [= <- <-]; constructor| |done].
      destruct (read_item F f (Some d) s) as [[v r1]|] eqn:E; [|done].
      destruct (read_items F f (Some d) n' r1) as [[l2 r2]|] eqn:E1; [|done]. intros [= <- <-].
      destruct (IH d) as (H1 & H2 & _). constructor; eauto.
    - intros n m s l r Hm. rewrite read_entries_S. destruct (next_part F n s) as [r'|n'|]; [by intros [= <- <-]| |done].
      destruct (fm_read_key F s) as [[k r0]|]; [|done]. destruct (read_item F f (Some d) r0) as [[v r1]|] eqn:E; [|done].
      destruct (IH d) as (H1 & _ & H3). intros H. eapply H3; [|exact H]. apply assoc_set_deep; eauto.
  Qed.
  Lemma read_unlimited f : forall d,
    (forall s x, read_item F f d s = Some x -> read_item F f None s = Some x)
    /\ (forall n s x, read_items F f d n s = Some x -> read_items F f None n s = Some x)
    /\ (forall n m s x, read_entries F f d n m s = Some x -> read_entries F f None n m s = Some x).
  Proof.
    induction f as [|f IH]; intros d; [done|]. split; [|split].
    - intros s x. rewrite !read_item_S. destruct (fm_token F s) as [[[v1|n|n] r1]|] eqn:E; [done| | |done].
      + destruct (deeper d) as [d'|]; [|done]. cbn [deeper]. destruct (IH d') as (_ & H & _).
        destruct (read_items F f d' n r1) as [[l r2]|] eqn:E1; [|done]. by rewrite (H _ _ _ E1).
      + destruct (deeper d) as [d'|]; [|done]. cbn [deeper]. destruct (IH d') as (_ & _ & H).
        destruct (read_entries F f d' n [] r1) as [[l r2]|] eqn:E1; [|done]. by rewrite (H _ _ _ _ E1).
    - intros n s x. rewrite !read_items_S. destruct (next_part F n s) as [r'|n'|]; [done| |done]. destruct (IH d) as (H1 & H2 & _).
      destruct (read_item F f d s) as [[v r1]|] eqn:E; [|done]. rewrite (H1 _ _ E).
      destruct (read_items F f d n' r1) as [[l2 r2]|] eqn:E1; [|done]. by rewrite (H2 _ _ _ E1).
    - intros n m s x. rewrite !read_entries_S. destruct (next_part F n s) as [r'|n'|]; [done| |done]. destruct (IH d) as (H1 & _ & H3).
      destruct (fm_read_key F s) as [[k r0]|]; [|done]. destruct (read_item F f d r0) as [[v r1]|] eqn:E; [|done].
      rewrite (H1 _ _ E). apply H3.
  Qed.
  Lemma too_deep (L : layout) limit (RA : reads_atom F L) (RL : reads_list F L limit)
    (RD : reads_dict F L limit) (RK : reads_key F L) s v d : fm_levels F = Some d ->
    item L s v -> widest v <= limit -> d < nesting v -> exists e, bin_unmarshal F s = Err e.
  Proof.
    intros E I W N. unfold bin_unmarshal. rewrite E. destruct (read_item F _ (Some d) s) as [[v' r]|] eqn:R; [|by eexists].
    exfalso. destruct (read_depth (2 * String.length s + 2) d) as (D & _ & _). apply D in R as Hd.
    destruct (read_unlimited (2 * String.length s + 2) (Some d)) as (U & _ & _). apply U in R.
    destruct (item_reads F L limit RA RL RD RK _ _ I W) as [_ R'].
    specialize (R' None Logic.I (2 * String.length s + 2)%nat "" ltac:(lia)). rewrite sapp_nil, R in R'.
    injection R' as -> _. lia.
  Qed.
End DEPTH.
Lemma cbor_flat s v r : cbor_token s = Some (TVal v, r) -> nesting v = 0.
Proof.
  unfold cbor_token. destruct (cbor_read_head s) as [[[[major info] n] r0]|]; [|done].
  repeat case_match; intros E; try discriminate E; injection E as <- <-; try done; by case_match.
Qed.

Lemma cbor_deep sh v : made_of fits cbor_str (shorter (2 ^ 64)) v -> widest v <= 131072 -> 31 < nesting v ->
  exists s e, bin_marshal cbor sh [v] = Ok s /\ bin_unmarshal cbor s = Err e.
Proof.
  intros S W N. assert (S1 : made_of fits cbor_str (shorter (2 ^ 64)) (VSlice (Some [v]))).
  { apply mo_slice. by repeat constructor. }
  assert (W1 : widest (VSlice (Some [v])) <= 131072). { cbn [widest map foldr length]. lia. }
  destruct (value_written cbor cbor_layout 131072 fits cbor_str (shorter (2 ^ 64)) cbor_writes_atom
    cbor_writes_str cbor_writes_list cbor_writes_dict cbor_writes_key sh _ S1 W1) as (Hb & v' & Hw & I & En & Ew).
  destruct (too_deep cbor cbor_flat cbor_layout 131072 cbor_reads_atom cbor_reads_list cbor_reads_dict cbor_reads_key _ v' 32
    eq_refl I) as [e He].
  - lia.
  - rewrite En. cbn [nesting map foldr]. lia.
  - eexists _, e. split; [|exact He]. unfold bin_marshal. cbn [bin_has] in Hb. by rewrite Hb.
Qed.

(** * Strings which are not UTF-8 *)
Lemma cbor_not_text sh x : ~ text x -> shorter (2 ^ 64) x ->
  exists s e, bin_marshal cbor sh [VStr x] = Ok s /\ bin_unmarshal cbor s = Err e.
Proof.
  intros T S. eexists _, _. split; [reflexivity|]. unfold bin_unmarshal.
  cbn [bin_text map String.concat length]. change (fm_list cbor (N.of_nat 1)) with (byte1 129).
  cbn [fm_levels cbor]. change (fm_atom cbor (VStr x)) with (Some (cbor_string 3 x)). cbn [default from_option id].
  set (f := (2 * _ + 2)%nat). assert (Hf : (4 <= f)%nat). { subst f. rewrite slength_app. cbn [byte1 String.length]. lia. }
  destruct f as [|[|[|f]]]; try lia. rewrite read_item_S, byte1_app.
  change (fm_token cbor (String (ascii_of_N 129) (cbor_string 3 x))) with (Some (TList (Exactly 1), cbor_string 3 x)).
  cbn [deeper N.eqb]. rewrite read_items_S. cbn [next_part N.eqb]. rewrite read_item_S.
  assert (E : fm_token cbor (cbor_string 3 x) = None).
  { cbn [fm_token cbor]. unfold cbor_string, cbor_token.
    destruct (cbor_arg_reads _ _ _ (cbor_head_arg 3 (N.of_nat (String.length x)) ltac:(done) S)) as (_ & _ & info & I31 & R); [done|].
    rewrite R. cbv zeta. rewrite I31. cbn [N.eqb Pos.eqb andb]. rewrite <- (sapp_nil x) at 2. rewrite read_bytes_ok.
    destruct (utf8_valid _ x) eqn:V; [|done]. by apply text_utf8_valid in V. }
  rewrite E. reflexivity.
Qed.

(** * Cut and followed messages *)
Lemma bin_unmarshal_no_panic F s w : bin_unmarshal F s <> Panic w.
Proof. unfold bin_unmarshal. repeat case_match; discriminate. Qed.
Section CUT.
Context `{PL : Platform}.
Lemma bin_deserialize_err F sh1 sh2 s : (forall l, bin_unmarshal F s <> Ok l) -> exists e, bin_deserialize F sh1 sh2 s = Err e.
Proof.
  intros H. unfold bin_deserialize. pose proof (bin_unmarshal_no_panic F s). destruct (bin_unmarshal F s); naive_solver.
Qed.
Lemma cbor_cut s x v l : item cbor_layout (s ++ x)%string v -> widest v <= 131072 -> nesting v <= 32 -> x <> "" ->
  bin_unmarshal cbor s <> Ok l.
Proof.
  intros. by apply (prefix_not_read cbor cbor_local_token cbor_local_key cbor_break_local cbor_nothing cbor_layout 131072 cbor_reads_atom cbor_reads_list
    cbor_reads_dict cbor_reads_key s x v).
Qed.
Lemma mp_cut s x v l : item mp_layout (s ++ x)%string v -> widest v < 2 ^ 32 -> x <> "" -> bin_unmarshal msgpack s <> Ok l.
Proof.
  intros. apply (prefix_not_read msgpack mp_local_token mp_local_key mp_break_local mp_nothing mp_layout (2 ^ 32 - 1) mp_reads_atom mp_reads_list
    mp_reads_dict mp_reads_key s x v); try done; lia.
Qed.
Lemma cbor_followed s x v l : item cbor_layout s v -> widest v <= 131072 -> nesting v <= 32 -> x <> "" ->
  bin_unmarshal cbor (s ++ x)%string <> Ok l.
Proof.
  intros. by apply (trailing_not_read cbor cbor_layout 131072 cbor_reads_atom cbor_reads_list
    cbor_reads_dict cbor_reads_key s x v).
Qed.
Lemma mp_followed s x l : item mp_layout s (VSlice (Some l)) -> widest (VSlice (Some l)) < 2 ^ 32 ->
  bin_unmarshal msgpack (s ++ x)%string = Ok (Some l).
Proof.
  intros. apply (trailing_ignored msgpack mp_layout (2 ^ 32 - 1) mp_reads_atom mp_reads_list
    mp_reads_dict mp_reads_key); try done; lia.
Qed.

(** The item of a message. *)
Lemma cbor_message_item sh m s : message_fits_cbor m -> cbor_serialize sh m = Ok s ->
  exists l, item cbor_layout s (VSlice (Some l)) /\ widest (VSlice (Some l)) <= 131072 /\ nesting (VSlice (Some l)) <= 32
    /\ Forall2 wire (marshal m) l.
Proof.
  intros F%message_cbor E. pose proof (marshal_short m) as Hm.
  assert (S1 : made_of fits cbor_str (shorter (2 ^ 64)) (VSlice (Some (marshal m)))).
  { apply mo_slice. eapply Forall_impl; [exact F|]. by intros v []. }
  assert (W1 : widest (VSlice (Some (marshal m))) <= 131072).
  { apply list_widest; [lia|]. eapply Forall_impl; [exact F|]. by intros v (_ & ? & _). }
  assert (N1 : nesting (VSlice (Some (marshal m))) <= 1 + 31).
  { apply list_nesting. eapply Forall_impl; [exact F|]. by intros v (_ & _ & ?). }
  destruct (value_written cbor cbor_layout 131072 fits cbor_str (shorter (2 ^ 64)) cbor_writes_atom
    cbor_writes_str cbor_writes_list cbor_writes_dict cbor_writes_key sh _ S1 W1) as (Hb & v' & Hw & I & En & Ew).
  unfold cbor_serialize, bin_serialize, bin_marshal in E. cbn [bin_has] in Hb. rewrite Hb in E. injection E as <-.
  apply wire_slice_inv in Hw as (l' & -> & W). exists l'. split; [exact I|]. split; [by rewrite Ew|]. split; [|done].
  rewrite En. exact N1.
Qed.
Lemma mp_message_item sh m s : message_fits_msgpack m -> msgpack_serialize sh m = Ok s ->
  exists l, item mp_layout s (VSlice (Some l)) /\ widest (VSlice (Some l)) < 2 ^ 32 /\ Forall2 wire (marshal m) l.
Proof.
  intros F%message_mp E. pose proof (marshal_short m) as Hm.
  assert (S1 : made_of not_int16 (shorter (2 ^ 32)) (shorter (2 ^ 32)) (VSlice (Some (marshal m)))).
  { apply mo_slice. eapply Forall_impl; [exact F|]. by intros v []. }
  assert (W1 : widest (VSlice (Some (marshal m))) <= 2 ^ 32 - 1).
  { apply list_widest; [lia|]. eapply Forall_impl; [exact F|]. intros v (_ & ?). cbn beta. lia. }
  destruct (value_written msgpack mp_layout (2 ^ 32 - 1) not_int16 (shorter (2 ^ 32)) (shorter (2 ^ 32)) mp_writes_atom
    mp_writes_str mp_writes_list mp_writes_dict mp_writes_key sh _ S1 W1) as (Hb & v' & Hw & I & En & Ew).
  unfold msgpack_serialize, bin_serialize, bin_marshal in E. cbn [bin_has] in Hb. rewrite Hb in E. injection E as <-.
  apply wire_slice_inv in Hw as (l' & -> & W). exists l'. split; [exact I|]. split; [|done]. rewrite Ew. lia.
Qed.
Theorem cbor_exact_bytes sh sh1 sh2 m s : message_fits_cbor m -> cbor_serialize sh m = Ok s ->
  (forall p x, s = (p ++ x)%string -> x <> "" -> exists e, cbor_deserialize sh1 sh2 p = Err e)
  /\ (forall x, x <> "" -> exists e, cbor_deserialize sh1 sh2 (s ++ x)%string = Err e).
Proof.
  intros F E. destruct (cbor_message_item sh m s F E) as (l & I & W & N & _). split.
  - intros p x -> Hx. apply bin_deserialize_err. intros l'. by eapply cbor_cut.
  - intros x Hx. apply bin_deserialize_err. intros l'. by eapply cbor_followed.
Qed.
Theorem mp_prefix_bytes sh sh1 sh2 m s : message_fits_msgpack m -> msgpack_serialize sh m = Ok s ->
  (forall p x, s = (p ++ x)%string -> x <> "" -> exists e, msgpack_deserialize sh1 sh2 p = Err e)
  /\ (forall x, msgpack_deserialize sh1 sh2 (s ++ x)%string = msgpack_deserialize sh1 sh2 s).
Proof.
  intros F E. destruct (mp_message_item sh m s F E) as (l & I & W & _). split.
  - intros p x -> Hx. apply bin_deserialize_err. intros l'. by eapply mp_cut.
  - intros x. unfold msgpack_deserialize, bin_deserialize. rewrite (mp_followed s x l) by done.
    rewrite <- (sapp_nil s). by rewrite (mp_followed s "" l) by done.
Qed.

(** * Panics *)
Lemma bin_deserialize_panics F sh1 sh2 s :
  (exists w, bin_deserialize F sh1 sh2 s = Panic w) <->
  bin_unmarshal F s = Ok None \/ bin_unmarshal F s = Ok (Some [])
  \/ exists v v1, bin_unmarshal F s = Ok (Some [v; v1]) /\ (reads_id v 1 \/ reads_id v 5).
Proof.
  unfold bin_deserialize. pose proof (bin_unmarshal_no_panic F s) as NP.
  destruct (bin_unmarshal F s) as [l|e|w0] eqn:E.
  - rewrite deserialize_is_to_message, to_message_panics_reads. destruct l as [l|]; cbn [default from_option id].
    + split.
      * intros [->|(v & v1 & -> & H)]; [by right; left|]. right. right. eauto.
      * intros [?|[[= ->]|(v & v1 & [= ->] & H)]]; [done|by left|]. right. eauto.
    + split; [by left|]. intros _. by left.
  - split; [by intros []|]. intros [?|[?|(? & ? & ? & _)]]; done.
  - by destruct (NP w0).
Qed.
End CUT.

(** * Payloads *)
Lemma payload_carried c args kwargs s l :
  ~ (slice_len args = 0%nat /\ map_len kwargs = 0%nat) ->
  cd_marshal c (prepare_for_encode args kwargs) = Ok s -> cd_unmarshal c s = Ok (Some l) ->
  Forall2 wire (prepare_for_encode args kwargs) l ->
  exists b a' k', encode_payload c args kwargs = Ok b
    /\ decode_payload c b = Ok (a', k') /\ same_args args a' /\ same_kwargs kwargs k'.
Proof.
  intros Hne E D W.
  assert (Hp : exists a' k', decode (Some l) = Ok (a', k') /\ same_args args a' /\ same_kwargs kwargs k').
  { unfold prepare_for_encode in W.
    destruct args as [[|x a]|]; destruct kwargs as [[|y m]|]; cbn in Hne, W; try (exfalso; tauto).
    all: apply Forall2_cons_inv_l in W as (v1 & r1 & (a1 & -> & H1)%wire_slice_inv & W & ->).
    all: try (apply Forall2_cons_inv_l in W as (v2 & r2 & (m' & -> & H2)%wire_map_inv & W & ->)).
    all: apply Forall2_nil_inv_l in W as ->.
    all: cbn [decode]; do 2 eexists; split; [reflexivity|]; cbn; try (inversion H1; subst); eauto 10. }
  destruct Hp as (a' & k' & Hd & H1 & H2). exists s, a', k'. split.
  - unfold encode_payload. destruct (length (prepare_for_encode args kwargs) =? 0)%nat eqn:L; [|exact E].
    exfalso. apply Hne. unfold prepare_for_encode in L. destruct args as [[|]|], kwargs as [[|]|]; try discriminate L; done.
  - split; [|done]. unfold decode_payload. by rewrite D.
Qed.
Lemma prepare_short args kwargs : N.of_nat (length (prepare_for_encode args kwargs)) <= 2.
Proof. unfold prepare_for_encode. repeat case_match; cbn; lia. Qed.
Lemma cbor_payload sh args kwargs :
  ~ (slice_len args = 0%nat /\ map_len kwargs = 0%nat) -> fits_cbor 31 (VSlice args) -> fits_cbor 31 (VMap kwargs) ->
  exists b a' k', encode_payload (bin_codec cbor sh) args kwargs = Ok b
    /\ decode_payload (bin_codec cbor sh) b = Ok (a', k') /\ same_args args a' /\ same_kwargs kwargs k'.
Proof.
  intros Hne Ha Hk. pose proof (prepare_short args kwargs).
  destruct (cbor_list (prepare_for_encode args kwargs)) with sh as (s & l & E & _ & D & W); [lia| |by eapply payload_carried].
  assert (E : fits_cbor 31 (VSlice (Some []))). { split; [apply mo_slice; constructor|]. cbn. lia. }
  unfold prepare_for_encode. repeat case_match; cbn; repeat first [apply Forall_cons; split | apply Forall_nil; exact I | assumption].
Qed.
Lemma mp_payload sh args kwargs :
  ~ (slice_len args = 0%nat /\ map_len kwargs = 0%nat) -> fits_msgpack (VSlice args) -> fits_msgpack (VMap kwargs) ->
  exists b a' k', encode_payload (bin_codec msgpack sh) args kwargs = Ok b
    /\ decode_payload (bin_codec msgpack sh) b = Ok (a', k') /\ same_args args a' /\ same_kwargs kwargs k'.
Proof.
  intros Hne Ha Hk. pose proof (prepare_short args kwargs).
  destruct (mp_list_ok (prepare_for_encode args kwargs)) with sh as (s & l & E & _ & D & W); [lia| |by eapply payload_carried].
  assert (E : fits_msgpack (VSlice (Some []))). { split; [apply mo_slice; constructor|]. cbn. lia. }
  unfold prepare_for_encode. repeat case_match; cbn; repeat first [apply Forall_cons; split | apply Forall_nil; exact I | assumption].
Qed.

(** * The kinds of integers *)
Lemma one_atom F L limit (RA : reads_atom F L) (RL : reads_list F L limit) (RD : reads_dict F L limit) (RK : reads_key F L)
  sh v v' t : partless v -> fm_atom F v = Some t -> la_atom L t v' -> nesting v' = 0 -> widest v' = 0 ->
  la_list L 1 (fm_list F 1) -> 1 <= limit -> room 1 (fm_levels F) ->
  exists s, bin_marshal F sh [v] = Ok s /\ bin_unmarshal F s = Ok (Some [v']).
Proof.
  intros P E A N W HL Hl Hr.
  assert (bin_has F v = bool_decide (is_Some (fm_atom F v))) as Hb by (destruct v as [| | | | | | |[]|[]|[]|]; done).
  assert (bin_text F sh v = default "" (fm_atom F v)) as Ht by (destruct v as [| | | | | | |[]|[]|[]|]; done).
  eexists. split.
  - unfold bin_marshal. cbn [forallb]. rewrite Hb, E. rewrite bool_decide_eq_true_2 by by eexists. reflexivity.
  - apply (item_list_unmarshal F L limit RA RL RD RK).
    + cbn [bin_text map length]. rewrite Ht, E. cbn [default from_option id].
      apply (it_list L (fm_list F 1) [t] [v']); [exact HL|]. constructor; [by constructor|constructor].
    + cbn [widest map foldr length]. rewrite W. cbn. lia.
    + cbn [nesting map foldr]. rewrite N. exact Hr.
Qed.
Lemma cbor_integer sh k z : fits k z -> exists s k', bin_marshal cbor sh [VInt k z] = Ok s
  /\ bin_unmarshal cbor s = Ok (Some [VInt k' z]) /\ (k' = if (0 <=? z)%Z then KUint64 else KInt64).
Proof.
  intros Hz. assert (Hz' : (- 2 ^ 63 <= z < 2 ^ 64)%Z) by (unfold fits, kmin, kmax, two63, two64 in Hz; destruct k; lia).
  set (k' := if (0 <=? z)%Z then KUint64 else KInt64).
  assert (A : exists t, cbor_atom (VInt k z) = Some t /\ cbor_item_atom t (VInt k' z)).
  { cbn [cbor_atom]. eexists. split; [reflexivity|]. subst k'. destruct (Z.leb_spec 0 z).
    - replace z with (Z.of_N (Z.to_N z)) at 2 by lia. apply ci_unsigned, cbor_head_arg; [done|lia].
    - replace z with (- 1 - Z.of_N (Z.to_N (- 1 - z)))%Z at 2 by lia. apply ci_negative; [apply cbor_head_arg; [done|lia]|lia]. }
  destruct A as (t & E & A).
  destruct (one_atom cbor cbor_layout 131072 cbor_reads_atom cbor_reads_list cbor_reads_dict cbor_reads_key sh (VInt k z) (VInt k' z) t)
    as (s & H1 & H2); try done.
  - apply cbor_writes_list. lia.
  - exists s, k'. done.
Qed.
Lemma mp_integer sh k z : fits k z -> exists s k', bin_marshal msgpack sh [VInt k z] = Ok s
  /\ bin_unmarshal msgpack s = Ok (Some [VInt k' z]) /\ fits k' z
  /\ (k' = KInt16 <-> k = KInt16 \/ (k = KInt /\ - 32768 <= z < - 128)%Z).
Proof.
  intros Hz.
  assert (A : exists t k', mp_atom (VInt k z) = Some t /\ mp_item_atom t (VInt k' z) /\ fits k' z
     /\ (k' = KInt16 <-> k = KInt16 \/ (k = KInt /\ - 32768 <= z < - 128)%Z)).
  { cbn [mp_atom]. destruct (decide (k = KInt16)) as [->|Hk].
    - eexists _, KInt16. split; [reflexivity|]. split; [|by split; [done|split; [left|]]].
      unfold fits, kmin, kmax in Hz. apply mp_signed_item; [set_solver|lia].
    - destruct (decide (k = KInt /\ - 32768 <= z < - 128)%Z) as [[-> Hr]|Hn].
      + eexists _, KInt16. split; [reflexivity|]. split; [|split; [unfold fits, kmin, kmax; lia|split; [by right|done]]].
        cbn [mp_number]. unfold mp_int. destruct (Z.leb_spec 0 z); [lia|]. destruct (Z.leb_spec (-32) z); [lia|].
        destruct (Z.leb_spec (-128) z); [lia|]. destruct (Z.leb_spec (-32768) z); [|lia].
        apply mp_signed_item; [set_solver|lia].
      + destruct (mp_number_item k z) as (k' & A & B & C); [by split; [|split]|].
        eexists _, k'. split; [reflexivity|]. split; [done|]. split; [done|]. split; [done|]. by intros [?|?]. }
  destruct A as (t & k' & E & A & B & C).
  destruct (one_atom msgpack mp_layout (2 ^ 32 - 1) mp_reads_atom mp_reads_list mp_reads_dict mp_reads_key sh (VInt k z) (VInt k' z) t)
    as (s & H1 & H2); try done.
  - apply mp_writes_list. lia.
  - exists s, k'. done.
Qed.
