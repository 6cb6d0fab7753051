(** What all three serializers carry stays so when one of them has carried it. *)
From Coq Require Import Ascii.
From Verif Require Import Prelude Value Msg BaseSpec WireSpec MsgSpec PathMatchSpec JsonSpec JsonSafe BinarySpec Portable.
From Verif Require Import Json JsonGrammar JsonTree JsonValues Binary BinaryLaws BinaryMsg FloatSame WireFacts MsgWire MsgProof.
From Verif Require Import IdGen Types Broker Dealer Session Network NetworkWire Connection.

Local Open Scope string_scope.
Local Open Scope list_scope.
Local Open Scope N_scope.

(** * What comes out of a decoder *)
Inductive decoded : value -> Prop :=
| de_nil : decoded VNil
| de_bool b : decoded (VBool b)
| de_int k z : k <> KInt -> decoded (VInt k z)
| de_f32 f : decoded (VF32 f)
| de_f64 f : decoded (VF64 f)
| de_str s : decoded (VStr s)
| de_bytes s : decoded (VBytes s)
| de_slice l : Forall decoded l -> decoded (VSlice (Some l))
| de_map m : Forall (fun kv => decoded (snd kv)) m -> NoDup (map fst m) -> decoded (VMap (Some m)).

Lemma vsize_snd (kv : string * value) m : kv ∈ m -> (vsize (snd kv) <= list_sum (map (fun y => vsize (snd y)) m))%nat.
Proof. induction 1; unfold list_sum in *; cbn; lia. Qed.

Lemma item_decoded (L : layout) : (forall s v, la_atom L s v -> decoded v) -> forall s v, item L s v -> decoded v.
Proof.
  intros HA s v. remember (vsize v) as n eqn:Hn. revert s v Hn. induction (lt_wf n) as [n _ IH]. intros s v -> H.
  destruct H as [s v H|h ts vs _ F|h kts kvs _ F ND]; [by eapply HA|apply de_slice|apply de_map; [|done]].
  - apply Forall_forall. intros x Hx. destruct (elem_of_list_lookup_1 _ _ Hx) as [i Hi].
    destruct (Forall2_lookup_r _ _ _ _ _ F Hi) as (t & _ & Ht). apply vsize_in in Hx.
    eapply IH; [|reflexivity|exact Ht]. cbn. lia.
  - apply Forall_forall. intros x Hx. destruct (elem_of_list_lookup_1 _ _ Hx) as [i Hi].
    destruct (Forall2_lookup_r _ _ _ _ _ F Hi) as (t & _ & _ & Ht). apply vsize_snd in Hx.
    eapply IH; [|reflexivity|exact Ht]. cbn. lia.
Qed.
Lemma cbor_decoded s v : item cbor_layout s v -> decoded v.
Proof. apply item_decoded. intros t x H. destruct H; by constructor. Qed.
Lemma mp_decoded s v : item mp_layout s v -> decoded v.
Proof.
  apply item_decoded. intros t x H. destruct H; try (by constructor); constructor; set_unfold; naive_solver.
Qed.
Lemma means_decoded t v : means t v -> decoded v.
Proof.
  remember (vsize v) as n eqn:Hn. revert t v Hn. induction (lt_wf n) as [n _ IH]. intros t v -> H.
  destruct H as [| | | |l vs F|l kvs m F [ND E]]; try (by constructor).
  - apply de_slice. apply Forall_forall. intros x Hx. destruct (elem_of_list_lookup_1 _ _ Hx) as [i Hi].
    destruct (Forall2_lookup_r _ _ _ _ _ F Hi) as (u & _ & Hu). apply vsize_in in Hx.
    eapply IH; [|reflexivity|exact Hu]. cbn. lia.
  - apply de_map; [|done]. apply Forall_forall. intros [k x] Hx. pose proof Hx as Hk. apply E in Hk as (l1 & l2 & -> & _).
    apply Forall2_app_inv_r in F as (a & b & _ & Hb & _). apply Forall2_cons_inv_r in Hb as (u & b' & [_ Hu] & _ & _).
    apply vsize_snd in Hx. eapply IH; [|reflexivity|exact Hu]. cbn in *. lia.
Qed.
Lemma json_decoded s l : json_unmarshal s = Ok (Some l) -> Forall decoded l.
Proof. intros (t & _ & _ & M)%unmarshal_sound. apply means_decoded in M. by inversion M. Qed.

(** * Floats *)
Lemma float64_same f g : float_same f g -> float64 f -> float64 g.
Proof. intros E (m & e & H & B). exists m, e. split; [|done]. eapply float_same_trans; [by apply float_same_sym|done]. Qed.
Lemma float64_int f z : (Z.abs z <= 2 ^ 53)%Z -> float_is f z -> float64 f.
Proof.
  intros Hz Hf. assert (float_same f (FFin z 0)) as E.
  { destruct f as [m e| |]; try done. cbn [float_is] in Hf. apply (shift_eq _ _ _ _ (Z.min e 0)); [lia..|].
    destruct (Z.leb_spec 0 e).
    - rewrite Z.min_r by lia. rewrite !Z.sub_0_r. lia.
    - rewrite Z.min_l by lia. rewrite Z.sub_diag, Z.sub_0_l. lia. }
  destruct (Z.eq_dec (Z.abs z) (2 ^ 53)) as [Ez|Ez].
  - exists (Z.sgn z), 53%Z. split; [|split; lia]. eapply float_same_trans; [exact E|].
    cbn [float_same]. change (53 - Z.min 0 53)%Z with 53%Z. change (0 - Z.min 0 53)%Z with 0%Z. rewrite <- Ez. lia.
  - exists z, 0%Z. split; [done|]. lia.
Qed.

Lemma float64_ieee f : float64 f -> ieee_float 11 52 f.
Proof.
  intros (m & e & Hs & Hm & He). assert (ieee_float 11 52 (FFin m e)) as (b & g & Hi & Hg).
  2: { exists b, g. split; [done|]. by eapply float_same_trans. }
  destruct (Z.eq_dec m 0) as [->|Hm0].
  { exists 0, (FFin 0 0). split; [exact (ie_zero 11 52 false)|]. cbn. lia. }
  set (L := Z.log2 (Z.abs m)). assert (HL : (0 <= L < 53)%Z).
  { split; [apply Z.log2_nonneg|]. apply Z.log2_lt_pow2; lia. }
  pose proof (Z.log2_spec (Z.abs m) ltac:(lia)) as [B1 B2]. fold L in B1, B2.
  destruct (Z_le_gt_dec (-1074) (e - (52 - L))) as [Hn|Hn].
  - (* normal *)
    set (M := (Z.abs m * 2 ^ (52 - L))%Z). assert (HM : (2 ^ 52 <= M < 2 ^ 53)%Z).
    { subst M. replace (2 ^ 52)%Z with (2 ^ L * 2 ^ (52 - L))%Z by (rewrite <- Z.pow_add_r by lia; f_equal; lia).
      replace (2 ^ 53)%Z with (2 ^ (Z.succ L) * 2 ^ (52 - L))%Z by (rewrite <- Z.pow_add_r by lia; f_equal; lia).
      assert (0 < 2 ^ (52 - L))%Z by (apply Z.pow_pos_nonneg; lia). nia. }
    pose proof (ie_normal 11 52 (m <? 0)%Z (Z.to_N (e - (52 - L) + 1075)) (Z.to_N M) ltac:(lia) ltac:(lia)) as Hi.
    do 2 eexists. split; [exact Hi|].
    replace (Z.of_N (Z.to_N (e - (52 - L) + 1075)) + 1 - 2 ^ (Z.of_N 11 - 1) - Z.of_N 52)%Z with (e - (52 - L))%Z by lia.
    rewrite Z2N.id by lia. apply (shift_eq _ _ _ _ (e - (52 - L))); [lia..|]. rewrite Z.sub_diag.
    replace (e - (e - (52 - L)))%Z with (52 - L)%Z by lia. subst M. destruct (Z.ltb_spec m 0); nia.
  - (* subnormal *)
    set (M := (Z.abs m * 2 ^ (e + 1074))%Z). assert (HM : (0 < M < 2 ^ 52)%Z).
    { subst M. assert (0 < 2 ^ (e + 1074))%Z by (apply Z.pow_pos_nonneg; lia). split; [nia|].
      assert (2 ^ (Z.succ L) * 2 ^ (e + 1074) <= 2 ^ 52)%Z; [|nia].
      rewrite <- Z.pow_add_r by lia. apply Z.pow_le_mono_r; lia. }
    pose proof (ie_subnormal 11 52 (m <? 0)%Z (Z.to_N M) ltac:(lia)) as Hi.
    do 2 eexists. split; [exact Hi|]. rewrite Z2N.id by lia.
    apply (shift_eq _ _ _ _ (-1074)); [lia..|].
    replace (2 - 2 ^ (Z.of_N 11 - 1) - Z.of_N 52 - -1074)%Z with 0%Z by lia.
    replace (e - -1074)%Z with (e + 1074)%Z by lia. subst M. destruct (Z.ltb_spec m 0); nia.
Qed.

(** * Each codec carries it *)
Lemma portable_json v : portable v -> json_safe v.
Proof.
  remember (vsize v) as n eqn:Hn. revert v Hn. induction (lt_wf n) as [n _ IH]. intros v -> H.
  destruct H as [| | | |s [T _]|s [T _]|l F|m F _|l F]; try (by constructor).
  - apply js_slice. destruct l as [l|]; [|constructor]. cbn in F |- *. rewrite Forall_forall in F. apply Forall_forall.
    intros x Hx. pose proof (F x Hx). apply vsize_in in Hx. eapply IH; [|reflexivity|done]. cbn. lia.
  - apply js_map. destruct m as [m|]; [|constructor]. cbn in F |- *. rewrite Forall_forall in F. apply Forall_forall.
    intros x Hx. destruct (F x Hx) as [[? _] ?]. apply vsize_snd in Hx. split; [done|]. eapply IH; [|reflexivity|done]. cbn. lia.
  - apply js_strs. eapply Forall_impl; [exact F|]. by intros ? [].
Qed.
Lemma portable_made (ints : ikind -> Z -> Prop) (strs bins : string -> Prop) v :
  (forall k z, not_int16 k z -> ints k z) -> (forall s, portable_string s -> strs s) ->
  portable v -> made_of ints strs bins v.
Proof.
  intros Hi Hs. remember (vsize v) as n eqn:Hn. revert v Hn. induction (lt_wf n) as [n _ IH]. intros v -> H.
  destruct H as [| |k z|f Hf|s T|s T|l F|m F ND|l F]; try (by constructor; eauto).
  - constructor. by apply float64_ieee.
  - apply mo_slice. destruct l as [l|]; [|constructor]. cbn in F |- *. rewrite Forall_forall in F. apply Forall_forall.
    intros x Hx. pose proof (F x Hx). apply vsize_in in Hx. eapply IH; [|reflexivity|done]. cbn. lia.
  - apply mo_map; [|done]. destruct m as [m|]; [|constructor]. cbn in F |- *. rewrite Forall_forall in F. apply Forall_forall.
    intros x Hx. destruct (F x Hx) as [? ?]. apply vsize_snd in Hx. split; [by apply Hs|]. eapply IH; [|reflexivity|done]. cbn. lia.
  - apply mo_strs. eapply Forall_impl; [exact F|]. done.
Qed.
Lemma all_cbor v : fits_all v -> fits_cbor 31 v.
Proof.
  intros (P & W & D). split; [|done]. eapply portable_made; [| |exact P].
  - by intros k z [? _].
  - intros s [T L]. split; [done|]. unfold shorter in *. lia.
Qed.
Lemma all_mp v : fits_all v -> fits_msgpack v.
Proof.
  intros (P & W & D). split; [|lia]. eapply portable_made; [| |exact P]; [done|]. by intros s [T L].
Qed.

(** * And gives back the like *)
Lemma assoc_in {A} k (x : A) m : assoc k m = Some x -> (k, x) ∈ m.
Proof.
  induction m as [|[k' y] m IH]; cbn; [done|]. destruct (String.eqb_spec k k') as [->|]; [intros [= ->]; left|right; auto].
Qed.
Lemma in_assoc {A} k (x : A) m : NoDup (map fst m) -> (k, x) ∈ m -> assoc k m = Some x.
Proof.
  induction m as [|[k' y] m IH]; cbn; [by intros _ ?%elem_of_nil|]. intros [Hk ND]%NoDup_cons [E|E]%elem_of_cons.
  - injection E as -> ->. by rewrite String.eqb_refl.
  - destruct (String.eqb_spec k k') as [->|]; [|auto]. destruct Hk. change k' with (fst (k', x)). by apply elem_of_list_fmap_1.
Qed.
Lemma max_le {A} (f : A -> N) l b : foldr N.max 0 (map f l) <= b <-> Forall (fun x => f x <= b) l.
Proof.
  induction l as [|x l IH]; cbn [map foldr]; [split; [constructor|lia]|]. rewrite Forall_cons, <- IH. lia.
Qed.
Lemma max_in {A} (f : A -> N) l x : x ∈ l -> f x <= foldr N.max 0 (map f l).
Proof. intros H. pose proof (proj1 (max_le f l _) (N.le_refl _)) as F. rewrite Forall_forall in F. by apply F. Qed.

Lemma method_inj s s' : VMethod s = VMethod s' -> s = s'.
Proof. unfold VMethod. intros [= E]. by apply (inj countable.encode) in E. Qed.

Lemma wire_portable v v' : wire v v' -> portable v -> decoded v' ->
  portable v' /\ nesting v' <= nesting v /\ widest v' <= widest v.
Proof.
  remember (vsize v') as n eqn:Hn. revert v v' Hn. induction (lt_wf n) as [n _ IH]. intros v v' -> H P D.
  inversion H; subst; try (by (split; [|done])); try (split; [|cbn; lia]); try (by constructor); try (by inversion P).
  - inversion P; subst. inversion D; subst. constructor; [done|]. split; [done|]. split; [done|]. by intros [? _].
  - inversion P; subst. constructor. by eapply float64_int.
  - inversion P; subst. constructor. by eapply float64_same.
  - inversion P as [| | | | |s' Ps E| | |]; subst. apply (inj countable.encode) in E as ->. by constructor.
  - (* slices *)
    rename H0 into F. inversion P as [| | | | | |? Fp E| |]; subst. cbn in Fp. inversion D as [| | | | | | |? Fd|]; subst.
    rewrite Forall_forall in Fp, Fd.
    assert (forall x', x' ∈ l' -> exists x, x ∈ l /\ portable x' /\ nesting x' <= nesting x /\ widest x' <= widest x) as Hx.
    { intros x' Hx'. destruct (elem_of_list_lookup_1 _ _ Hx') as [i Hi].
      destruct (Forall2_lookup_r _ _ _ _ _ F Hi) as (x & Hl & Hw). apply elem_of_list_lookup_2 in Hl. exists x. split; [done|].
      eapply IH; [|reflexivity|exact Hw|by apply Fp|by apply Fd]. apply vsize_in in Hx'. cbn. lia. }
    split; [apply po_slice; cbn; apply Forall_forall; intros x' Hx'; by destruct (Hx x' Hx') as (? & _ & ? & _)|].
    apply Forall2_length in F. split; cbn [nesting widest].
    + enough (foldr N.max 0 (map nesting l') <= foldr N.max 0 (map nesting l)) by lia. apply max_le, Forall_forall.
      intros x' Hx'. destruct (Hx x' Hx') as (x & Hl & _ & Hn & _). apply (max_in nesting) in Hl. lia.
    + enough (foldr N.max 0 (map widest l') <= foldr N.max 0 (map widest l)) by lia. apply max_le, Forall_forall.
      intros x' Hx'. destruct (Hx x' Hx') as (x & Hl & _ & _ & Hn). apply (max_in widest) in Hl. lia.
  - (* dictionaries *)
    rename H0 into F. inversion P as [| | | | | | |? Fp NDp E|]; subst. cbn in Fp, NDp. inversion D as [| | | | | | | |? Fd NDd]; subst.
    rewrite Forall_forall in Fp, Fd.
    assert (forall kx', kx' ∈ m' -> exists kx, kx ∈ m /\ fst kx = fst kx' /\ portable (snd kx') /\ nesting (snd kx') <= nesting (snd kx)
      /\ widest (snd kx') <= widest (snd kx)) as Hx.
    { intros [k x'] Hx'. pose proof (in_assoc _ _ _ NDd Hx') as Ea. specialize (F k). rewrite Ea in F.
      inversion F as [x ? Hw E1 E2|]; subst. symmetry in E1. apply assoc_in in E1. exists (k, x). split; [done|]. split; [done|].
      cbn. destruct (Fp _ E1) as [_ Hp]. pose proof (Fd _ Hx') as Hd. apply vsize_snd in Hx'. cbn in *.
      eapply IH; [|reflexivity|exact Hw|done|done]. lia. }
    split; [|split; cbn [nesting widest]].
    + apply po_map; cbn; [|done]. apply Forall_forall. intros kx' Hx'. destruct (Hx _ Hx') as (kx & Hk & <- & ? & _).
      split; [|done]. by apply Fp.
    + enough (foldr N.max 0 (map (fun kv => nesting (snd kv)) m') <= foldr N.max 0 (map (fun kv => nesting (snd kv)) m)) by lia.
      apply max_le, Forall_forall.
      intros x' Hx'. destruct (Hx x' Hx') as (x & Hl & _ & _ & Hn & _). apply (max_in (fun kv => nesting (snd kv))) in Hl. lia.
    + assert (length (map fst m') <= length (map fst m))%nat as Hlen.
      { apply submseteq_length, NoDup_submseteq; [done|]. intros k Hk.
        apply elem_of_list_fmap in Hk as (kx' & -> & Hx'). destruct (Hx _ Hx') as (kx & Hk & <- & _). by apply elem_of_list_fmap_1. }
      rewrite !map_length in Hlen.
      enough (foldr N.max 0 (map (fun kv => widest (snd kv)) m') <= foldr N.max 0 (map (fun kv => widest (snd kv)) m)) by lia.
      apply max_le, Forall_forall.
      intros x' Hx'. destruct (Hx x' Hx') as (x & Hl & _ & _ & _ & Hn). apply (max_in (fun kv => widest (snd kv))) in Hl. lia.
  - (* strings *)
    inversion P as [| | | | | | | |? Fp E]; subst. cbn in Fp. split; [apply po_slice; cbn; apply Forall_map; eapply Forall_impl; [exact Fp|]; by constructor|].
    split; cbn [nesting widest].
    + enough (foldr N.max 0 (map nesting (map VStr l)) <= 0) by lia. apply max_le, Forall_map, Forall_true. done.
    + rewrite map_length. enough (foldr N.max 0 (map widest (map VStr l)) <= 0) by lia. apply max_le, Forall_map, Forall_true. done.
Qed.
Lemma wire_fits v v' : wire v v' -> fits_all v -> decoded v' -> fits_all v'.
Proof. intros W (P & A & B) D. destruct (wire_portable _ _ W P D) as (? & ? & ?). split; [done|]. lia. Qed.

(** * Messages *)
Lemma all_id n : n <= 2 ^ 53 -> fits_all (vid n).
Proof.
  intros H. split; [|done]. constructor; [lia|]. split; [|split; [done|by intros [? _]]]. unfold fits, kmin, kmax, two64. lia.
Qed.
Lemma all_str s : portable_string s -> fits_all (VStr s).
Proof. intros H. split; [by constructor|done]. Qed.
Lemma all_empty : fits_all (VSlice (Some [])).
Proof. split; [apply po_slice; constructor|done]. Qed.
Lemma all_tail a k : fits_all (VSlice a) -> fits_all (VMap k) -> Forall fits_all (tail_args a k).
Proof. intros Ha Hk. unfold tail_args. destruct a, k; cbn; repeat (apply Forall_cons; split; [first [done|apply all_empty]|]); constructor. Qed.
Lemma all_fields m : portable_message m -> Forall portable_field (msg_fields m).
Proof. by destruct m. Qed.
Lemma all_message m : portable_message m -> Forall fits_all (marshal m).
Proof.
  intros H. pose proof (all_fields m H) as F. destruct m; try (destruct H; fail); clear H; cbn [msg_fields marshal] in *;
    repeat match goal with F : Forall _ (_ :: _) |- _ =>
      let A := fresh "A" in let B := fresh "B" in apply Forall_cons in F as [A B]; cbn [portable_field] in A end;
    cbn [app];
    repeat (apply Forall_cons; split);
    try (apply all_id; first [assumption|by vm_compute]); try (by apply all_str); try (by apply all_tail); try assumption; try constructor.
Qed.

Section codec.
Context {PL : Platform}.

(** [t] are bytes that the serializer reads as [l]. *)
Definition bytes_of (ser : Z) (t : string) (l : list value) : Prop :=
  forall sh sh', deserialize_as ser sh sh' t = deserialize_decoded sh sh' l.

Lemma codec_law ser sh m : serializer ser -> portable_message m ->
  exists t l, serialize_as ser sh m = Ok t /\ bytes_of ser t l /\ carried m l /\ Forall decoded l.
Proof.
  intros Hs Hp. pose proof (all_message _ Hp) as F. pose proof (marshal_short m) as Hl. destruct Hs as [-> | [-> | ->]].
  - destruct (json_list_reads (marshal m)) as (s & l & E & D & W).
    + eapply Forall_impl; [exact F|]. intros v (P & _). by apply portable_json.
    + eapply Forall_impl; [exact F|]. intros v (_ & _ & N). cbn in N |- *. lia.
    + exists s, l. split; [exact E|]. split; [|split; [exact W|by eapply json_decoded]].
      intros sh1 sh2. unfold deserialize_as. cbn [SerializerJson Z.eqb]. unfold json_deserialize. by rewrite D.
  - destruct (mp_list_ok (marshal m)) with sh as (s & l & E & I & D & W); [lia|eapply Forall_impl; [exact F|apply all_mp]|].
    exists s, l. split; [exact E|]. split; [|split; [exact W|]].
    + intros sh1 sh2. unfold deserialize_as. cbn. unfold msgpack_deserialize, bin_deserialize. by rewrite D.
    + apply mp_decoded in I. by inversion I.
  - destruct (cbor_list (marshal m)) with sh as (s & l & E & I & D & W); [lia|eapply Forall_impl; [exact F|apply all_cbor]|].
    exists s, l. split; [exact E|]. split; [|split; [exact W|]].
    + intros sh1 sh2. unfold deserialize_as. cbn. unfold cbor_deserialize, bin_deserialize. by rewrite D.
    + apply cbor_decoded in I. by inversion I.
Qed.

Lemma slots_portable ss vs fs : slots_hold ss vs fs -> Forall fits_all vs ->
  Forall (fun f => match f with FId _ => True | _ => portable_field f end) fs.
Proof.
  induction 1 as [|s ss v vs f fs Hs H IH|s ss f fs Ha H IH]; intros F; [constructor| |].
  - apply Forall_cons in F as [Hv F]. constructor; [|by apply IH].
    destruct s, f; try done; cbn in Hs; subst v; try exact Hv. destruct Hv as (P & _). by inversion P.
  - constructor; [|by apply IH]. destruct Ha as [[_ ->]|[_ ->]]; (split; [|done]); constructor; cbn; constructor.
Qed.
Lemma read_portable sh sh' m l m' : portable_message m -> msg_ok m -> carried m l -> Forall decoded l ->
  deserialize_decoded sh sh' l = Ok m' -> portable_message m'.
Proof.
  intros Hp Hok Hc Hd Hm. pose proof (all_message _ Hp) as Fm.
  assert (Forall fits_all l) as Fl.
  { unfold carried in Hc. clear -Fm Hd Hc. induction Hc as [|v v' vs l Hv Hc IH]; [constructor|].
    apply Forall_cons in Fm as [? ?]. apply Forall_cons in Hd as [? ?]. constructor; [by eapply wire_fits|by apply IH]. }
  destruct (deserialize_wire sh sh' m l Hok Hc) as (m1 & Hm1 & Hs). rewrite Hm in Hm1. injection Hm1 as <-.
  assert (wireable m) as Hw by (clear -Hp; by destruct m).
  destruct (same_like _ _ Hw Hs) as [Ht Hf].
  assert (wireable m') as Hw' by (destruct m'; try exact Logic.I; destruct m; try discriminate Ht; exact Hw).
  rewrite deserialize_is_to_message, to_message_iff in Hm. destruct Hm as (v & vs & lo & hi & ss & -> & _ & _ & _ & _ & Hm).
  apply Forall_cons in Fl as [_ Fl].
  assert (Forall portable_field (msg_fields m')) as F'.
  { assert (slots_hold ss vs (msg_fields m')) as Hsl by (destruct m'; done).
    apply slots_portable in Hsl; [|done]. apply all_fields in Hp. clear -Hf Hp Hsl.
    induction Hf as [|f f' fs fs' H Hf IH]; [constructor|]. apply Forall_cons in Hp as [? ?]. apply Forall_cons in Hsl as [? ?].
    constructor; [|by apply IH]. destruct f'; try done. destruct f as [| |[]|[]|[]]; try discriminate H. cbn in H. injection H as <-. done. }
  destruct m'; try exact F'; done.
Qed.
End codec.
