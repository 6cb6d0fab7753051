(** Dispatch by type code, and the wire round trip. *)
From Verif Require Import Prelude Value Msg BaseSpec WireSpec MsgSpec BaseFacts MsgFacts MsgParse MsgProof.

Section facts.
Context {PL : Platform}.

(** * Dispatch *)

Lemma as_uint64_code v c : (forall f, 100 <= f2u_oor f) → go_value v →
  0 < c < 100 → fst (as_uint64 v) = c → number v (Z.of_N c).
Proof.
  intros Hoor Hv Hc Heq.
  assert (forall f, f2u f = c → float_trunc f (Z.of_N c)) as Hf.
  { intros f. unfold f2u. destruct f as [m e| |]; [|intros E; specialize (Hoor (FInf neg)); lia
                                                  |intros E; specialize (Hoor FNaN); lia].
    rewrite ftrunc_spec. destruct (_ && _)%Z eqn:E.
    - apply andb_true_iff in E as [E1%Z.leb_le E2%Z.ltb_lt]. revert E1 E2. generalize (ftrunc m e). intros; lia.
    - intros E3. specialize (Hoor (FFin m e)). lia. }
  destruct v as [| |k z|f|f| | | | | |]; cbn [as_uint64 fst number go_value] in *;
    try (exfalso; lia); [|by apply Hf..].
  destruct Hv as [H1 H2].
  assert (wrap64 z = c → z = Z.of_N c) as Hw.
  { unfold wrap64. intros E. unfold two64, two63 in *. destruct k; unfold kmin, kmax, two63, two64 in *; lia. }
  destruct k; cbn [as_uint64 fst] in Heq; try exact (Hw Heq).
  clear -Hc Heq. lia.
Qed.

Lemma table_codes c : c ∈ map r_code wamp_table → 0 < c < 100.
Proof.
  intros H. cbn in H. repeat (apply elem_of_cons in H as [->|H]; [lia|]). by apply elem_of_nil in H.
Qed.

Lemma table_nodup : NoDup (map r_code wamp_table).
Proof. apply (bool_decide_unpack _). vm_compute. exact I. Qed.

Lemma dispatch sh l m : (forall f, 100 <= f2u_oor f) → Forall go_value l →
  to_message sh l = Ok m →
  mtype m ∈ map r_code wamp_table /\
  exists v vs, l = v :: vs /\ number v (Z.of_N (mtype m)).
Proof.
  intros Hoor Hg H. apply to_message_accepts in H as (v & vs & lo & hi & ss & -> & Hin & Ht & _).
  assert (mtype m ∈ map r_code wamp_table) as Hc.
  { apply elem_of_list_fmap. exists (Row (mtype m) lo hi ss). split; [reflexivity|exact Hin]. }
  split; [done|]. exists v, vs. split; [done|].
  apply as_uint64_code; [done|by apply Forall_cons in Hg as [? _]|by apply table_codes|].
  apply reads_id_iff in Ht as [_ Ht]. exact (eq_sym Ht).
Qed.

Lemma dispatch_unknown sh v vs :
  ~ (exists c, c ∈ map r_code wamp_table /\ reads_id v c) →
  exists e, to_message sh (v :: vs) = Err e.
Proof.
  intros Hn. cbn [to_message]. unfold parse.
  destruct (spec_of _) eqn:E; [|eauto].
  exfalso. apply Hn. exists (fst (as_uint64 v)).
  assert (fst (as_uint64 v) ∈ map r_code wamp_table) as Hc by (apply spec_of_table; eauto).
  split; [exact Hc|]. apply reads_code; [|reflexivity]. apply table_codes in Hc. revert Hc. clear.
  generalize (fst (as_uint64 v)). intros n [Hn _] ->. by apply N.lt_irrefl in Hn.
Qed.

(** * The wire *)

Lemma wire_id n v : wire (vid n) v → (Z.of_N n < two64)%Z →
  is_number v = true /\ fst (as_uint64 v) = n.
Proof.
  intros H Hn. assert (0 <= Z.of_N n < two64)%Z as Hr by (clear -Hn; lia). unfold vid in H.
  inversion H as [| |k z k' Hk Hfit|k z f Hsm Hfl| | | | | | | | | | | |]; subst.
  - rewrite (as_uint64_int k' _ Hk Hr). cbn [fst]. rewrite N2Z.id. split; [|reflexivity].
    destruct k'; try reflexivity. by destruct Hk.
  - destruct (as_uint64_float _ _ Hfl Hr) as [-> _]. cbn [fst]. rewrite N2Z.id. by split.
Qed.
Lemma wire_str s v : wire (VStr s) v → v = VStr s.
Proof. intros H. by inversion H. Qed.
Lemma wire_dict m v : wire (VMap (Some m)) v → exists m', v = VMap (Some m') /\ wire_map m m'.
Proof. intros H. inversion H; subst. eauto. Qed.
Lemma wire_list l v : wire (VSlice (Some l)) v → exists l', v = VSlice (Some l') /\ Forall2 wire l l'.
Proof. intros H. inversion H; subst. eauto. Qed.
Lemma wire_strs o v : wire (VStrs o) v →
  v = match o with Some l => VSlice (Some (map VStr l)) | None => VNil end.
Proof. intros H. inversion H; subst; done. Qed.

Lemma hello_wire sh h l : Forall2 wire (marshal (MHello h)) l →
  exists h', to_message sh l = Ok (MHello h') /\ hello_same h h'.
Proof.
  intros H. cbn [marshal] in H.
  apply Forall2_cons_inv_l in H as (v0 & l1 & H0 & H & ->).
  apply Forall2_cons_inv_l in H as (v1 & l2 & H1 & H & ->).
  apply Forall2_cons_inv_l in H as (v2 & l3 & H2 & H & ->).
  apply Forall2_nil_inv_l in H as ->.
  apply wire_id in H0 as [_ Hc]; [|reflexivity].
  apply wire_str in H1 as ->. apply wire_dict in H2 as (d & -> & Hd).
  pose proof (Hd "authid"%string) as Hid. pose proof (Hd "authmethods"%string) as Hms.
  pose proof (Hd "authextra"%string) as Hex. pose proof (Hd "roles"%string) as Hro.
  cbn [assoc String.eqb Ascii.eqb Bool.eqb] in Hid, Hms, Hex, Hro. clear Hd.
  inversion Hid as [? x1 Hw1 E1 E1'|]; subst. inversion Hms as [? x2 Hw2 E2 E2'|]; subst.
  inversion Hex as [? x3 Hw3 E3 E3'|]; subst. inversion Hro as [? x4 Hw4 E4 E4'|]; subst.
  apply wire_str in Hw1 as ->. apply wire_strs in Hw2 as ->.
  set (h' := Hello (he_realm h) (he_authid h) (Some (default [] (he_authmethods h)))
    (match x3 with VMap m => m | _ => Some [] end) (match x4 with VMap m => m | _ => Some [] end)).
  exists h'. split.
  - apply to_message_complete. exists v0, [VStr (he_realm h); VMap (Some d)], 2%nat, 3%nat, [SStr; SDict].
    split; [reflexivity|]. split; [apply elem_of_list_here|]. split; [apply reads_code; [discriminate|by rewrite Hc]|].
    split; [cbn; clear; lia|]. split; [reflexivity|]. exists (VMap (Some d)), (Some d).
    split; [reflexivity|]. split; [reflexivity|]. unfold hello_details, mget.
    rewrite <- E1', <- E2', <- E3', <- E4'. cbn [h' he_authid he_authextra he_roles he_authmethods].
    split; [reflexivity|]. split; [reflexivity|]. split; [reflexivity|].
    exists (default [] (he_authmethods h)). split; [reflexivity|]. by destruct (he_authmethods h).
  - unfold hello_same; cbn [h' he_authid he_authextra he_roles he_authmethods he_realm].
    split; [reflexivity|]. split; [reflexivity|]. split; [reflexivity|]. split.
    + assert (exists m', x3 = VMap (Some m') /\ wire_map (default [] (he_authextra h)) m') as (m' & -> & Hm).
      { destruct (he_authextra h) as [m|]; cbn [or_empty] in Hw3; apply wire_dict in Hw3; exact Hw3. }
      eauto.
    + destruct (he_roles h) as [m|]; [apply wire_dict in Hw4 as (m' & -> & Hm); eauto|].
      inversion Hw4; subst. exists []. split; [reflexivity|]. intros k. constructor.
Qed.

Ltac absent_tac :=
  intros Ha Hk; cbn [msg_fields] in *;
  first [ by repeat first [apply elem_of_list_here | apply elem_of_list_further]
        | exfalso; repeat (apply elem_of_cons in Ha as [Ha|Ha]; [discriminate Ha|]);
          apply elem_of_nil in Ha; destruct Ha
        | exfalso; repeat (apply elem_of_cons in Hk as [Hk|Hk]; [discriminate Hk|]);
          apply elem_of_nil in Hk; destruct Hk ].

Lemma message_wire sh m l : msg_ok m → Forall2 wire (marshal m) l →
  exists m', to_message sh l = Ok m' /\ msg_same m m'.
Proof.
  intros Hok H. destruct m as [h| | | | | | | | | | | | | | | | | | | | | | |];
    [destruct (hello_wire sh h l H) as (h' & ? & ?); by exists (MHello h')|..].
  all: cbn [msg_ok] in Hok.
  4: { (* AUTHENTICATE *)
    destruct m as [sig ex]. cbn [marshal au_signature au_extra] in H.
    apply Forall2_cons_inv_l in H as (v0 & l1 & H0 & H & ->).
    apply Forall2_cons_inv_l in H as (v1 & l2 & H1 & H & ->).
    apply Forall2_cons_inv_l in H as (v2 & l3 & H2 & H & ->).
    apply Forall2_nil_inv_l in H as ->.
    apply wire_id in H0 as [_ Hc]; [|reflexivity]. apply wire_str in H1 as ->.
    assert (exists m', v2 = VMap (Some m') /\ wire_map (default [] ex) m') as (m' & -> & Hm).
    { destruct ex as [m|]; cbn [or_empty] in H2; apply wire_dict in H2; exact H2. }
    exists (MAuthenticate (Authenticate sig (Some m'))). split; [|split; [reflexivity|by exists m']].
    cbn [to_message]. rewrite Hc. apply parse_ok. do 2 eexists.
    split; [reflexivity|]. split; [reflexivity|]. split; [reflexivity|]. split; reflexivity. }
  2: destruct Hok as [Hok Hab].
  all: destruct m; cbn [marshal msg_fields] in H, Hok; cbn in H, Hok.
  2: cbn in Hab.
  all: repeat match goal with
    | Hok : Forall fld_ok (_ :: _) |- _ => apply Forall_cons in Hok as [?Hf Hok]
    end.
  all: clear Hok; unfold fld_ok in *.
  all: repeat match goal with
    | Hf : ?m ≠ None |- _ => destruct m; [clear Hf|by destruct Hf]
    end.
  all: unfold tail_args, tail_args_abort in H.
  all: repeat match type of H with
    | context [match ?a with Some _ => _ | None => _ end] => destruct a; cbn in H
    end.
  all: cbn [app] in H.
  all: repeat match goal with
    | Hab : (Some _ ≠ None → None ≠ None) |- _ =>
        exfalso; apply Hab; [discriminate|reflexivity]
    end.
  all: repeat match type of H with
    | Forall2 wire (_ :: _) _ => apply Forall2_cons_inv_l in H as (? & ? & ?Hw & H & ->)
    end.
  all: apply Forall2_nil_inv_l in H as ->.
  all: repeat match goal with
    | Hw : wire (VStr _) _ |- _ => apply wire_str in Hw as ->
    | Hw : wire (VMap (Some _)) _ |- _ => apply wire_dict in Hw as (? & -> & Hw)
    | Hw : wire (VSlice (Some _)) _ |- _ => apply wire_list in Hw as (? & -> & Hw)
    | Hw : wire (vid _) _ |- _ => apply wire_id in Hw as [? ?]; [|first [assumption|reflexivity]]
    end.
  all: try match goal with Hw : Forall2 wire [] _ |- _ => apply Forall2_nil_inv_l in Hw as -> end.
  all: eexists; split;
    [ cbn [to_message];
      match goal with
      | Hc : fst (as_uint64 ?x) = _ |- context [parse _ (fst (as_uint64 ?x))] => rewrite Hc
      end;
      apply parse_ok; do 2 eexists;
      split; [reflexivity|]; split; [reflexivity|]; split; [reflexivity|];
      cbn [vs_spec run_all run_validator length Nat.leb];
      unfold validate_id, validate_string, validate_map, validate_slice;
      cbn [lookup list_lookup];
      repeat match goal with
      | H : is_number ?x = true |- context [as_uint64 ?x] =>
          rewrite (as_uint64_is_number x), H; clear H
      end;
      cbn [setf]; split; reflexivity
    | cbn [msg_same]; split; [reflexivity|split; [cbn [msg_fields]; cbn|absent_tac]] ].
  all: repeat (apply Forall2_cons; split); try apply Forall2_nil; try exact I.
  all: cbn [fld_same]; subst; try reflexivity; try assumption; exact I.
Qed.

(** * Remaining statements *)

Lemma parse_orders sh1 sh2 t l : parse sh1 t l = parse sh2 t l.
Proof. by rewrite (parse_order sh1), (parse_order sh2). Qed.
Lemma to_message_orders sh1 sh2 l : to_message sh1 l = to_message sh2 l.
Proof. by rewrite (to_message_order sh1), (to_message_order sh2). Qed.

Lemma deserialize_is_to_message sh sh' l : deserialize_decoded sh sh' l = to_message sh l.
Proof.
  unfold deserialize_decoded. destruct (to_message sh l) as [m|e|w] eqn:E; [|reflexivity..].
  pose proof E as E2. apply to_message_accepts in E2 as (v & vs & lo & hi & ss & -> & _ & Ht & _).
  apply reads_id_iff in Ht as [_ Ht]. rewrite Ht, (parse_orders sh' sh). exact E.
Qed.

Lemma deserialize_wire sh sh' m l : msg_ok m → Forall2 wire (marshal m) l →
  exists m', deserialize_decoded sh sh' l = Ok m' /\ msg_same m m'.
Proof. rewrite deserialize_is_to_message. apply message_wire. Qed.

Lemma int16_rejected sh : exists m l,
  msg_ok m /\ l = [VInt KUint64 35; VInt KInt16 300] /\ marshal m = [VInt KUint64 35; VInt KUint64 300]
  /\ exists e, to_message sh l = Err e.
Proof.
  exists (MUnsubscribed (Unsubscribed 300)), [VInt KUint64 35; VInt KInt16 300].
  split; [repeat constructor|]. split; [reflexivity|]. split; [reflexivity|].
  rewrite to_message_order. eexists. reflexivity.
Qed.

Lemma to_message_panics_reads sh l :
  (exists w, to_message sh l = Panic w) ↔
  l = [] \/ exists v v1, l = [v; v1] /\ (reads_id v 1 \/ reads_id v 5).
Proof.
  rewrite to_message_panics. setoid_rewrite reads_code; [|discriminate..].
  split; (intros [->|(v & v1 & -> & [H|H])]; [auto|right; exists v, v1; auto..]).
Qed.

Lemma panic_witnesses sh :
  (exists w, to_message sh [] = Panic w)
  /\ (exists w, to_message sh [VInt KInt 1; VStr "realm1"] = Panic w)
  /\ (exists w, to_message sh [VInt KInt 5; VStr "signature"] = Panic w).
Proof.
  split; [eexists; reflexivity|].
  split; rewrite to_message_order; eexists; reflexivity.
Qed.

Lemma abort_kwargs_rejected sh d reason kw l :
  Forall2 wire (marshal (MAbort (new_abort d reason None (Some kw)))) l →
  exists e, to_message sh l = Err e.
Proof.
  intros H. unfold new_abort in H. cbn in H.
  repeat match type of H with
    | Forall2 wire (_ :: _) _ => apply Forall2_cons_inv_l in H as (? & ? & ?Hw & H & ->)
    end.
  apply Forall2_nil_inv_l in H as ->.
  apply wire_id in Hw as [_ Hc]; [|reflexivity]. inversion Hw2; subst.
  rewrite to_message_order. cbn [to_message]. rewrite Hc.
  destruct d as [d|]; cbn [or_empty] in Hw0; apply wire_dict in Hw0 as (d' & -> & _);
    apply wire_str in Hw1 as ->; apply wire_dict in Hw3 as (k' & -> & _); eexists; reflexivity.
Qed.

Lemma abort_args_accepted sh d reason args kw l :
  Forall2 wire (marshal (MAbort (new_abort (Some d) reason (Some args) (Some kw)))) l →
  exists a, to_message sh l = Ok (MAbort a)
    /\ exists args' kw', ab_args a = Some args' /\ ab_kwargs a = Some kw'
       /\ Forall2 wire args args' /\ wire_map kw kw'.
Proof.
  intros H. apply (message_wire sh) in H as (m' & Hm & Hs).
  - destruct m'; destruct Hs as (Hty & Hf & _); try discriminate Hty.
    exists m. split; [exact Hm|]. cbn [msg_fields new_abort] in Hf.
    repeat match goal with H : Forall2 _ (_ :: _) (_ :: _) |- _ => apply Forall2_cons in H as [?Hh H] end.
    cbn in *. destruct (ab_args m) as [a'|]; [|destruct Hh1]. destruct (ab_kwargs m) as [k'|]; [|destruct Hh2].
    eauto 8.
  - split; [|discriminate]. repeat constructor. discriminate.
Qed.
End facts.
