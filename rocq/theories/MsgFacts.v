(** Facts about parsing: order independence, exact acceptance, panics. *)
From Verif Require Import Prelude Value Msg BaseSpec WireSpec MsgSpec BaseFacts.

Section facts.
Context {PL : Platform}.

(** * Iteration order *)

(** All panics carry the same tag, so orders cannot be told apart by it. *)
Lemma run_validator_panic k msg i f w :
  run_validator k msg i f = Panic w → w = "index out of range"%string.
Proof.
  destruct k; cbn [run_validator]; unfold setf, validate_id, validate_string, validate_slice, validate_map;
    repeat case_match; congruence.
Qed.

(** Outcome of a validator does not depend on the fields gathered so far. *)
Definition verdict {A} (r : res A) : res unit :=
  match r with Ok _ => Ok () | Err e => Err e | Panic w => Panic w end.
Lemma run_validator_verdict k msg i f f' :
  verdict (run_validator k msg i f) = verdict (run_validator k msg i f').
Proof.
  destruct k; cbn [run_validator]; unfold setf; repeat case_match; done.
Qed.

Lemma run_validator_comm k1 k2 msg i1 i2 f f1 f2 :
  k1 ≠ k2 → run_validator k1 msg i1 f = Ok f1 → run_validator k2 msg i2 f = Ok f2 →
  run_validator k2 msg i2 f1 = run_validator k1 msg i1 f2.
Proof.
  intros Hne H1 H2.
  destruct k1, k2; try done; cbn [run_validator] in *; unfold setf in *;
    repeat case_match; simplify_eq; done.
Qed.

Lemma run_spec_perm sp1 sp2 msg f b :
  Permutation sp1 sp2 → NoDup (sp1.*2) →
  run_spec sp1 msg f b = run_spec sp2 msg f b.
Proof.
  intros HP. revert f b. induction HP as [|[i k] l1 l2 HP IH|[i1 k1] [i2 k2] l|l1 l2 l3 H1 IH1 H2 IH2];
    intros f b HN.
  - done.
  - cbn. apply NoDup_cons in HN as [_ HN].
    destruct (run_validator k msg i f); [by apply IH..|done].
  - assert (k1 ≠ k2) as Hne.
    { cbn in HN. apply NoDup_cons in HN as [HN _]. intros ->. apply HN. by left. }
    cbn.
    pose proof (run_validator_verdict k1 msg i1) as V1.
    pose proof (run_validator_verdict k2 msg i2) as V2.
    destruct (run_validator k1 msg i1 f) as [f1|e1|w1] eqn:E1;
    destruct (run_validator k2 msg i2 f) as [f2|e2|w2] eqn:E2.
    + rewrite (run_validator_comm k1 k2 msg i1 i2 f f1 f2) by done.
      specialize (V1 f f2). rewrite E1 in V1.
      destruct (run_validator k1 msg i1 f2); by cbn in V1.
    + specialize (V2 f f1). rewrite E2 in V2.
      by destruct (run_validator k2 msg i2 f1) as [f1'|e'|w']; cbn in V2; simplify_eq.
    + specialize (V2 f f1). rewrite E2 in V2.
      by destruct (run_validator k2 msg i2 f1) as [f1'|e'|w']; cbn in V2; simplify_eq.
    + specialize (V1 f f2). rewrite E1 in V1.
      by destruct (run_validator k1 msg i1 f2) as [f1'|e'|w']; cbn in V1; simplify_eq.
    + done.
    + done.
    + specialize (V1 f f2). rewrite E1 in V1.
      by destruct (run_validator k1 msg i1 f2) as [f1'|e'|w']; cbn in V1; simplify_eq.
    + done.
    + by rewrite (run_validator_panic _ _ _ _ _ E1), (run_validator_panic _ _ _ _ _ E2).
  - rewrite IH1 by done. apply IH2. by rewrite <- H1.
Qed.

Lemma spec_of_nodup t sp : spec_of t = Some sp → NoDup ((vs_spec sp).*2).
Proof.
  unfold spec_of. intros H.
  repeat match type of H with
  | (if ?c then _ else _) = _ => destruct c; [injection H as <-; cbn; repeat constructor; set_solver|]
  end. done.
Qed.

Lemma validate_order sh t sp msg : spec_of t = Some sp →
  validate_message sh msg sp = validate_message sh_id msg sp.
Proof.
  intros H. unfold validate_message.
  rewrite (run_spec_perm (shuf sh (vs_spec sp)) (shuf sh_id (vs_spec sp))); [done| |].
  - by rewrite !shuf_perm.
  - rewrite shuf_perm. by eapply spec_of_nodup.
Qed.

Lemma parse_order sh t msg : parse sh t msg = parse sh_id t msg.
Proof.
  unfold parse. destruct (spec_of t) as [sp|] eqn:E; [|done]. by rewrite (validate_order sh t sp).
Qed.

Lemma to_message_order sh msg : to_message sh msg = to_message sh_id msg.
Proof. unfold to_message. destruct msg; [done|]. apply parse_order. Qed.

(** * Slots *)

(** The dynamic types AsUInt64 has a case for. *)
Definition is_number (v : value) : bool :=
  match v with VInt KInt16 _ => false | VInt _ _ | VF32 _ | VF64 _ => true | _ => false end.

Lemma as_uint64_is_number v : as_uint64 v = (fst (as_uint64 v), is_number v).
Proof. destruct v as [| |[]| | | | | | | |]; done. Qed.

Lemma reads_id_iff v n : reads_id v n ↔ is_number v = true /\ n = fst (as_uint64 v).
Proof.
  assert (Hi : forall z, (Z.of_N n = z mod 2 ^ 64)%Z ↔ n = wrap64 z).
  { intros z. unfold wrap64. change two64 with (2 ^ 64)%Z.
    pose proof (Z.mod_pos_bound z (2 ^ 64) ltac:(reflexivity)) as Hb.
    revert Hb. generalize (z mod 2 ^ 64)%Z. intros; lia. }
  assert (Hf : forall f, (float_trunc f (Z.of_N n) /\ (Z.of_N n < 2 ^ 64)%Z)
      \/ (~ (exists z, float_trunc f z /\ 0 <= z < 2 ^ 64)%Z /\ n = f2u_oor f) ↔ n = f2u f).
  { intros f. destruct f as [m e| |]; unfold f2u; [|cbn [float_trunc]; naive_solver..].
    setoid_rewrite ftrunc_spec. change two64 with (2 ^ 64)%Z.
    destruct (Z.leb_spec 0 (ftrunc m e)); destruct (Z.ltb_spec (ftrunc m e) (2 ^ 64)); cbn [andb].
    - split; [intros [[Ht _]|[Hx _]]|].
      + rewrite Ht. by rewrite N2Z.id.
      + exfalso. eauto.
      + intros ->. left. rewrite Z2N.id by done. auto.
    - split; [intros [[Ht Hl]|[_ Hx]]|]; [exfalso; rewrite Ht in *; lia|done|].
      intros ->. right. split; [|done]. intros (z & <- & Hz). lia.
    - split; [intros [[Ht Hl]|[_ Hx]]|]; [exfalso; rewrite Ht in *; lia|done|].
      intros ->. right. split; [|done]. intros (z & <- & Hz). lia.
    - split; [intros [[Ht Hl]|[_ Hx]]|]; [exfalso; rewrite Ht in *; lia|done|].
      intros ->. right. split; [|done]. intros (z & <- & Hz). lia. }
  destruct v as [| |[]|f|f| | | | | |]; cbn [reads_id is_number as_uint64 fst];
    try (split; [intros []|intros [Hx _]; discriminate Hx]).
  all: rewrite ?Hi, ?Hf; clear; split; [intros ->; split; reflexivity|intros [_ ->]; reflexivity].
Qed.

(** A type code is never 0, so it is read from a number. *)
Lemma reads_code v c : c ≠ 0 → reads_id v c ↔ c = fst (as_uint64 v).
Proof.
  intros Hc. rewrite reads_id_iff. split; [intros [_ H]; exact H|]. intros H. split; [|exact H].
  destruct (is_number v) eqn:E; [reflexivity|]. exfalso. apply Hc. rewrite H.
  destruct v as [| |[]| | | | | | | |]; first [reflexivity|discriminate E].
Qed.

Lemma validate_id_at msg i v : msg !! i = Some v →
  validate_id msg i = if is_number v then Ok (fst (as_uint64 v)) else Err "must be uint64".
Proof.
  intros H. unfold validate_id. rewrite H, as_uint64_is_number. by destruct (is_number v).
Qed.

(** The codes of the table, and only those, have a spec. *)
Lemma spec_of_table t : is_Some (spec_of t) ↔ t ∈ map r_code wamp_table.
Proof.
  unfold spec_of. split.
  - intros [sp H].
    repeat match type of H with
    | (if ?a =? ?b then _ else _) = _ =>
        destruct (N.eqb_spec a b) as [->|]; [vm_compute; clear; repeat first [left; reflexivity | right] |]
    end. done.
  - intros H. cbn in H.
    repeat (apply elem_of_cons in H as [->|H]; [by eexists|]). by apply elem_of_nil in H.
Qed.

End facts.
