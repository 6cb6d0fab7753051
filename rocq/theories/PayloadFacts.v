From Verif Require Import Prelude Value BaseSpec WireSpec Payload.

(** The serializer delivers what was sent, up to [wire]. *)
Definition delivers (c : codec) : Prop :=
  forall l b, cd_marshal c l = Ok b ->
    exists l', cd_unmarshal c b = Ok (Some l') /\ Forall2 wire l l'.

(** Received args/kwargs against sent ones. *)
Definition same_args (a a' : goslice) : Prop :=
  match a with
  | None => a' = Some []
  | Some l => exists l', a' = Some l' /\ Forall2 wire l l'
  end.
Definition same_kwargs (k k' : gomap) : Prop :=
  match k with
  | None | Some [] => k' = None
  | Some m => exists m', k' = Some m' /\ wire_map m m'
  end.

Lemma wire_slice_inv l v : wire (VSlice (Some l)) v →
  exists l', v = VSlice (Some l') /\ Forall2 wire l l'.
Proof. inversion 1; subst. eauto. Qed.
Lemma wire_map_inv m v : wire (VMap (Some m)) v →
  exists m', v = VMap (Some m') /\ wire_map m m'.
Proof. inversion 1; subst. eauto. Qed.

Lemma payload_roundtrip c args kwargs b :
  delivers c → ¬ (slice_len args = 0%nat /\ map_len kwargs = 0%nat) →
  encode_payload c args kwargs = Ok b →
  exists a' k', decode_payload c b = Ok (a', k') /\ same_args args a' /\ same_kwargs kwargs k'.
Proof.
  intros Hd Hne. unfold encode_payload, decode_payload, prepare_for_encode.
  destruct args as [[|x l]|]; destruct kwargs as [[|y m]|]; cbn in Hne |- *; try (exfalso; tauto);
    intros (l' & -> & HF)%Hd; cbn.
  - apply Forall2_cons_inv_l in HF as (v1 & r1 & (a1 & -> & H1)%wire_slice_inv & HF & ->).
    apply Forall2_cons_inv_l in HF as (v2 & r2 & (m' & -> & H2)%wire_map_inv & HF & ->).
    apply Forall2_nil_inv_l in HF as ->. inversion H1; subst. eauto 10.
  - apply Forall2_cons_inv_l in HF as (v1 & r1 & (a1 & -> & H1)%wire_slice_inv & HF & ->).
    apply Forall2_nil_inv_l in HF as ->. eauto 10.
  - apply Forall2_cons_inv_l in HF as (v1 & r1 & (a1 & -> & H1)%wire_slice_inv & HF & ->).
    apply Forall2_cons_inv_l in HF as (v2 & r2 & (m' & -> & H2)%wire_map_inv & HF & ->).
    apply Forall2_nil_inv_l in HF as ->. eauto 10.
  - apply Forall2_cons_inv_l in HF as (v1 & r1 & (a1 & -> & H1)%wire_slice_inv & HF & ->).
    apply Forall2_nil_inv_l in HF as ->. eauto 10.
  - apply Forall2_cons_inv_l in HF as (v1 & r1 & (a1 & -> & H1)%wire_slice_inv & HF & ->).
    apply Forall2_cons_inv_l in HF as (v2 & r2 & (m' & -> & H2)%wire_map_inv & HF & ->).
    apply Forall2_nil_inv_l in HF as ->. inversion H1; subst. eauto 10.
Qed.

(** The shapes of a payload array. *)
Definition payload_shape (arr : goslice) (a : goslice) (k : gomap) : Prop :=
  ((arr = None \/ arr = Some []) /\ a = None /\ k = None)
  \/ (arr = Some [VSlice a] /\ k = None)
  \/ arr = Some [VSlice a; VMap k].

Lemma decode_shape arr a k : decode arr = Ok (a, k) ↔ payload_shape arr a k.
Proof.
  unfold decode, payload_shape. split.
  - destruct arr as [[|v1 [|v2 [|v3 r]]]|]; repeat case_match; naive_solver.
  - intros [([->| ->]&->&->)|[(->&->)| ->]]; done.
Qed.

Lemma decode_no_panic arr w : decode arr ≠ Panic w.
Proof. unfold decode. destruct arr as [[|v1 [|v2 [|v3 r]]]|]; repeat case_match; done. Qed.

Lemma decode_cbor_panics c b :
  (exists w, decode_cbor c b = Panic w) ↔
  (exists w, cd_unmarshal c b = Panic w) \/
  cd_unmarshal c b = Ok None \/ cd_unmarshal c b = Ok (Some []) \/
  exists l, cd_unmarshal c b = Ok (Some [VSlice l]).
Proof.
  unfold decode_cbor. split.
  - intros [w H]. destruct (cd_unmarshal c b) as [arr| |]; [|done|eauto].
    right. destruct arr as [[|v1 [|v2 r]]|]; repeat case_match; naive_solver.
  - intros [[w ->]|[->|[->|[l ->]]]]; eauto.
Qed.

Lemma decode_cbor_ok c b a k : decode_cbor c b = Ok (a, k) ↔
  exists rest, cd_unmarshal c b = Ok (Some (VSlice a :: VMap k :: rest)).
Proof.
  unfold decode_cbor. split.
  - destruct (cd_unmarshal c b) as [[[|v1 [|v2 r]]|]| |]; repeat case_match; naive_solver.
  - by intros [rest ->].
Qed.

Lemma raw_payload_exact cs args kwargs b :
  serialize_payload cs 0 args kwargs = Ok b <->
  map_len kwargs = 0%nat /\ ((slice_len args = 0%nat /\ b = ""%string) \/ args = Some [VBytes b]).
Proof.
  unfold serialize_payload. change (0 =? NoneSerializerID) with true. cbv iota.
  destruct (Nat.eqb_spec (map_len kwargs) 0) as [Hk|Hk].
  - destruct args as [[|v [|v' l]]|]; cbn.
    + split; [intros [= <-]; auto|]. intros [_ [[_ ->]|H]]; [done|discriminate].
    + destruct v as [| | | | | |s| | | |];
        try (split; [discriminate|intros [_ [[H _]|H]]; discriminate H]).
      split; [intros [= <-]; auto|]. intros [_ [[H _]|H]]; [discriminate H|]. by injection H as ->.
    + split; [discriminate|intros [_ [[H _]|H]]; discriminate H].
    + split; [intros [= <-]; auto|]. intros [_ [[_ ->]|H]]; [done|discriminate].
  - rewrite andb_false_r, orb_true_r. split; [discriminate|]. intros [H _]. contradiction.
Qed.
Lemma unknown_serializer cs id args kwargs b : 3 < id ->
  (exists e, serialize_payload cs id args kwargs = Err e) /\ (exists e, deserialize_payload cs id b = Err e).
Proof.
  intros H. unfold serialize_payload, deserialize_payload,
    NoneSerializerID, JSONSerializerID, CBORSerializerID, MsgPackSerializerID.
  destruct (N.eqb_spec id 0), (N.eqb_spec id 1), (N.eqb_spec id 2), (N.eqb_spec id 3); try lia.
  split; eexists; reflexivity.
Qed.
