(** Prelude: the few Go notions every part of the model shares.

    Nothing here models a particular function of /repo; it fixes how Go
    results, panics, unspecified iteration orders, nil-able maps and the
    platform's unspecified float conversions are represented. *)
From stdpp Require Export base list strings gmap numbers sorting.
From Coq Require Export ZArith NArith Lia.

#[global] Open Scope N_scope.

(** Outcome of a Go function without receiver state: a value, an [error], or
    a run-time panic (index out of range, nil dereference, failed type
    assertion, negative shift).  Error texts are kept as short tags, panics
    carry a tag too; no theorem inspects a tag. *)
Inductive res (A : Type) : Type :=
| Ok (a : A)
| Err (e : string)
| Panic (why : string).
Global Arguments Ok {_} _.
Global Arguments Err {_} _.
Global Arguments Panic {_} _.

(** Outcome of a method with receiver state [S]: it returns (possibly with an
    error value inside [A]) leaving a new state, or it panics.  A panic ends
    the modelled history: /repo never recovers. *)
Inductive outcome (S A : Type) : Type :=
| Ret (s : S) (a : A)
| Crash (why : string).
Global Arguments Ret {_ _} _ _.
Global Arguments Crash {_ _} _.

(** Go map iteration order (and [rand.Intn]) is unspecified.  Every step that
    ranges over a map takes a [shuffle]; theorems quantify over all of them,
    hence over every iteration order the runtime may choose. *)
Record shuffle : Type := Shuffle {
  sh_fun : forall A : Type, list A -> list A;
  sh_perm : forall (A : Type) (l : list A), Permutation (sh_fun A l) l
}.
Definition shuf (sh : shuffle) {A : Type} (l : list A) : list A := sh_fun sh A l.

(** Two concrete shuffles, used only in examples and witnesses. *)
Definition sh_id : shuffle :=
  {| sh_fun := fun A l => l; sh_perm := fun A l => Permutation_refl l |}.
Definition sh_rev : shuffle :=
  {| sh_fun := fun A l => rev l;
     sh_perm := fun A l => Permutation_sym (Permutation_rev l) |}.

Lemma shuf_perm sh {A} (l : list A) : Permutation (shuf sh l) l.
Proof. apply sh_perm. Qed.

Lemma elem_of_shuf sh {A} (l : list A) x : x ∈ shuf sh l ↔ x ∈ l.
Proof. by rewrite (shuf_perm sh l). Qed.

Lemma NoDup_shuf sh {A} (l : list A) : NoDup (shuf sh l) ↔ NoDup l.
Proof. by rewrite (shuf_perm sh l). Qed.

Lemma shuf_length sh {A} (l : list A) : length (shuf sh l) = length l.
Proof. apply Permutation_length, shuf_perm. Qed.

(** Association lists: the representation of a non-nil [map[string]any].
    [assoc] is a map read, [assoc_set] a map write. *)
Fixpoint assoc {A : Type} (k : string) (l : list (string * A)) : option A :=
  match l with
  | [] => None
  | (k', v) :: l' => if String.eqb k k' then Some v else assoc k l'
  end.

Fixpoint assoc_set {A : Type} (k : string) (v : A) (l : list (string * A))
  : list (string * A) :=
  match l with
  | [] => [(k, v)]
  | (k', v') :: l' =>
      if String.eqb k k' then (k, v) :: l' else (k', v') :: assoc_set k v l'
  end.

Lemma assoc_set_eq {A} k (v : A) l : assoc k (assoc_set k v l) = Some v.
Proof.
  induction l as [|[k' v'] l IH]; simpl; [by rewrite String.eqb_refl|].
  destruct (String.eqb k k') eqn:E; simpl; [by rewrite String.eqb_refl|].
  by rewrite E.
Qed.

Lemma assoc_set_ne {A} k k' (v : A) l :
  k ≠ k' → assoc k' (assoc_set k v l) = assoc k' l.
Proof.
  intros Hne. induction l as [|[k0 v0] l IH]; simpl.
  - destruct (String.eqb_spec k' k); congruence.
  - destruct (String.eqb_spec k k0) as [->|]; simpl.
    + destruct (String.eqb_spec k' k0); congruence.
    + destruct (String.eqb_spec k' k0); congruence.
Qed.

(** A byte is an [ascii]; Go's [string] and [[]byte] are byte sequences, i.e.
    Coq [string]s.  [two64], [two63], [two53]: the obvious powers. *)
Definition two64 : Z := 18446744073709551616%Z.
Definition two63 : Z := 9223372036854775808%Z.
Definition two53 : N := 9007199254740992%N.
