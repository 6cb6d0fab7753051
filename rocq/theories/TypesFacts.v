(** The radix tree's LongestPrefix. *)
From Verif Require Import Prelude Types.

Definition sprefix (p s : string) : Prop := exists x, s = (p ++ x)%string.

Lemma sprefix_nil s : sprefix "" s.
Proof. by exists s. Qed.
Lemma sprefix_cons_inv a p b s : sprefix (String a p) (String b s) -> a = b /\ sprefix p s.
Proof. intros [x Hx]. cbn in Hx. injection Hx as -> ->. split; [done|by exists x]. Qed.

Lemma substring_prefix n s : sprefix (substring 0 n s) s.
Proof.
  revert n. induction s as [|a s IH]; intros [|n]; cbn; try apply sprefix_nil.
  destruct (IH n) as [x Hx]. exists x. change (String a s = String a (substring 0 n s ++ x)%string). by rewrite <- Hx.
Qed.
Lemma substring_length n s : (n <= String.length s)%nat -> String.length (substring 0 n s) = n.
Proof. revert n. induction s as [|a s IH]; intros [|n]; cbn; try lia. intros H. rewrite IH; lia. Qed.
Lemma prefix_substring p s : sprefix p s ->
  p = substring 0 (String.length p) s /\ (String.length p <= String.length s)%nat.
Proof.
  revert s. induction p as [|a p IH]; intros s H; cbn.
  - split; [by destruct s|lia].
  - destruct s as [|b s]; [by destruct H|]. apply sprefix_cons_inv in H as [<- H].
    destruct (IH s H) as [E ?]. cbn. split; [f_equal; exact E|lia].
Qed.

Lemma longest_prefix_upto_spec (t : gmap string N) q n l : (n <= String.length q)%nat ->
  longest_prefix_upto t q n = Some l <->
  exists k, sprefix k q /\ (String.length k <= n)%nat /\ t !! k = Some l
    /\ forall k' l', sprefix k' q -> (String.length k' <= n)%nat -> t !! k' = Some l' ->
         (String.length k' <= String.length k)%nat.
Proof.
  intros Hn. induction n as [|n IH]; cbn [longest_prefix_upto].
  - destruct (t !! substring 0 0 q) as [l'|] eqn:E.
    + split.
      * intros [= <-]. exists (substring 0 0 q). split; [apply substring_prefix|].
        rewrite substring_length by lia. split; [done|]. split; [done|]. intros; lia.
      * intros (k & Hk & Hl & Ht & _). apply prefix_substring in Hk as [Hk _].
        replace (String.length k) with 0%nat in Hk by lia. congruence.
    + split; [done|]. intros (k & Hk & Hl & Ht & _). apply prefix_substring in Hk as [Hk _].
      replace (String.length k) with 0%nat in Hk by lia. congruence.
  - destruct (t !! substring 0 (S n) q) as [l'|] eqn:E.
    + split.
      * intros [= <-]. exists (substring 0 (S n) q). split; [apply substring_prefix|].
        rewrite substring_length by lia. split; [done|]. split; [done|]. intros; lia.
      * intros (k & Hk & Hl & Ht & Hmax).
        specialize (Hmax (substring 0 (S n) q) l' (substring_prefix _ _)).
        rewrite substring_length in Hmax by lia. specialize (Hmax ltac:(lia) E).
        apply prefix_substring in Hk as [Hk _].
        replace (String.length k) with (S n) in Hk by lia. congruence.
    + rewrite IH by lia. split.
      * intros (k & Hk & Hl & Ht & Hmax). exists k. split; [done|]. split; [lia|]. split; [done|].
        intros k' l' Hk' Hl' Ht'. destruct (decide (String.length k' = S n)) as [He|].
        { apply prefix_substring in Hk' as [Hk' _]. rewrite He in Hk'. congruence. }
        eapply Hmax; [done|lia|done].
      * intros (k & Hk & Hl & Ht & Hmax). exists k. split; [done|]. split.
        { destruct (decide (String.length k = S n)) as [He|]; [|lia].
          apply prefix_substring in Hk as [Hk _]. rewrite He in Hk. congruence. }
        split; [done|]. intros k' l' Hk' Hl' Ht'. eapply Hmax; [done|lia|done].
Qed.

Lemma longest_prefix_spec (t : gmap string N) q l :
  longest_prefix t q = Some l <->
  exists k, sprefix k q /\ t !! k = Some l
    /\ forall k' l', sprefix k' q -> t !! k' = Some l' -> (String.length k' <= String.length k)%nat.
Proof.
  unfold longest_prefix. rewrite longest_prefix_upto_spec by lia. split.
  - intros (k & Hk & _ & Ht & Hmax). exists k. split; [done|]. split; [done|].
    intros k' l' Hk' Ht'. eapply Hmax; [done| |done]. by apply prefix_substring.
  - intros (k & Hk & Ht & Hmax). exists k. split; [done|]. split; [by apply prefix_substring|].
    split; [done|]. intros k' l' Hk' _ Ht'. by eapply Hmax.
Qed.

Lemma longest_prefix_none (t : gmap string N) q :
  longest_prefix t q = None <-> forall k l, sprefix k q -> t !! k <> Some l.
Proof.
  unfold longest_prefix.
  assert (H : forall n, (n <= String.length q)%nat ->
    longest_prefix_upto t q n = None <-> forall k l, sprefix k q -> (String.length k <= n)%nat -> t !! k <> Some l).
  { induction n as [|n IH]; intros Hn; cbn [longest_prefix_upto].
    - destruct (t !! substring 0 0 q) as [l'|] eqn:E.
      + split; [done|]. intros H. exfalso. apply (H (substring 0 0 q) l'); [apply substring_prefix| |done].
        by rewrite substring_length by lia.
      + split; [|done]. intros _ k l Hk Hl. apply prefix_substring in Hk as [Hk _].
        replace (String.length k) with 0%nat in Hk by lia. congruence.
    - destruct (t !! substring 0 (S n) q) as [l'|] eqn:E.
      + split; [done|]. intros H. exfalso. apply (H (substring 0 (S n) q) l'); [apply substring_prefix| |done].
        by rewrite substring_length by lia.
      + rewrite IH by lia. split.
        * intros H k l Hk Hl. destruct (decide (String.length k = S n)) as [He|].
          { apply prefix_substring in Hk as [Hk _]. rewrite He in Hk. congruence. }
          apply H; [done|lia].
        * intros H k l Hk Hl. apply H; [done|lia]. }
  rewrite H by lia. split; [|naive_solver].
  intros H' k l Hk. apply H'; [done|]. by apply prefix_substring.
Qed.

Lemma longest_prefix_empty q : longest_prefix ∅ q = None.
Proof. apply longest_prefix_none. intros k l _. by rewrite lookup_empty. Qed.

(** Two prefixes of the same string with the same length are equal. *)
Lemma sprefix_same p p' s : sprefix p s -> sprefix p' s -> String.length p = String.length p' -> p = p'.
Proof. intros [H1 _]%prefix_substring [H2 _]%prefix_substring He. congruence. Qed.
