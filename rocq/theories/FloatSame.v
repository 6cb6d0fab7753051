(** Proofs: two ways to write a float. *)
From Verif Require Import Prelude Value BaseSpec WireSpec.

Lemma float_same_refl f : float_same f f.
Proof. by destruct f. Qed.
Lemma shift_eq m e m' e' d : (d <= e)%Z -> (d <= e')%Z ->
  float_same (FFin m e) (FFin m' e') <-> (m * 2 ^ (e - d) = m' * 2 ^ (e' - d))%Z.
Proof.
  intros H H'. cbn [float_same]. set (c := Z.min e e'). assert (d <= c)%Z by lia.
  replace (e - d)%Z with ((e - c) + (c - d))%Z by lia. replace (e' - d)%Z with ((e' - c) + (c - d))%Z by lia.
  rewrite !Z.pow_add_r, !Z.mul_assoc by lia. split; [by intros ->|].
  intros E. eapply Z.mul_reg_r; [|exact E]. apply Z.pow_nonzero; lia.
Qed.
Lemma float_same_sym f f' : float_same f f' -> float_same f' f.
Proof. destruct f, f'; try done. cbn. rewrite (Z.min_comm e0 e). by intros ->. Qed.
Lemma float_same_trans f1 f2 f3 : float_same f1 f2 -> float_same f2 f3 -> float_same f1 f3.
Proof.
  destruct f1 as [m1 e1| |], f2 as [m2 e2| |], f3 as [m3 e3| |]; try done; [|by cbn; intros -> ->].
  set (d := Z.min e1 (Z.min e2 e3)). rewrite !(shift_eq _ _ _ _ d) by lia. by intros -> ->.
Qed.
Lemma float_is_same f z : float_is f z <-> float_same f (FFin z 0).
Proof.
  destruct f as [m e| |]; [|done..]. cbn [float_is float_same]. destruct (Z.leb_spec 0 e).
  - replace (Z.min e 0) with 0%Z by lia. rewrite Z.sub_0_r, Z.sub_diag, Z.mul_1_r. done.
  - replace (Z.min e 0) with e by lia. rewrite Z.sub_diag, Z.mul_1_r. done.
Qed.
Lemma float_is_same_is f f' z : float_is f z -> float_same f f' -> float_is f' z.
Proof. rewrite !float_is_same. intros H H'. eapply float_same_trans; [apply float_same_sym; exact H'|exact H]. Qed.
