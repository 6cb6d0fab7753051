(** Properties C127 and C130: floats in JSON. *)
From Coq Require Import QArith Qabs.
From Verif Require Import Prelude Value BaseSpec WireSpec FloatSame Json JsonGrammar JsonSafe JsonFloat JsonValues JsonShortest JsonSingle.

Local Open Scope string_scope.
Local Open Scope list_scope.
Local Open Scope N_scope.

(** ** C127: a finite float64 arrives as the same number; the others are refused. *)
Theorem C127_finite : forall f, float64 f -> exists s g,
  json_marshal [VF64 f] = Ok s /\ json_unmarshal s = Ok (Some [VF64 g]) /\ float_same f g.
Proof. exact float_arrives. Qed.
Theorem C127_refused : forall f, (exists neg, f = FInf neg) \/ f = FNaN -> exists e, json_marshal [VF64 f] = Err e.
Proof. exact infinite_refused. Qed.
(** 0.1, 2.5, 1e21, the smallest and the largest. *)
Example C127_ex :
  json_marshal [VF64 (FFin 7205759403792794 (-56)); VF64 (FFin (-5) (-1)); VF64 (FFin 1000 0); VF64 (FFin 8680166 (-43))]
    = Ok "[0.1,-2.5,1000,9.86820623438689e-7]"
  /\ json_marshal [VF64 (FFin (10 ^ 21) 0); VF64 (FFin 1 (-1074)); VF64 (FFin (2 ^ 53 - 1) 971)]
    = Ok "[1e+21,5e-324,1.7976931348623157e+308]"
  /\ json_unmarshal "[1.7976931348623157e+308]" = Ok (Some [VF64 (FFin ((2 ^ 53 - 1) * 2 ^ 971) 0)])
  /\ float64 (FFin 1000 0) /\ float64 (FFin (10 ^ 21) 0).
Proof.
  split; [vm_compute; reflexivity|]. split; [vm_compute; reflexivity|]. split; [vm_compute; reflexivity|]. split.
  - exists 1000%Z, 0%Z. cbn. lia.
  - exists (5 ^ 21)%Z, 21%Z. split; [vm_compute; reflexivity|]. lia.
Qed.

(** And it is written with as few digits as it can be: the text says [n * 10 ^ x]
    where [n] has at most [k] digits, every number read as this float64 has at
    least [k], and of those with [k] none is nearer to it. *)
Theorem C127_shortest : forall m e s, m <> 0%Z -> json_marshal [VF64 (FFin m e)] = Ok s ->
  exists t k neg n x n0 x0, s = ("[" ++ t ++ "]")%string /\ jnumber t neg n0 x0 /\ (decimal neg n0 x0 == decimal neg n x)%Q /\ n < 10 ^ k
  /\ forall neg' n' x', representable (decimal neg' n' x') -> nearest (decimal neg' n' x') (inject_Z m * power2 e) ->
     10 ^ (k - 1) <= n'
     /\ (n' < 10 ^ k -> (Qabs (decimal neg n x - inject_Z m * power2 e) <= Qabs (decimal neg' n' x' - inject_Z m * power2 e))%Q).
Proof. exact written_shortest. Qed.
(** 2^70 has 22 digits, and is written with 16 and five zeros. *)
Example C127_ex_shortest : json_marshal [VF64 (FFin 1 70)] = Ok "[1.1805916207174113e+21]"
  /\ json_marshal [VF64 (FFin 1 60)] = Ok "[1152921504606847000]" /\ (2 ^ 60 = 1152921504606846976)%Z.
Proof. split; [vm_compute; reflexivity|]. split; vm_compute; reflexivity. Qed.

(** ** C130: a float32 arrives as the same number. *)
(** What is missing: what arrives is another number, though no float32 is nearer to it. *)
Theorem C130_unchanged_refuted : exists f s g, float32 f
  /\ json_marshal [VF32 f] = Ok s /\ json_unmarshal s = Ok (Some [VF64 g]) /\ ~ float_same f g.
Proof.
  exists (FFin 13421773 (-27)), "[0.1]", (FFin 7205759403792794 (-56)). split.
  { exists 13421773%Z, (-27)%Z. split; [reflexivity|]. lia. }
  split; [vm_compute; reflexivity|]. split; [vm_compute; reflexivity|]. vm_compute. discriminate.
Qed.
Theorem C130_nearest_partial : forall f s, json_marshal [VF32 f] = Ok s ->
  exists m e m' e', f = FFin m e /\ json_unmarshal s = Ok (Some [VF64 (FFin m' e')])
  /\ forall w, single w -> (Qabs (inject_Z m * power2 e - inject_Z m' * power2 e') <= Qabs (w - inject_Z m' * power2 e'))%Q.
Proof. exact single_arrives. Qed.
(** Every finite float32 has a text; the others are refused. *)
Theorem C130_finite : forall f, float32 f -> exists s, json_marshal [VF32 f] = Ok s.
Proof. exact single_marshals. Qed.
Theorem C130_refused : forall f, (exists neg, f = FInf neg) \/ f = FNaN -> exists e, json_marshal [VF32 f] = Err e.
Proof. exact single_refused. Qed.
Example C130_ex :
  json_marshal [VF32 (FFin 13421773 (-27)); VF32 (FFin (-3) (-1)); VF32 (FFin (2 ^ 24) 0); VF32 (FFin (2 ^ 24 - 1) 104); VF32 (FFin 1 (-149))]
    = Ok "[0.1,-1.5,16777216,3.4028235e+38,1e-45]"
  /\ float32 (FFin (2 ^ 24 - 1) 104) /\ float32 (FFin (2 ^ 24) 0).
Proof.
  split; [vm_compute; reflexivity|]. split.
  - exists (2 ^ 24 - 1)%Z, 104%Z. split; [reflexivity|]. lia.
  - exists 1%Z, 24%Z. split; [vm_compute; reflexivity|]. lia.
Qed.

(** * Assumptions *)
Print Assumptions C127_finite.
Print Assumptions C127_refused.
Print Assumptions C127_shortest.
Print Assumptions C130_unchanged_refuted.
Print Assumptions C130_nearest_partial.
Print Assumptions C130_finite.
Print Assumptions C130_refused.
