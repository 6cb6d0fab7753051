(** Specifications for ids, numeric conversions and the raw socket framing.
    Nothing here mentions a model function. *)
From Verif Require Import Prelude Value.

(** The float [f] is exactly the integer [z]. *)
Definition float_is (f : gofloat) (z : Z) : Prop :=
  match f with
  | FFin m e => if (0 <=? e)%Z then (m * 2 ^ e = z)%Z else (m = z * 2 ^ (- e))%Z
  | _ => False
  end.

(** [z] is the float [f] truncated toward zero:
    |z| <= |f| < |z|+1, with the sign of [f]. *)
Definition float_trunc (f : gofloat) (z : Z) : Prop :=
  match f with
  | FFin m e =>
      if (0 <=? e)%Z then (m * 2 ^ e = z)%Z
      else (Z.abs z * 2 ^ (- e) <= Z.abs m < (Z.abs z + 1) * 2 ^ (- e))%Z
           /\ (z = 0 \/ Z.sgn z = Z.sgn m)%Z
  | _ => False
  end.

(** The Go value [v] is a number whose integer part is [z]. *)
Definition number (v : value) (z : Z) : Prop :=
  match v with
  | VInt _ z' => z' = z
  | VF32 f | VF64 f => float_trunc f z
  | _ => False
  end.

(** The integers a float64 holds (below 2^1024): 53 significant bits. *)
Definition float_int (f : Z) : Prop :=
  exists m e, (0 <= e /\ Z.abs m < 2 ^ 53 /\ f = m * 2 ^ e)%Z.
(** [f] is the float64 nearest to [z]; of two equally near the one whose last
    significant bit is 0. *)
Definition nearest_even (z f : Z) : Prop :=
  (float_int f
  /\ (forall g, float_int g -> Z.abs (z - f) <= Z.abs (z - g))
  /\ forall g, float_int g -> Z.abs (z - f) = Z.abs (z - g) -> g <> f ->
       exists m e, 0 <= e /\ 2 ^ 52 <= Z.abs m <= 2 ^ 53 /\ Z.Even m /\ f = m * 2 ^ e)%Z.

(** [v] is a value Go can hold: integers fit their kind. *)
Definition go_value (v : value) : Prop :=
  match v with VInt k z => fits k z | _ => True end.

(** A byte string as numbers. *)
Definition bytes (l : list Z) : Prop := Forall (fun b => 0 <= b < 256)%Z l.

(** The sizes RawSocket can negotiate. *)
Definition legal_size (n : Z) : Prop := exists k, (9 <= k <= 24)%Z /\ n = (2 ^ k)%Z.

(** The integer types of Go on a 64-bit platform. *)
Definition kind_signed (k : ikind) : bool :=
  match k with KInt | KInt8 | KInt16 | KInt32 | KInt64 => true | _ => false end.
Definition kind_bits (k : ikind) : Z :=
  match k with
  | KInt8 | KUint8 => 8
  | KInt16 | KUint16 => 16
  | KInt32 | KUint32 => 32
  | KInt | KInt64 | KUint | KUint64 => 64
  end%Z.
