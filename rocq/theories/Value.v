(** Go values of static type [any], and /repo/util/util.go. *)
From Verif Require Import Prelude.

(** The ten integer kinds of Go. *)
Inductive ikind : Type :=
| KInt | KInt8 | KInt16 | KInt32 | KInt64
| KUint | KUint8 | KUint16 | KUint32 | KUint64.

Global Instance ikind_eq_dec : EqDecision ikind.
Proof. solve_decision. Defined.

(** Range of values a kind can hold ([int]/[uint] are 64-bit: amd64, arm64). *)
Definition kmin (k : ikind) : Z :=
  match k with
  | KInt | KInt64 => - two63
  | KInt8 => -128
  | KInt16 => -32768
  | KInt32 => -2147483648
  | _ => 0
  end%Z.
Definition kmax (k : ikind) : Z :=
  match k with
  | KInt | KInt64 => two63 - 1
  | KInt8 => 127
  | KInt16 => 32767
  | KInt32 => 2147483647
  | KUint | KUint64 => two64 - 1
  | KUint8 => 255
  | KUint16 => 65535
  | KUint32 => 4294967295
  end%Z.
Definition fits (k : ikind) (z : Z) : Prop := (kmin k <= z <= kmax k)%Z.

(** A float32/float64: finite value [m * 2^e], infinity or NaN.
    Simplification: the sign of zero is not represented. *)
Inductive gofloat : Type :=
| FFin (m e : Z)
| FInf (neg : bool)
| FNaN.

(** Truncation toward zero of a finite float. *)
Definition ftrunc (m e : Z) : Z :=
  if (0 <=? e)%Z then (m * 2 ^ e)%Z else Z.quot m (2 ^ (- e))%Z.

(** [m * 2^e <= b] for an integer bound [b], exactly. *)
Definition fle_int (m e b : Z) : bool :=
  if (0 <=? e)%Z then (m * 2 ^ e <=? b)%Z else (m <=? b * 2 ^ (- e))%Z.
Definition fge_int (m e b : Z) : bool :=
  if (0 <=? e)%Z then (b <=? m * 2 ^ e)%Z else (b * 2 ^ (- e) <=? m)%Z.

(** Converting a float to an integer type that cannot hold it is
    "implementation-dependent" in Go; the result is a value of the type, and
    which one is a parameter of the model. *)
Class Platform : Type := {
  f2u_oor : gofloat -> N;
  f2u_oor_range : forall f, (f2u_oor f < 18446744073709551616)%N;
  f2i_oor : gofloat -> Z;
  f2i_oor_range : forall f, (- two63 <= f2i_oor f < two63)%Z
}.

(** What amd64 and arm64 do for minus infinity: the most negative int. *)
Definition amd64 : Platform :=
  {| f2u_oor := fun _ => 9223372036854775808%N;
     f2u_oor_range := fun _ => eq_refl;
     f2i_oor := fun _ => (- two63)%Z;
     f2i_oor_range := fun _ => conj (Z.le_refl (- two63)) eq_refl |}.

(** Go values behind an [any].  [VSlice None] is a nil [[]any], [VMap None] a
    nil [map[string]any], [VStrs] is [[]string], [VBytes] is [[]byte] (nil and
    empty not distinguished), [VOther] any other dynamic type. *)
Inductive value : Type :=
| VNil
| VBool (b : bool)
| VInt (k : ikind) (z : Z)
| VF32 (f : gofloat)
| VF64 (f : gofloat)
| VStr (s : string)
| VBytes (b : string)
| VSlice (l : option (list value))
| VMap (m : option (list (string * value)))
| VStrs (l : option (list string))
| VOther (n : N).

(** A value of the named type auth.Method (auth/authenticator.go:9): not a
    [string] for a type assertion, though encoders write it like one.  It is one
    of the other dynamic types, told apart by its number. *)
Definition VMethod (s : string) : value := VOther (Npos (encode s)).

(** [map[string]any]: [None] is the nil map. *)
Notation gomap := (option (list (string * value))).
(** [[]any]: [None] is the nil slice. *)
Notation goslice := (option (list value)).

(** Map read [m[k]]: nil (VNil) when absent or when the map is nil. *)
Definition mget (m : gomap) (k : string) : value :=
  match m with
  | None => VNil
  | Some l => match assoc k l with Some v => v | None => VNil end
  end.

Section util.
Context {PL : Platform}.

Definition wrap64 (z : Z) : N := Z.to_N (z mod two64)%Z.

(** Go [uint64(f)]. *)
Definition f2u (f : gofloat) : N :=
  match f with
  | FFin m e =>
      let t := ftrunc m e in
      if ((0 <=? t) && (t <? two64))%Z then Z.to_N t else f2u_oor f
  | _ => f2u_oor f
  end.

(** Go [int(f)] (64-bit). *)
Definition f2i (f : gofloat) : Z :=
  match f with
  | FFin m e =>
      let t := ftrunc m e in
      if ((- two63 <=? t) && (t <? two63))%Z then t else f2i_oor f
  | _ => f2i_oor f
  end.

(** util.AsUInt64, util/util.go:50-77.  Note: no case for int16. *)
Definition as_uint64 (v : value) : N * bool :=
  match v with
  | VInt KInt64 z => (wrap64 z, true)
  | VInt KUint64 z => (wrap64 z, true)
  | VInt KUint8 z => (wrap64 z, true)
  | VInt KInt z => (wrap64 z, true)
  | VInt KInt8 z => (wrap64 z, true)
  | VInt KInt32 z => (wrap64 z, true)
  | VInt KUint z => (wrap64 z, true)
  | VInt KUint16 z => (wrap64 z, true)
  | VInt KUint32 z => (wrap64 z, true)
  | VF64 f => (f2u f, true)
  | VF32 f => (f2u f, true)
  | _ => (0, false)
  end.

(** util.AsInt, util/util.go:9-48.  [float64(intMax)] and [float32(intMax)]
    both round up to 2^63, so the float tests are [-2^63 <= v <= 2^63]; NaN
    fails both comparisons. *)
Definition as_int (v : value) : Z * bool :=
  match v with
  | VInt KInt z | VInt KInt8 z | VInt KInt16 z | VInt KInt32 z => (z, true)
  | VInt KInt64 z =>
      if ((- two63 <=? z) && (z <=? two63 - 1))%Z then (z, true) else (0%Z, false)
  | VInt KUint z => if (z <=? two63 - 1)%Z then (z, true) else (0%Z, false)
  | VInt KUint8 z | VInt KUint16 z | VInt KUint32 z => (z, true)
  | VInt KUint64 z => if (z <=? two63 - 1)%Z then (z, true) else (0%Z, false)
  | VF32 (FFin m e) | VF64 (FFin m e) =>
      if fge_int m e (- two63) && fle_int m e two63
      then (f2i (FFin m e), true) else (0%Z, false)
  | _ => (0%Z, false)
  end.

End util.

(** Nearest float64 to an integer, ties to even: Go's [float64(z)] and what
    encoding/json produces for an integer literal below 2^1024.  Exact up to
    2^53; above that the low bits are rounded away. *)
Definition round53 (z : Z) : Z :=
  let a := Z.abs z in
  if (a <? 2 ^ 53)%Z then z
  else
    let e := (Z.log2 a - 52)%Z in
    let q := (a / 2 ^ e)%Z in
    let r := (a mod 2 ^ e)%Z in
    let h := (2 ^ (e - 1))%Z in
    let q' := if (h <? r)%Z || ((r =? h)%Z && Z.odd q) then (q + 1)%Z else q in
    (Z.sgn z * (q' * 2 ^ e))%Z.

(** util.AsFloat64, util/util.go:79-105.  Note: no case for int16. *)
Definition as_float64 (v : value) : gofloat * bool :=
  match v with
  | VF64 f => (f, true)
  | VF32 f => (f, true)
  | VInt KInt16 _ => (FFin 0 0, false)
  | VInt _ z => (FFin (round53 z) 0, true)
  | _ => (FFin 0 0, false)
  end.

(** util.AsBool / ToBool / AsString / ToString, util/util.go:107-125. *)
Definition as_bool (v : value) : bool * bool :=
  match v with VBool b => (b, true) | _ => (false, false) end.
Definition to_bool (v : value) : bool := fst (as_bool v).
Definition as_string (v : value) : string * bool :=
  match v with VStr s => (s, true) | _ => (""%string, false) end.
Definition to_string (v : value) : string := fst (as_string v).

(** util.AnysToStrings, util/util.go:127-137: a loop that stops at the first
    non-string. *)
Fixpoint anys_to_strings (l : list value) : res (list string) :=
  match l with
  | [] => Ok []
  | VStr s :: l' =>
      match anys_to_strings l' with
      | Ok r => Ok (s :: r)
      | e => e
      end
  | _ :: _ => Err "not a string"
  end.
