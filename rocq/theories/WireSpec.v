(** What a faithful serializer may do to a value on its way through bytes and
    back into an [any] (encoding/json, fxamacker/cbor, vmihailenco/msgpack):
    numbers may come back in another kind, integers up to 2^53 as float64
    (JSON), nil slices and maps as null, a []string as a list, an
    auth.Method as a string, dictionaries with the same keys.  int16 is left out as a target kind because the library
    cannot read it (see C05/C06); []byte is taken to come back as []byte, which
    holds for cbor and msgpack. *)
From Verif Require Import Prelude Value BaseSpec.

(** The same number: [m * 2^e] may be written in many ways. *)
Definition float_same (f f' : gofloat) : Prop :=
  match f, f' with
  | FFin m e, FFin m' e' => (m * 2 ^ (e - Z.min e e') = m' * 2 ^ (e' - Z.min e e'))%Z
  | FInf neg, FInf neg' => neg = neg'
  | FNaN, FNaN => True
  | _, _ => False
  end.

Inductive wire : value -> value -> Prop :=
| w_nil : wire VNil VNil
| w_bool b : wire (VBool b) (VBool b)
| w_int k z k' : k' <> KInt16 -> fits k' z -> wire (VInt k z) (VInt k' z)
| w_int_float k z f : (Z.abs z <= Z.of_N two53)%Z -> float_is f z -> wire (VInt k z) (VF64 f)
| w_f32 f f' : float_same f f' -> wire (VF32 f) (VF32 f')
| w_f32_64 f f' : float_same f f' -> wire (VF32 f) (VF64 f')
| w_f64 f f' : float_same f f' -> wire (VF64 f) (VF64 f')
| w_str s : wire (VStr s) (VStr s)
| w_method s : wire (VMethod s) (VStr s)
| w_bytes s : wire (VBytes s) (VBytes s)
| w_slice_nil : wire (VSlice None) VNil
| w_slice l l' : Forall2 wire l l' -> wire (VSlice (Some l)) (VSlice (Some l'))
| w_map_nil : wire (VMap None) VNil
| w_map m m' : (forall k, option_Forall2 wire (assoc k m) (assoc k m')) ->
    wire (VMap (Some m)) (VMap (Some m'))
| w_strs_nil : wire (VStrs None) VNil
| w_strs l : wire (VStrs (Some l)) (VSlice (Some (map VStr l))).

(** Dictionaries and lists after the transport. *)
Definition wire_map (m m' : list (string * value)) : Prop :=
  forall k, option_Forall2 wire (assoc k m) (assoc k m').
