(** CBOR (RFC 8949) and MessagePack as relations between bytes and values, and
    which values and messages they carry. *)
From Coq Require Import Ascii.
From Verif Require Import Prelude Value Msg BaseSpec WireSpec MsgSpec PathMatchSpec JsonSpec JsonSafe.

Local Open Scope string_scope.
Local Open Scope list_scope.
Local Open Scope N_scope.

(** Bytes read as a number, the most significant first. *)
Definition number (s : string) : N :=
  fold_left (fun acc c => acc * 256 + N_of_ascii c) (list_ascii_of_string s) 0.
Definition byte1 (n : N) : string := String (ascii_of_N n) "".

(** IEEE 754: the float a bit pattern with [eb] bits of exponent and [mb] of
    significand stands for. *)
Inductive ieee (eb mb : N) : N -> gofloat -> Prop :=
| ie_zero (neg : bool) : ieee eb mb (if neg then 2 ^ (eb + mb) else 0) (FFin 0 0)
| ie_subnormal (neg : bool) m : 0 < m < 2 ^ mb ->
    ieee eb mb ((if neg then 2 ^ (eb + mb) else 0) + m)
      (FFin (if neg then - Z.of_N m else Z.of_N m) (2 - 2 ^ (Z.of_N eb - 1) - Z.of_N mb))
| ie_normal (neg : bool) e m : 0 < e < 2 ^ eb - 1 -> 2 ^ mb <= m < 2 * 2 ^ mb ->
    ieee eb mb ((if neg then 2 ^ (eb + mb) else 0) + e * 2 ^ mb + (m - 2 ^ mb))
      (FFin (if neg then - Z.of_N m else Z.of_N m) (Z.of_N e + 1 - 2 ^ (Z.of_N eb - 1) - Z.of_N mb))
| ie_inf (neg : bool) : ieee eb mb ((if neg then 2 ^ (eb + mb) else 0) + (2 ^ eb - 1) * 2 ^ mb) (FInf neg)
| ie_nan (neg : bool) m : 0 < m < 2 ^ mb ->
    ieee eb mb ((if neg then 2 ^ (eb + mb) else 0) + (2 ^ eb - 1) * 2 ^ mb + m) FNaN.
(** The floats of a format, however they are written. *)
Definition ieee_float (eb mb : N) (f : gofloat) : Prop := exists bits g, ieee eb mb bits g /\ float_same f g.

(** * Items *)

(** What differs between the formats: the bytes of a value without parts, those
    before [n] elements and before [n] entries, and those of a key. *)
Record layout : Type := Layout {
  la_atom : string -> value -> Prop;
  la_list : N -> string -> Prop;
  la_dict : N -> string -> Prop;
  la_key : string -> string -> Prop
}.
Inductive item (L : layout) : string -> value -> Prop :=
| it_atom s v : la_atom L s v -> item L s v
| it_list h ts vs : la_list L (N.of_nat (length ts)) h -> Forall2 (item L) ts vs ->
    item L (h ++ String.concat "" ts)%string (VSlice (Some vs))
| it_dict h kts kvs : la_dict L (N.of_nat (length kts)) h ->
    Forall2 (fun kt kv => la_key L (fst kv) (fst kt) /\ item L (snd kt) (snd kv)) kts kvs ->
    NoDup (map fst kvs) ->
    item L (h ++ String.concat "" (map (fun kt => fst kt ++ snd kt) kts))%string (VMap (Some kvs)).

(** ** CBOR: a major type and an argument, which is in the first byte or in the
    1, 2, 4 or 8 bytes that follow. *)
Inductive cbor_arg (major : N) : N -> string -> Prop :=
| ca_short n : n < 24 -> cbor_arg major n (byte1 (major * 32 + n))
| ca_long i k s : (i, k) ∈ [(24, 1%nat); (25, 2%nat); (26, 4%nat); (27, 8%nat)] -> String.length s = k ->
    cbor_arg major (number s) (byte1 (major * 32 + i) ++ s).
Inductive cbor_item_atom : string -> value -> Prop :=
| ci_unsigned n h : cbor_arg 0 n h -> cbor_item_atom h (VInt KUint64 (Z.of_N n))
| ci_negative n h : cbor_arg 1 n h -> n < 2 ^ 63 -> cbor_item_atom h (VInt KInt64 (- 1 - Z.of_N n))
| ci_bytes h s : cbor_arg 2 (N.of_nat (String.length s)) h -> cbor_item_atom (h ++ s) (VBytes s)
| ci_text h s : cbor_arg 3 (N.of_nat (String.length s)) h -> text s -> cbor_item_atom (h ++ s) (VStr s)
| ci_false : cbor_item_atom (byte1 244) (VBool false)
| ci_true : cbor_item_atom (byte1 245) (VBool true)
| ci_null : cbor_item_atom (byte1 246) VNil
| ci_undefined : cbor_item_atom (byte1 247) VNil
| ci_half s f : String.length s = 2%nat -> ieee 5 10 (number s) f -> cbor_item_atom (byte1 249 ++ s) (VF64 f)
| ci_single s f : String.length s = 4%nat -> ieee 8 23 (number s) f -> cbor_item_atom (byte1 250 ++ s) (VF64 f)
| ci_double s f : String.length s = 8%nat -> ieee 11 52 (number s) f -> cbor_item_atom (byte1 251 ++ s) (VF64 f).
Definition cbor_layout : layout :=
  Layout cbor_item_atom (cbor_arg 4) (cbor_arg 5) (fun k t => cbor_item_atom t (VStr k)).

(** ** MessagePack. *)
(** A number in the [k] bytes after [b]. *)
Inductive mp_arg (b : N) (k : nat) : N -> string -> Prop :=
| ma_arg s : String.length s = k -> mp_arg b k (number s) (byte1 b ++ s).
(** Two's complement. *)
Definition twos (k : nat) (n : N) : Z :=
  (if 2 * Z.of_N n <? 256 ^ Z.of_nat k then Z.of_N n else Z.of_N n - 256 ^ Z.of_nat k)%Z.
Inductive mp_item_atom : string -> value -> Prop :=
| mi_positive n : n < 128 -> mp_item_atom (byte1 n) (VInt KInt8 (Z.of_N n))
| mi_negative n : 224 <= n < 256 -> mp_item_atom (byte1 n) (VInt KInt8 (Z.of_N n - 256))
| mi_unsigned b k kind n h : (b, k, kind) ∈ [(204, 1%nat, KUint8); (205, 2%nat, KUint16); (206, 4%nat, KUint32); (207, 8%nat, KUint64)] ->
    mp_arg b k n h -> mp_item_atom h (VInt kind (Z.of_N n))
| mi_signed b k kind n h : (b, k, kind) ∈ [(208, 1%nat, KInt8); (209, 2%nat, KInt16); (210, 4%nat, KInt32); (211, 8%nat, KInt64)] ->
    mp_arg b k n h -> mp_item_atom h (VInt kind (twos k n))
| mi_nil : mp_item_atom (byte1 192) VNil
| mi_false : mp_item_atom (byte1 194) (VBool false)
| mi_true : mp_item_atom (byte1 195) (VBool true)
| mi_single h n f : mp_arg 202 4 n h -> ieee 8 23 n f -> mp_item_atom h (VF32 f)
| mi_double h n f : mp_arg 203 8 n h -> ieee 11 52 n f -> mp_item_atom h (VF64 f)
| mi_fixstr s : N.of_nat (String.length s) < 32 ->
    mp_item_atom (byte1 (160 + N.of_nat (String.length s)) ++ s) (VStr s)
| mi_str b k h s : (b, k) ∈ [(217, 1%nat); (218, 2%nat); (219, 4%nat)] ->
    mp_arg b k (N.of_nat (String.length s)) h -> mp_item_atom (h ++ s) (VStr s)
| mi_bin b k h s : (b, k) ∈ [(196, 1%nat); (197, 2%nat); (198, 4%nat)] ->
    mp_arg b k (N.of_nat (String.length s)) h -> mp_item_atom (h ++ s) (VBytes s).
Inductive mp_count (fix_ b16 b32 : N) : N -> string -> Prop :=
| mc_fix n : n < 16 -> mp_count fix_ b16 b32 n (byte1 (fix_ + n))
| mc_16 n h : mp_arg b16 2 n h -> mp_count fix_ b16 b32 n h
| mc_32 n h : mp_arg b32 4 n h -> mp_count fix_ b16 b32 n h.
Definition mp_layout : layout :=
  Layout mp_item_atom (mp_count 144 220 221) (mp_count 128 222 223) (fun k t => mp_item_atom t (VStr k)).

(** * What they carry *)

(** The most elements or entries of a list or dictionary in it. *)
Fixpoint widest (v : value) : N :=
  match v with
  | VSlice (Some l) => N.max (N.of_nat (length l)) (foldr N.max 0 (map widest l))
  | VMap (Some m) => N.max (N.of_nat (length m)) (foldr N.max 0 (map (fun kv => widest (snd kv)) m))
  | VStrs (Some l) => N.of_nat (length l)
  | _ => 0
  end.

(** Values made of integers in [ints], strings in [strs] and byte strings in
    [bins], whose dictionaries have each key once. *)
Inductive made_of (ints : ikind -> Z -> Prop) (strs bins : string -> Prop) : value -> Prop :=
| mo_nil : made_of ints strs bins VNil
| mo_bool b : made_of ints strs bins (VBool b)
| mo_int k z : ints k z -> made_of ints strs bins (VInt k z)
| mo_f32 f : ieee_float 8 23 f -> made_of ints strs bins (VF32 f)
| mo_f64 f : ieee_float 11 52 f -> made_of ints strs bins (VF64 f)
| mo_str s : strs s -> made_of ints strs bins (VStr s)
| mo_method s : strs s -> made_of ints strs bins (VMethod s)
| mo_bytes s : bins s -> made_of ints strs bins (VBytes s)
| mo_slice l : Forall (made_of ints strs bins) (default [] l) -> made_of ints strs bins (VSlice l)
| mo_map m : Forall (fun kv => strs (fst kv) /\ made_of ints strs bins (snd kv)) (default [] m) ->
    NoDup (map fst (default [] m)) -> made_of ints strs bins (VMap m)
| mo_strs l : Forall strs (default [] l) -> made_of ints strs bins (VStrs l).

Definition shorter (bound : N) (s : string) : Prop := N.of_nat (String.length s) < bound.
(** CBOR: integers of their kinds, strings in UTF-8, at most 131072 elements and
    [d] levels of nesting. *)
Definition fits_cbor (d : N) (v : value) : Prop :=
  made_of fits (fun s => text s /\ shorter (2 ^ 64) s) (shorter (2 ^ 64)) v
  /\ widest v <= 131072 /\ nesting v <= d.
(** MessagePack: integers which are not written as int16. *)
Definition not_int16 (k : ikind) (z : Z) : Prop :=
  fits k z /\ k <> KInt16 /\ ~ (k = KInt /\ - 32768 <= z < - 128)%Z.
Definition fits_msgpack (v : value) : Prop :=
  made_of not_int16 (shorter (2 ^ 32)) (shorter (2 ^ 32)) v /\ widest v < 2 ^ 32.

(** The fields of a message; [str] is for strings, [fit] for lists and
    dictionaries, [deep] for those inside the details of HELLO. *)
Definition field_fits (str : string -> Prop) (fit : value -> Prop) (f : fld) : Prop :=
  match f with
  | FId n => n < 2 ^ 64
  | FStr s => str s
  | FDict m | FKwArgs m => fit (VMap m)
  | FArgs a => fit (VSlice a)
  end.
Definition message_made_of (str : string -> Prop) (fit deep : value -> Prop) (m : message) : Prop :=
  Forall (field_fits str fit) (msg_fields m)
  /\ match m with
     | MHello h => str (he_authid h) /\ deep (VStrs (he_authmethods h))
                   /\ deep (VMap (he_authextra h)) /\ deep (VMap (he_roles h))
     | _ => True
     end.
(** The list of the fields is one of the 32 levels. *)
Definition message_fits_cbor : message -> Prop :=
  message_made_of (fun s => text s /\ shorter (2 ^ 64) s) (fits_cbor 31) (fits_cbor 30).
Definition message_fits_msgpack : message -> Prop :=
  message_made_of (shorter (2 ^ 32)) fits_msgpack fits_msgpack.
