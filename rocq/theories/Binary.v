(** CBOR and MessagePack as /repo/serializers/cbor.go, msgpack.go and payload.go
    use them: fxamacker/cbor v2.6.0 with its default options except
    DefaultMapType, and vmihailenco/msgpack v5.4.1 with its defaults, from RFC 8949
    and the MessagePack specification.  The writers cover all of [value], the
    readers all forms.  Simplifications: tags and null or undefined as a key of
    CBOR are errors here; a nil []byte is taken for an empty one; values of types
    not in [value] (big.Int, cbor.SimpleValue, time.Time) are [VOther 0]. *)
From Coq Require Import Ascii.
From Verif Require Import Prelude Value PathMatch Encoding Payload Msg.

Local Open Scope string_scope.
Local Open Scope list_scope.
Local Open Scope N_scope.

(** * Bytes *)

(** [n] in [k] bytes, most significant first. *)
Fixpoint be (k : nat) (n : N) : string :=
  match k with
  | O => ""
  | S k' => String (ascii_of_N (n / 256 ^ N.of_nat k' mod 256)) (be k' n)
  end.
(** Reading [k] bytes as a number. *)
Fixpoint read_be (k : nat) (acc : N) (s : string) : option (N * string) :=
  match k with
  | O => Some (acc, s)
  | S k' => match s with
            | String c s' => read_be k' (acc * 256 + byte c) s'
            | EmptyString => None
            end
  end.
(** The next [n] bytes. *)
Definition read_bytes (n : N) (s : string) : option (string * string) :=
  if n <=? N.of_nat (String.length s) then Some (stake (N.to_nat n) s, sdrop (N.to_nat n) s) else None.

(** utf8.ValidString. *)
Fixpoint utf8_valid (fuel : nat) (s : string) : bool :=
  match s with
  | EmptyString => true
  | _ => match fuel with
         | O => false
         | S f => let '(r, n) := decode_rune s in
                  if (r =? rune_error) && (n =? 1)%nat then false else utf8_valid f (sdrop n s)
         end
  end.

(** IEEE 754 with [eb] bits of exponent and [mb] of significand: the float a bit
    pattern stands for, and the pattern of a float, which may have to be shifted
    into place.  Zero is [FFin 0 0]. *)
Definition ieee_min (eb mb : N) : Z := (2 - 2 ^ (Z.of_N eb - 1) - Z.of_N mb)%Z.
Definition signed (neg : bool) (m : N) : Z := (if neg then - Z.of_N m else Z.of_N m)%Z.
Definition ieee_value (eb mb bits : N) : gofloat :=
  let neg := 2 ^ (eb + mb) <=? bits in
  let e := bits / 2 ^ mb mod 2 ^ eb in
  let m := bits mod 2 ^ mb in
  if e =? 2 ^ eb - 1 then (if m =? 0 then FInf neg else FNaN)
  else if e =? 0 then (if m =? 0 then FFin 0 0 else FFin (signed neg m) (ieee_min eb mb))
  else FFin (signed neg (2 ^ mb + m)) (ieee_min eb mb + Z.of_N e - 1).
Definition ieee_bits (eb mb : N) (f : gofloat) : option N :=
  let sign (neg : bool) := if neg then 2 ^ (eb + mb) else 0 in
  match f with
  | FNaN => Some ((2 ^ eb - 1) * 2 ^ mb + 2 ^ (mb - 1))
  | FInf neg => Some (sign neg + (2 ^ eb - 1) * 2 ^ mb)
  | FFin m e =>
      if (m =? 0)%Z then Some 0 else
      let a := Z.abs m in
      let k := Z.min (Z.of_N mb - Z.log2 a) (e - ieee_min eb mb) in
      let place :=
        if (0 <=? k)%Z then Some (a * 2 ^ k)%Z
        else if (a mod 2 ^ (- k) =? 0)%Z then Some (a / 2 ^ (- k))%Z else None in
      match place with
      | None => None
      | Some a' =>
          let q := Z.to_N a' in
          let x := Z.to_N (e - k - ieee_min eb mb) in
          if q <? 2 ^ mb then Some (sign (m <? 0)%Z + q)
          else if x + 1 <? 2 ^ eb - 1 then Some (sign (m <? 0)%Z + (x + 1) * 2 ^ mb + (q - 2 ^ mb))
          else None
      end
  end.

(** * What the two formats have in common *)

(** The number of parts of a list or dictionary; or only a bound, and they end with
    a break. *)
Inductive count : Type := Exactly (n : N) | AtMost (n : N).
(** The start of an item: a value without parts, or the number of parts. *)
Inductive token : Type := TVal (v : value) | TList (n : count) | TDict (n : count).
(** No part is left, and what follows; or how many are left after the next; or
    there are too many. *)
Inductive turn : Type := Stop (r : string) | Go (n : count) | Fail.

Record format : Type := Format {
  fm_atom : value -> option string;      (* a value without parts *)
  fm_list : N -> string;                 (* before [n] elements *)
  fm_dict : N -> string;                 (* before [n] entries *)
  fm_key : string -> string;
  fm_token : string -> option (token * string);
  fm_read_key : string -> option (string * string);
  fm_break : string -> option string;    (* what follows a break *)
  fm_levels : option N;                  (* how deep items may be nested *)
  fm_trailing : bool                     (* whether bytes may follow the item *)
}.

Section FORMAT.
  Context (F : format) (sh : shuffle).

  (** The bytes of a value; [sh] is the order in which maps are ranged over. *)
  Fixpoint bin_text (v : value) : string :=
    match v with
    | VSlice (Some l) => fm_list F (N.of_nat (length l)) +:+ String.concat "" (map bin_text l)
    | VMap (Some m) =>
        fm_dict F (N.of_nat (length m)) +:+
          String.concat "" (map (fun kx => fm_key F (fst kx) +:+ snd kx)
            (shuf sh (map (fun kv => (fst kv, bin_text (snd kv))) m)))
    | VStrs (Some l) =>
        fm_list F (N.of_nat (length l)) +:+
          String.concat "" (map (fun s => default "" (fm_atom F (VStr s))) l)
    | _ => default "" (fm_atom F v)
    end.
  (** Which values have one. *)
  Fixpoint bin_has (v : value) : bool :=
    match v with
    | VSlice (Some l) => forallb bin_has l
    | VMap (Some m) => forallb (fun kv => bin_has (snd kv)) m
    | VStrs (Some l) => forallb (fun s => bool_decide (is_Some (fm_atom F (VStr s)))) l
    | _ => bool_decide (is_Some (fm_atom F v))
    end.
  Definition bin_marshal (l : list value) : res string :=
    if forallb bin_has l then Ok (bin_text (VSlice (Some l))) else Err "unsupported type".

  Definition deeper (d : option N) : option (option N) :=
    match d with
    | None => Some None
    | Some d => if d =? 0 then None else Some (Some (d - 1))
    end.
  Definition next_part (n : count) (s : string) : turn :=
    match n with
    | Exactly n => if n =? 0 then Stop s else Go (Exactly (n - 1))
    | AtMost n => match fm_break F s with
                  | Some r => Stop r
                  | None => if n =? 0 then Fail else Go (AtMost (n - 1))
                  end
    end.
  (** Reading; [fuel] bounds the recursion. *)
  Fixpoint read_item (fuel : nat) (d : option N) (s : string) {struct fuel} : option (value * string) :=
    match fuel with
    | O => None
    | S f =>
        match fm_token F s with
        | None => None
        | Some (TVal v, r) => Some (v, r)
        | Some (TList n, r) =>
            match deeper d with
            | None => None
            | Some d' => match read_items f d' n r with
                         | Some (l, r') => Some (VSlice (Some l), r')
                         | None => None
                         end
            end
        | Some (TDict n, r) =>
            match deeper d with
            | None => None
            | Some d' => match read_entries f d' n [] r with
                         | Some (m, r') => Some (VMap (Some m), r')
                         | None => None
                         end
            end
        end
    end
  with read_items (fuel : nat) (d : option N) (n : count) (s : string) {struct fuel} : option (list value * string) :=
    match fuel with
    | O => None
    | S f =>
        match next_part n s with
        | Stop r => Some ([], r)
        | Fail => None
        | Go n' =>
            match read_item f d s with
            | None => None
            | Some (v, r) =>
                match read_items f d n' r with
                | Some (l, r') => Some (v :: l, r')
                | None => None
                end
            end
        end
    end
  with read_entries (fuel : nat) (d : option N) (n : count) (m : list (string * value)) (s : string) {struct fuel}
    : option (list (string * value) * string) :=
    match fuel with
    | O => None
    | S f =>
        match next_part n s with
        | Stop r => Some (m, r)
        | Fail => None
        | Go n' =>
            match fm_read_key F s with
            | None => None
            | Some (k, r) =>
                match read_item f d r with
                | None => None
                | Some (v, r') => read_entries f d n' (assoc_set k v m) r'
                end
            end
        end
    end.
  (** Unmarshal into a *[]any. *)
  Definition bin_unmarshal (s : string) : res goslice :=
    match read_item (2 * String.length s + 2) (fm_levels F) s with
    | Some (v, r) =>
        if negb (fm_trailing F) && negb (String.eqb r "") then Err "extraneous data"
        else match v with
             | VSlice l => Ok l
             | VNil => Ok None
             | _ => Err "cannot unmarshal into Go value of type []interface {}"
             end
    | None => Err "malformed"
    end.
  Definition bin_codec : codec := Codec bin_marshal bin_unmarshal.
  Definition bin_serialize (m : message) : res string := bin_marshal (marshal m).
  Definition bin_deserialize `{PL : Platform} (sh1 sh2 : shuffle) (s : string) : res message :=
    match bin_unmarshal s with
    | Ok l => deserialize_decoded sh1 sh2 (default [] l)
    | Err e => Err e
    | Panic w => Panic w
    end.
End FORMAT.

(** * CBOR *)

(** encodeHead: the major type and the shortest argument. *)
Definition cbor_head (major n : N) : string :=
  if n <? 24 then be 1 (major * 32 + n)
  else if n <? 2 ^ 8 then be 1 (major * 32 + 24) +:+ be 1 n
  else if n <? 2 ^ 16 then be 1 (major * 32 + 25) +:+ be 2 n
  else if n <? 2 ^ 32 then be 1 (major * 32 + 26) +:+ be 4 n
  else be 1 (major * 32 + 27) +:+ be 8 n.
(** Infinities and NaN are written in half precision (InfConvertFloat16,
    NaNConvert7e00). *)
Definition cbor_float (major eb mb : N) (k : nat) (f : gofloat) : option string :=
  match f with
  | FNaN => Some (be 1 249 +:+ be 2 32256)
  | FInf neg => Some (be 1 249 +:+ be 2 (if neg then 64512 else 31744))
  | _ => match ieee_bits eb mb f with Some b => Some (be 1 major +:+ be k b) | None => None end
  end.
Definition cbor_string (major : N) (s : string) : string := cbor_head major (N.of_nat (String.length s)) +:+ s.
Definition cbor_atom (v : value) : option string :=
  match v with
  | VNil | VSlice None | VMap None | VStrs None => Some (be 1 246)
  | VBool b => Some (be 1 (if b then 245 else 244))
  | VInt _ z => Some (if (0 <=? z)%Z then cbor_head 0 (Z.to_N z) else cbor_head 1 (Z.to_N (- 1 - z)))
  | VF32 f => cbor_float 250 8 23 4 f
  | VF64 f => cbor_float 251 11 52 8 f
  | VStr s => Some (cbor_string 3 s)
  | VBytes b => Some (cbor_string 2 b)
  | VOther n => match n with
                | N0 => None
                | Npos p => match countable.decode p with Some s => Some (cbor_string 3 s) | None => None end
                end
  | _ => None
  end.
(** Major type, additional information, argument; 31 has none. *)
Definition cbor_read_head (s : string) : option (N * N * N * string) :=
  match s with
  | EmptyString => None
  | String c r =>
      let major := byte c / 32 in
      let info := byte c mod 32 in
      let arg k := match read_be k 0 r with Some (n, r') => Some (major, info, n, r') | None => None end in
      if info <? 24 then Some (major, info, info, r)
      else if info =? 24 then arg 1%nat
      else if info =? 25 then arg 2%nat
      else if info =? 26 then arg 4%nat
      else if info =? 27 then arg 8%nat
      else if info =? 31 then Some (major, info, 0, r)
      else None
  end.
(** foundBreak. *)
Definition cbor_break (s : string) : option string :=
  match s with
  | EmptyString => None
  | String c r => if byte c =? 255 then Some r else None
  end.
(** A string in chunks, each of them [ok], up to a break. *)
Fixpoint cbor_chunks (fuel : nat) (major : N) (ok : string -> bool) (s : string) : option (string * string) :=
  match fuel with
  | O => None
  | S f =>
      match cbor_break s with
      | Some r => Some ("", r)
      | None =>
          match cbor_read_head s with
          | None => None
          | Some (m, info, n, r) =>
              if (m =? major) && negb (info =? 31) then
                match read_bytes n r with
                | None => None
                | Some (x, r') =>
                    if ok x then
                      match cbor_chunks f major ok r' with
                      | Some (y, r'') => Some ((x ++ y)%string, r'')
                      | None => None
                      end
                    else None
                end
              else None
          end
      end
  end.
(** Defaults: MaxArrayElements and MaxMapPairs 131072, MaxNestedLevels 32,
    UTF8RejectInvalid, IndefLengthAllowed; a negative integer below -2^63 becomes
    a big.Int, an unassigned simple value a cbor.SimpleValue. *)
Definition cbor_token (s : string) : option (token * string) :=
  match cbor_read_head s with
  | None => None
  | Some (major, info, n, r) =>
      let open := info =? 31 in
      let str (mk : string -> value) (ok : string -> bool) :=
        if open then
          match cbor_chunks (String.length r + 1) major ok r with Some (x, r') => Some (TVal (mk x), r') | None => None end
        else
        match read_bytes n r with
        | Some (x, r') => if ok x then Some (TVal (mk x), r') else None
        | None => None
        end in
      let parts (mk : count -> token) :=
        if open then Some (mk (AtMost 131072), r)
        else if n <=? 131072 then Some (mk (Exactly n), r) else None in
      if open && ((major =? 0) || (major =? 1)) then None
      else if major =? 0 then Some (TVal (VInt KUint64 (Z.of_N n)), r)
      else if major =? 1 then
        Some (TVal (if n <? 2 ^ 63 then VInt KInt64 (- 1 - Z.of_N n) else VOther 0), r)
      else if major =? 2 then str VBytes (fun _ => true)
      else if major =? 3 then str VStr (fun x => utf8_valid (String.length x) x)
      else if major =? 4 then parts TList
      else if major =? 5 then parts TDict
      else if major =? 7 then
        if (info =? 20) || (info =? 21) then Some (TVal (VBool (info =? 21)), r)
        else if (info =? 22) || (info =? 23) then Some (TVal VNil, r)
        else if (info <? 20) || ((info =? 24) && (32 <=? n)) then Some (TVal (VOther 0), r)
        else if info =? 25 then Some (TVal (VF64 (ieee_value 5 10 n)), r)
        else if info =? 26 then Some (TVal (VF64 (ieee_value 8 23 n)), r)
        else if info =? 27 then Some (TVal (VF64 (ieee_value 11 52 n)), r)
        else None
      else None
  end.
Definition cbor_read_key (s : string) : option (string * string) :=
  match cbor_token s with Some (TVal (VStr k), r) => Some (k, r) | _ => None end.
Definition cbor : format :=
  Format cbor_atom (cbor_head 4) (cbor_head 5) (cbor_string 3) cbor_token cbor_read_key cbor_break (Some 32) false.

(** * MessagePack *)

(** EncodeUint and EncodeInt: the shortest form. *)
Definition mp_uint (n : N) : string :=
  if n <=? 127 then be 1 n
  else if n <? 2 ^ 8 then be 1 204 +:+ be 1 n
  else if n <? 2 ^ 16 then be 1 205 +:+ be 2 n
  else if n <? 2 ^ 32 then be 1 206 +:+ be 4 n
  else be 1 207 +:+ be 8 n.
(** Two's complement in [k] bytes. *)
Definition mp_signed (k : nat) (z : Z) : string := be k (Z.to_N (z mod 2 ^ (8 * Z.of_nat k))).
Definition mp_int (z : Z) : string :=
  if (0 <=? z)%Z then mp_uint (Z.to_N z)
  else if (- 32 <=? z)%Z then mp_signed 1 z
  else if (- 128 <=? z)%Z then be 1 208 +:+ mp_signed 1 z
  else if (- 32768 <=? z)%Z then be 1 209 +:+ mp_signed 2 z
  else if (- 2147483648 <=? z)%Z then be 1 210 +:+ mp_signed 4 z
  else be 1 211 +:+ mp_signed 8 z.
(** valueEncoders: int and uint take the shortest form, the sized kinds their
    own (no UseCompactInts). *)
Definition mp_number (k : ikind) (z : Z) : string :=
  match k with
  | KInt => mp_int z
  | KUint => mp_uint (Z.to_N z)
  | KUint8 => be 1 204 +:+ be 1 (Z.to_N z)
  | KUint16 => be 1 205 +:+ be 2 (Z.to_N z)
  | KUint32 => be 1 206 +:+ be 4 (Z.to_N z)
  | KUint64 => be 1 207 +:+ be 8 (Z.to_N z)
  | KInt8 => be 1 208 +:+ mp_signed 1 z
  | KInt16 => be 1 209 +:+ mp_signed 2 z
  | KInt32 => be 1 210 +:+ mp_signed 4 z
  | KInt64 => be 1 211 +:+ mp_signed 8 z
  end.
(** EncodeString, EncodeBytes, EncodeArrayLen, EncodeMapLen.  Simplification:
    a length beyond 2^32-1 is cut, as the conversion to uint32 does. *)
Definition mp_string (s : string) : string :=
  let n := N.of_nat (String.length s) in
  (if n <? 32 then be 1 (160 + n)
   else if n <? 2 ^ 8 then be 1 217 +:+ be 1 n
   else if n <? 2 ^ 16 then be 1 218 +:+ be 2 n
   else be 1 219 +:+ be 4 n) +:+ s.
Definition mp_bytes (s : string) : string :=
  let n := N.of_nat (String.length s) in
  (if n <? 2 ^ 8 then be 1 196 +:+ be 1 n
   else if n <? 2 ^ 16 then be 1 197 +:+ be 2 n
   else be 1 198 +:+ be 4 n) +:+ s.
Definition mp_list (n : N) : string :=
  if n <? 16 then be 1 (144 + n) else if n <? 2 ^ 16 then be 1 220 +:+ be 2 n else be 1 221 +:+ be 4 n.
Definition mp_dict (n : N) : string :=
  if n <? 16 then be 1 (128 + n) else if n <? 2 ^ 16 then be 1 222 +:+ be 2 n else be 1 223 +:+ be 4 n.
Definition mp_atom (v : value) : option string :=
  match v with
  | VNil | VSlice None | VMap None | VStrs None => Some (be 1 192)
  | VBool b => Some (be 1 (if b then 195 else 194))
  | VInt k z => Some (mp_number k z)
  | VF32 f => match ieee_bits 8 23 f with Some b => Some (be 1 202 +:+ be 4 b) | None => None end
  | VF64 f => match ieee_bits 11 52 f with Some b => Some (be 1 203 +:+ be 8 b) | None => None end
  | VStr s => Some (mp_string s)
  | VBytes b => Some (mp_bytes b)
  | VOther n => match n with
                | N0 => None
                | Npos p => match countable.decode p with Some s => Some (mp_string s) | None => None end
                end
  | _ => None
  end.
(** DecodeInterface: numbers come back in the kind of their form.  Of the
    extensions only the time (-1), in 4, 8 or 12 bytes, is known (decodeInterfaceExt,
    time.go). *)
Definition mp_token (s : string) : option (token * string) :=
  match s with
  | EmptyString => None
  | String c r =>
      let b := byte c in
      let num (k : nat) (mk : N -> token) :=
        match read_be k 0 r with Some (n, r') => Some (mk n, r') | None => None end in
      let unsigned kind (n : N) := TVal (VInt kind (Z.of_N n)) in
      let two kind (bits : N) (n : N) :=
        TVal (VInt kind (if (n <? 2 ^ (bits - 1))%N then Z.of_N n else Z.of_N n - 2 ^ Z.of_N bits)%Z) in
      let str (n : N) r (mk : string -> value) :=
        match read_bytes n r with Some (x, r') => Some (TVal (mk x), r') | None => None end in
      let sized (k : nat) (mk : string -> value) :=
        match read_be k 0 r with Some (n, r') => str n r' mk | None => None end in
      let ext (n : N) r :=
        match read_be 1 0 r with
        | Some (id, r') =>
            if (id =? 255) && ((n =? 4) || (n =? 8) || (n =? 12)) then str n r' (fun _ => VOther 0) else None
        | None => None
        end in
      let sized_ext (k : nat) := match read_be k 0 r with Some (n, r') => ext n r' | None => None end in
      if b <? 128 then Some (TVal (VInt KInt8 (Z.of_N b)), r)
      else if b <? 144 then Some (TDict (Exactly (b - 128)), r)
      else if b <? 160 then Some (TList (Exactly (b - 144)), r)
      else if b <? 192 then str (b - 160) r VStr
      else if b =? 192 then Some (TVal VNil, r)
      else if (b =? 194) || (b =? 195) then Some (TVal (VBool (b =? 195)), r)
      else if b =? 196 then sized 1%nat VBytes
      else if b =? 197 then sized 2%nat VBytes
      else if b =? 198 then sized 4%nat VBytes
      else if b =? 199 then sized_ext 1%nat
      else if b =? 200 then sized_ext 2%nat
      else if b =? 201 then sized_ext 4%nat
      else if b =? 202 then num 4%nat (fun n => TVal (VF32 (ieee_value 8 23 n)))
      else if b =? 203 then num 8%nat (fun n => TVal (VF64 (ieee_value 11 52 n)))
      else if b =? 204 then num 1%nat (unsigned KUint8)
      else if b =? 205 then num 2%nat (unsigned KUint16)
      else if b =? 206 then num 4%nat (unsigned KUint32)
      else if b =? 207 then num 8%nat (unsigned KUint64)
      else if b =? 208 then num 1%nat (two KInt8 8)
      else if b =? 209 then num 2%nat (two KInt16 16)
      else if b =? 210 then num 4%nat (two KInt32 32)
      else if b =? 211 then num 8%nat (two KInt64 64)
      else if (212 <=? b) && (b <=? 216) then ext (2 ^ (b - 212)) r
      else if b =? 217 then sized 1%nat VStr
      else if b =? 218 then sized 2%nat VStr
      else if b =? 219 then sized 4%nat VStr
      else if b =? 220 then num 2%nat (fun n => TList (Exactly n))
      else if b =? 221 then num 4%nat (fun n => TList (Exactly n))
      else if b =? 222 then num 2%nat (fun n => TDict (Exactly n))
      else if b =? 223 then num 4%nat (fun n => TDict (Exactly n))
      else if 224 <=? b then Some (TVal (VInt KInt8 (Z.of_N b - 256)), r)
      else None
  end.
(** DecodeString takes strings, byte strings and nil as keys. *)
Definition mp_read_key (s : string) : option (string * string) :=
  match mp_token s with
  | Some (TVal (VStr k), r) | Some (TVal (VBytes k), r) => Some (k, r)
  | Some (TVal VNil, r) => Some ("", r)
  | _ => None
  end.
(** msgpack.Unmarshal does not look at what follows the value. *)
Definition msgpack : format := Format mp_atom mp_list mp_dict mp_string mp_token mp_read_key (fun _ => None) None true.

(** * The serializers: cbor.go:25-43 and 49-78, msgpack.go:13-33 *)
Definition cbor_serialize := bin_serialize cbor.
Definition cbor_deserialize `{PL : Platform} := bin_deserialize cbor.
Definition msgpack_serialize := bin_serialize msgpack.
Definition msgpack_deserialize `{PL : Platform} := bin_deserialize msgpack.
