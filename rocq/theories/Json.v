(** encoding/json of Go 1.22 as /repo/serializers/json.go and payload.go use
    it: Marshal of an []any and Unmarshal into an []any, from the published
    source of the standard library (encode.go, decode.go, scanner.go). *)
From Coq Require Import Ascii.
From stdpp Require Import pretty.
From Verif Require Import Prelude Value PathMatch Encoding Payload Msg.

Local Open Scope string_scope.
Local Open Scope N_scope.

(** * Dictionaries *)

(** mapEncoder, encode.go: the entries in the order of their keys.  Inserting
    from the right, the first of two entries with a key stands (a Go map has
    only one). *)
Fixpoint insert_key {A} (k : string) (x : A) (l : list (string * A)) : list (string * A) :=
  match l with
  | [] => [(k, x)]
  | (k', y) :: l' =>
      match String.compare k k' with
      | Lt => (k, x) :: l
      | Eq => (k, x) :: l'
      | Gt => (k', y) :: insert_key k x l'
      end
  end.
Definition sort_keys {A} (l : list (string * A)) : list (string * A) :=
  foldr (fun kx => insert_key (fst kx) (snd kx)) [] l.

(** A value of the named type auth.Method (see [VMethod]). *)
Definition method_name (n : N) : option string :=
  match n with N0 => None | Npos p => countable.decode p end.

(** * Floats *)

(** The float64 nearest to [num / den], ties to even; [None] beyond the largest.
    Integers have exponent 0. *)
Definition nearest_float (num den : Z) : option gofloat :=
  if (num =? 0)%Z then Some (FFin 0 0) else
  let k0 := (Z.log2 num - Z.log2 den - 52)%Z in
  let over k := if (0 <=? k)%Z then (num, den * 2 ^ k)%Z else (num * 2 ^ (- k), den)%Z in
  let k1 := let '(a, b) := over k0 in if (a / b <? 2 ^ 52)%Z then (k0 - 1)%Z else k0 in
  let k := Z.max k1 (-1074) in
  let '(a, b) := over k in
  let q := (a / b)%Z in
  let r := (2 * (a mod b))%Z in
  let q := if (b <? r)%Z || ((r =? b)%Z && Z.odd q) then (q + 1)%Z else q in
  if (0 <=? k)%Z then
    if (2 ^ 1024 <=? q * 2 ^ k)%Z then None else Some (FFin (q * 2 ^ k) 0)
  else if (q mod 2 ^ (- k) =? 0)%Z then Some (FFin (q / 2 ^ (- k)) 0)
  else Some (FFin q k).

(** The float64 a decimal [n * 10^x] is read as; and whether that is [m * 2^e]. *)
Definition value_of (n : N) (x : Z) : option gofloat :=
  if (0 <=? x)%Z then nearest_float (Z.of_N n * 10 ^ x) 1 else nearest_float (Z.of_N n) (10 ^ (- x)).
Definition reads_as (m e : Z) (nx : N * Z) : bool :=
  match value_of (fst nx) (snd nx) with
  | Some (FFin m' e') => (m * 2 ^ (e - Z.min e e') =? m' * 2 ^ (e' - Z.min e e'))%Z
  | _ => false
  end.

(** The shortest decimal near [num / den], which is at least [10^(dp-1)] and
    below [10^dp], that [ok], is read as the float: roundShortest, strconv/ftoa.go.
    With [n] digits there are the one below and the one above; if both will do
    the nearer is taken.  Seventeen are always enough, for float32 nine (see
    JsonFloat.v and JsonSingle.v). *)
Fixpoint shortest_from (fuel : nat) (ok : N * Z -> bool) (num den dp n : Z) : option (N * Z) :=
  match fuel with
  | O => None
  | S fuel' =>
      let x := (dp - n)%Z in
      let '(a, b) := if (0 <=? x)%Z then (num, den * 10 ^ x)%Z else (num * 10 ^ (- x), den)%Z in
      let q := (a / b)%Z in
      let down := (Z.to_N q, x) in
      let up := if (q + 1 =? 10 ^ n)%Z then (1, dp) else (Z.to_N (q + 1), x) in
      let r := (2 * (a mod b))%Z in
      match ok down, ok up with
      | true, true => Some (if (b <? r)%Z || ((r =? b)%Z && Z.odd q) then up else down)
      | true, false => Some down
      | false, true => Some up
      | false, false => shortest_from fuel' ok num den dp (n + 1)
      end
  end.
Definition fraction (m e : Z) : Z * Z := if (0 <=? e)%Z then (m * 2 ^ e, 1)%Z else (m, 2 ^ (- e))%Z.
Definition digit_count (n : Z) : Z := Z.of_nat (String.length (pretty n)).
Definition shortest_of (most : nat) (ok : N * Z -> bool) (num den : Z) : option (N * Z) :=
  let d := (digit_count num - digit_count den)%Z in
  let less := if (0 <=? d)%Z then (num <? den * 10 ^ d)%Z else (num * 10 ^ (- d) <? den)%Z in
  shortest_from most ok num den (if less then d else d + 1)%Z 1.
Definition shortest (m e : Z) : option (N * Z) :=
  let '(num, den) := fraction m e in shortest_of 17 (reads_as m e) num den.

(** The same for float32: significand and exponent of [a * 2^e], and whether a
    decimal is nearer to it than to the float32s below and above, or half way
    and its significand is even. *)
Definition single_form (a e : Z) : option (Z * Z) :=
  let c := Z.max (Z.log2 a + e - 23) (-149) in
  let k := (c - e)%Z in
  if (104 <? c)%Z then None
  else if (k <=? 0)%Z then Some (a * 2 ^ (- k), c)%Z
  else if (a mod 2 ^ k =? 0)%Z then Some (a / 2 ^ k, c)%Z
  else None.
Definition compare_decimal (n : N) (x c s : Z) : comparison :=
  (Z.of_N n * 10 ^ Z.max x 0 * 2 ^ Z.max (- s) 0 ?= c * 2 ^ Z.max s 0 * 10 ^ Z.max (- x) 0)%Z.
Definition reads_as_single (m e : Z) (nx : N * Z) : bool :=
  let low := if (m =? 2 ^ 23)%Z && (-149 <? e)%Z then (4 * m - 1, e - 2)%Z else (2 * m - 1, e - 1)%Z in
  match compare_decimal (fst nx) (snd nx) (fst low) (snd low), compare_decimal (fst nx) (snd nx) (2 * m + 1) (e - 1) with
  | Gt, Lt => true
  | Eq, Lt | Gt, Eq => Z.even m
  | _, _ => false
  end.

(** fmtE and fmtF, strconv/ftoa.go, for the digits of [n * 10^x]. *)
Definition zeros (n : Z) : string := String.concat "" (repeat "0" (Z.to_nat n)).
Definition float_text (neg sci : bool) (n : N) (x : Z) : string :=
  let ds := pretty n in
  let k := Z.of_nat (String.length ds) in
  let dp := (k + x)%Z in
  (if neg then "-" else "") ++
  if sci then
    String.substring 0 1 ds ++ (if (1 <? k)%Z then "." ++ sdrop 1 ds else "")
    ++ "e" ++ (if (1 <=? dp)%Z then "+" else "-") ++ pretty (Z.abs_N (dp - 1))
  else if (dp <=? 0)%Z then "0." ++ zeros (- dp) ++ ds
  else if (dp <? k)%Z then String.substring 0 (Z.to_nat dp) ds ++ "." ++ sdrop (Z.to_nat dp) ds
  else ds ++ zeros (dp - k).

(** floatEncoder, encode.go: with an exponent below 1e-6 (as a float64) and from
    1e21.  Simplification: zero has no sign. *)
Definition json_float (f : gofloat) : option string :=
  match f with
  | FFin m e =>
      if (m =? 0)%Z then Some "0" else
      let a := Z.abs m in
      let '(num, den) := fraction a e in
      let sci := ((num * 2 ^ 72 <? den * 4722366482869645) || (den * 10 ^ 21 <=? num))%Z in
      match shortest a e with
      | Some (n, x) => Some (float_text (m <? 0)%Z sci n x)
      | None => None
      end
  | _ => None
  end.
Definition json_float32 (f : gofloat) : option string :=
  match f with
  | FFin m e =>
      if (m =? 0)%Z then Some "0" else
      match single_form (Z.abs m) e with
      | Some (a, c) =>
          let '(num, den) := fraction a c in
          let sci := ((num * 2 ^ 43 <? den * 8796093) || (den * 14210855 * 2 ^ 46 <=? num))%Z in
          match shortest_of 9 (reads_as_single a c) num den with
          | Some (n, x) => Some (float_text (m <? 0)%Z sci n x)
          | None => None
          end
      | None => None
      end
  | _ => None
  end.

(** * Marshal *)

(** The text of a value: boolEncoder, intEncoder, uintEncoder, stringEncoder,
    interfaceEncoder, mapEncoder, encodeByteSlice, sliceEncoder, encode.go.
    Simplification: a nil []byte is taken for an empty one. *)
Fixpoint json_text (v : value) : string :=
  match v with
  | VNil => "null"
  | VBool b => if b then "true" else "false"
  | VInt _ z => pretty z
  | VF32 f => default "" (json_float32 f)
  | VF64 f => default "" (json_float f)
  | VStr s => json_string s
  | VBytes b => chr 34 ++ b64_encode b ++ chr 34
  | VSlice None => "null"
  | VSlice (Some l) => "[" ++ String.concat "," (map json_text l) ++ "]"
  | VMap None => "null"
  | VMap (Some m) =>
      "{" ++ String.concat ","
        (map (fun kx => json_string (fst kx) ++ ":" ++ snd kx)
             (sort_keys (map (fun kv => (fst kv, json_text (snd kv))) m))) ++ "}"
  | VStrs None => "null"
  | VStrs (Some l) => "[" ++ String.concat "," (map json_string l) ++ "]"
  | VOther n => match method_name n with Some s => json_string s | None => "" end
  end.
(** Which values have one. *)
Fixpoint has_text (v : value) : bool :=
  match v with
  | VF64 f => match json_float f with Some _ => true | None => false end
  | VF32 f => match json_float32 f with Some _ => true | None => false end
  | VOther n => match method_name n with Some _ => true | None => false end
  | VSlice (Some l) => forallb has_text l
  | VMap (Some m) => forallb (fun kv => has_text (snd kv)) m
  | _ => true
  end.
Definition json_marshal (l : list value) : res string :=
  if forallb has_text l then Ok (json_text (VSlice (Some l))) else Err "json: unsupported value".

(** * Unmarshal *)

(** isSpace and skipping, scanner.go. *)
Definition is_space (c : ascii) : bool :=
  (byte c =? 32) || (byte c =? 9) || (byte c =? 10) || (byte c =? 13).
Fixpoint skip_space (s : string) : string :=
  match s with
  | String c s' => if is_space c then skip_space s' else s
  | EmptyString => ""
  end.

(** unicode/utf8 AppendRune for runes below 2^21: surrogates become U+FFFD. *)
Definition append_rune (r : N) : string :=
  let enc r :=
    if r <? 128 then chr r
    else if r <? 2048 then chr (192 + r / 64) ++ chr (128 + r mod 64)
    else if r <? 65536 then chr (224 + r / 4096) ++ chr (128 + r / 64 mod 64) ++ chr (128 + r mod 64)
    else chr (240 + r / 262144) ++ chr (128 + r / 4096 mod 64) ++ chr (128 + r / 64 mod 64) ++ chr (128 + r mod 64) in
  if ((55296 <=? r) && (r <=? 57343)) || (1114111 <? r) then enc rune_error else enc r.

(** Four hexadecimal digits, and getu4, decode.go: a whole escape. *)
Definition four_hex (s : string) : option N :=
  match s with
  | String a (String b (String c (String d _))) =>
      match hex_val a, hex_val b, hex_val c, hex_val d with
      | Some a, Some b, Some c, Some d => Some (a * 4096 + b * 256 + c * 16 + d)
      | _, _, _, _ => None
      end
  | _ => None
  end.
Definition getu4 (s : string) : option N :=
  match s with
  | String a (String b s') => if (byte a =? 92) && (byte b =? 117) then four_hex s' else None
  | _ => None
  end.

Definition prepend {A} (x : string) (r : option (string * A)) : option (string * A) :=
  match r with Some (s, rest) => Some (x ++ s, rest) | None => None end.

(** unquoteBytes, decode.go, together with the states of the scanner inside a
    string: what stands before the closing quotation mark and what follows it.
    [skip] is the number of bytes already dealt with. *)
Fixpoint unquote (skip : nat) (s : string) : option (string * string) :=
  match s with
  | EmptyString => None
  | String c s' =>
      match skip with
      | S k => unquote k s'
      | O =>
          let b := byte c in
          if b =? 34 then Some ("", s')
          else if b =? 92 then
            match s' with
            | EmptyString => None
            | String e s2 =>
                let e := byte e in
                if (e =? 34) || (e =? 92) || (e =? 47) then prepend (chr e) (unquote 1 s')
                else if e =? 98 then prepend (chr 8) (unquote 1 s')
                else if e =? 102 then prepend (chr 12) (unquote 1 s')
                else if e =? 110 then prepend (chr 10) (unquote 1 s')
                else if e =? 114 then prepend (chr 13) (unquote 1 s')
                else if e =? 116 then prepend (chr 9) (unquote 1 s')
                else if e =? 117 then
                  match four_hex s2 with
                  | None => None
                  | Some r =>
                      if (55296 <=? r) && (r <? 57344) then
                        match getu4 (sdrop 4 s2) with
                        | Some r1 =>
                            if (r <? 56320) && (56320 <=? r1) && (r1 <? 57344)
                            then prepend (append_rune (65536 + (r - 55296) * 1024 + (r1 - 56320)))
                                   (unquote 11 s')
                            else prepend (append_rune rune_error) (unquote 5 s')
                        | None => prepend (append_rune rune_error) (unquote 5 s')
                        end
                      else prepend (append_rune r) (unquote 5 s')
                  end
                else None
            end
          else if b <? 32 then None
          else if b <? 128 then prepend (chr b) (unquote 0 s')
          else let '(r, n) := decode_rune s in prepend (append_rune r) (unquote (n - 1) s')
      end
  end.

(** ** Numbers *)

(** A run of digits: the number it continues, the length, the rest. *)
Fixpoint digits (n k : N) (s : string) : N * N * string :=
  match s with
  | String c s' =>
      if (48 <=? byte c) && (byte c <=? 57) then digits (n * 10 + (byte c - 48)) (k + 1) s' else (n, k, s)
  | EmptyString => (n, k, s)
  end.

Definition negate (neg : bool) (f : gofloat) : gofloat :=
  match f with FFin m e => FFin (if neg then - m else m)%Z e | _ => f end.

(** The states of the scanner inside a number and convertNumber, decode.go;
    [None] also for a number beyond float64. *)
Definition read_number (s : string) : option (gofloat * string) :=
  let '(neg, s) := match s with
                   | String c s' => if byte c =? 45 then (true, s') else (false, s)
                   | EmptyString => (false, s)
                   end in
  let whole :=
    match s with
    | String c s' =>
        if byte c =? 48 then Some (0, s')
        else if (49 <=? byte c) && (byte c <=? 57) then let '(n, _, r) := digits 0 0 s in Some (n, r)
        else None
    | EmptyString => None
    end in
  match whole with
  | None => None
  | Some (n, s) =>
      let frac :=
        match s with
        | String c s' =>
            if byte c =? 46 then
              let '(n', k, r) := digits n 0 s' in if k =? 0 then None else Some (n', k, r)
            else Some (n, 0, s)
        | EmptyString => Some (n, 0, s)
        end in
      match frac with
      | None => None
      | Some (n, k, s) =>
          let exp :=
            match s with
            | String c s' =>
                if (byte c =? 101) || (byte c =? 69) then
                  let '(eneg, s') := match s' with
                                     | String c' s2 => if byte c' =? 45 then (true, s2)
                                                       else if byte c' =? 43 then (false, s2) else (false, s')
                                     | EmptyString => (false, s')
                                     end in
                  let '(x, j, r) := digits 0 0 s' in
                  if j =? 0 then None else Some ((if eneg then - Z.of_N x else Z.of_N x)%Z, r)
                else Some (0%Z, s)
            | EmptyString => Some (0%Z, s)
            end in
          match exp with
          | None => None
          | Some (x, s) =>
              let x := (x - Z.of_N k)%Z in
              let f := if (0 <=? x)%Z then nearest_float (Z.of_N n * 10 ^ x) 1
                       else nearest_float (Z.of_N n) (10 ^ (- x)) in
              match f with Some f => Some (negate neg f, s) | None => None end
          end
      end
  end.

(** ** Values *)

(** The text [t] and what follows it. *)
Fixpoint after (t s : string) : option string :=
  match t, s with
  | EmptyString, _ => Some s
  | String a t', String b s' => if Ascii.eqb a b then after t' s' else None
  | _, EmptyString => None
  end.
Definition read_word (t : string) (v : value) (s : string) : option (value * string) :=
  match after t s with Some r => Some (v, r) | None => None end.

(** valueInterface, arrayInterface and objectInterface, decode.go, with the
    scanner; [d] is how many more levels of nesting are allowed
    (maxNestingDepth), [fuel] bounds the recursion. *)
Fixpoint read_value (fuel : nat) (d : N) (s : string) {struct fuel} : option (value * string) :=
  match fuel with
  | O => None
  | S f =>
      match skip_space s with
      | EmptyString => None
      | String c s1 =>
          if byte c =? 34 then
            match unquote 0 s1 with Some (x, r) => Some (VStr x, r) | None => None end
          else if byte c =? 91 then
            if d =? 0 then None
            else match after "]" (skip_space s1) with
                 | Some r => Some (VSlice (Some []), r)
                 | None => match read_elements f (d - 1) s1 with
                           | Some (l, r) => Some (VSlice (Some l), r)
                           | None => None
                           end
                 end
          else if byte c =? 123 then
            if d =? 0 then None
            else match after "}" (skip_space s1) with
                 | Some r => Some (VMap (Some []), r)
                 | None => match read_members f (d - 1) [] s1 with
                           | Some (m, r) => Some (VMap (Some m), r)
                           | None => None
                           end
                 end
          else if byte c =? 110 then read_word "null" VNil (String c s1)
          else if byte c =? 116 then read_word "true" (VBool true) (String c s1)
          else if byte c =? 102 then read_word "false" (VBool false) (String c s1)
          else match read_number (String c s1) with Some (x, r) => Some (VF64 x, r) | None => None end
      end
  end
with read_elements (fuel : nat) (d : N) (s : string) {struct fuel} : option (list value * string) :=
  match fuel with
  | O => None
  | S f =>
      match read_value f d s with
      | None => None
      | Some (v, s1) =>
          match skip_space s1 with
          | String c r =>
              if byte c =? 93 then Some ([v], r)
              else if byte c =? 44 then
                match read_elements f d r with Some (l, r') => Some (v :: l, r') | None => None end
              else None
          | EmptyString => None
          end
      end
  end
with read_members (fuel : nat) (d : N) (m : list (string * value)) (s : string) {struct fuel}
  : option (list (string * value) * string) :=
  match fuel with
  | O => None
  | S f =>
      match after """" (skip_space s) with
      | None => None
      | Some s1 =>
          match unquote 0 s1 with
          | None => None
          | Some (k, s2) =>
              match after ":" (skip_space s2) with
              | None => None
              | Some s3 =>
                  match read_value f d s3 with
                  | None => None
                  | Some (v, s4) =>
                      let m := assoc_set k v m in
                      match skip_space s4 with
                      | String c r =>
                          if byte c =? 125 then Some (m, r)
                          else if byte c =? 44 then read_members f d m r
                          else None
                      | EmptyString => None
                      end
                  end
              end
          end
      end
  end.

(** json.Unmarshal into a *[]any: an array, or null, which leaves it nil.
    Simplification: a value of another kind is an error here as in Go, and so is
    a number beyond float64 anywhere, where Go would still fill in the rest. *)
Definition json_unmarshal (s : string) : res goslice :=
  match read_value (2 * String.length s + 2) 10000 s with
  | Some (v, r) =>
      match skip_space r with
      | EmptyString =>
          match v with
          | VSlice l => Ok l
          | VNil => Ok None
          | _ => Err "json: cannot unmarshal into Go value of type []interface {}"
          end
      | _ => Err "invalid character after top-level value"
      end
  | None => Err "invalid JSON"
  end.
Definition json_codec : codec := Codec json_marshal json_unmarshal.

(** * JSONSerializer, serializers/json.go:13-33 *)
Definition json_serialize (m : message) : res string := json_marshal (marshal m).
Definition json_deserialize `{PL : Platform} (sh sh' : shuffle) (s : string) : res message :=
  match json_unmarshal s with
  | Ok l => deserialize_decoded sh sh' (default [] l)
  | Err e => Err e
  | Panic w => Panic w
  end.
