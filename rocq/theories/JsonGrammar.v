(** JSON texts (RFC 8259) and the values they stand for. *)
From Coq Require Import Ascii QArith Qabs.
From Verif Require Import Prelude Value PathMatchSpec AuthSpec JsonSpec.

Local Open Scope string_scope.
Local Open Scope N_scope.

(** What a text says.  [JNumber neg n x] is n * 10^x, negated if [neg]. *)
Inductive tree : Type :=
| JNull | JBool (b : bool) | JNumber (neg : bool) (n : N) (x : Z) | JString (s : string)
| JList (l : list tree) | JDict (m : list (string * tree)).

Definition letters : string -> list ascii := list_ascii_of_string.
(** White space. *)
Definition space (s : string) : Prop := Forall (fun c => code c ∈ [32; 9; 10; 13]) (letters s).

(** * Strings *)

Inductive hex4 : string -> N -> Prop :=
| hex4_digits a b c d w x y z :
    hex_value a = Some w -> hex_value b = Some x -> hex_value c = Some y -> hex_value d = Some z ->
    hex4 (String a (String b (String c (String d "")))) (w * 4096 + x * 256 + y * 16 + z).
Definition high (r : N) : Prop := 55296 <= r < 56320.
Definition low (r : N) : Prop := 56320 <= r < 57344.

(** What stands between quotation marks, and the string it is.  The last two
    clauses are not JSON but, if [lax], put up with: a byte that belongs to no
    character and half a surrogate pair stand for U+FFFD. *)
Inductive jchars (lax : bool) : string -> string -> Prop :=
| jc_end : jchars lax "" ""
| jc_plain r s x : scalar r -> 32 <= r -> r <> 34 -> r <> 92 -> jchars lax s x -> jchars lax (utf8 r ++ s) (utf8 r ++ x)
| jc_short c y s x : short_escape c = Some y -> jchars lax s x -> jchars lax ("\" ++ String c s) (y ++ x)
| jc_unicode h r s x : hex4 h r -> scalar r -> jchars lax s x -> jchars lax ("\u" ++ h ++ s) (utf8 r ++ x)
| jc_pair h1 r1 h2 r2 s x : hex4 h1 r1 -> hex4 h2 r2 -> high r1 -> low r2 -> jchars lax s x ->
    jchars lax ("\u" ++ h1 ++ "\u" ++ h2 ++ s) (utf8 (65536 + (r1 - 55296) * 1024 + (r2 - 56320)) ++ x)
| jc_half h r s x : lax = true -> hex4 h r -> high r \/ low r ->
    ~ (high r /\ exists h2 r2 s', s = "\u" ++ h2 ++ s' /\ hex4 h2 r2 /\ low r2) ->
    jchars lax s x -> jchars lax ("\u" ++ h ++ s) (utf8 65533 ++ x)
| jc_broken c s x : lax = true -> (forall r s', scalar r -> String c s <> utf8 r ++ s') -> jchars lax s x ->
    jchars lax (String c s) (utf8 65533 ++ x).
Definition jstring (lax : bool) (s x : string) : Prop := exists b, s = """" ++ b ++ """" /\ jchars lax b x.

(** * Numbers *)

Definition all_digits (s : string) : Prop := Forall (fun c => between 48 57 c = true) (letters s).
Definition numeral (s : string) : N := fold_left (fun n c => n * 10 + (code c - 48)) (letters s) 0.
(** The part after the point, with its digits; the exponent. *)
Inductive jfraction : string -> string -> Prop :=
| jf_none : jfraction "" ""
| jf_digits s : all_digits s -> s <> "" -> jfraction ("." ++ s) s.
Inductive jexponent : string -> Z -> Prop :=
| je_none : jexponent "" 0
| je_plus e p s : e ∈ ["e"; "E"] -> p ∈ [""; "+"] -> all_digits s -> s <> "" ->
    jexponent (e ++ p ++ s) (Z.of_N (numeral s))
| je_minus e s : e ∈ ["e"; "E"] -> all_digits s -> s <> "" -> jexponent (e ++ "-" ++ s) (- Z.of_N (numeral s)).
Inductive jnumber : string -> bool -> N -> Z -> Prop :=
| jn_number (neg : bool) w f d e x : all_digits w -> w <> "" -> (forall s, w = String "0" s -> s = "") ->
    jfraction f d -> jexponent e x ->
    jnumber ((if neg then "-" else "") ++ w ++ f ++ e) neg (numeral (w ++ d)) (x - Z.of_nat (String.length d)).

(** * Values *)

Inductive jvalue (lax : bool) : string -> tree -> Prop :=
| jv_null : jvalue lax "null" JNull
| jv_true : jvalue lax "true" (JBool true)
| jv_false : jvalue lax "false" (JBool false)
| jv_number s neg n x : jnumber s neg n x -> jvalue lax s (JNumber neg n x)
| jv_string s x : jstring lax s x -> jvalue lax s (JString x)
| jv_empty a : space a -> jvalue lax ("[" ++ a ++ "]") (JList [])
| jv_list ss ts : ts <> [] ->
    Forall2 (fun s t => exists a u b, s = a ++ u ++ b /\ space a /\ space b /\ jvalue lax u t) ss ts ->
    jvalue lax ("[" ++ String.concat "," ss ++ "]") (JList ts)
| jv_none a : space a -> jvalue lax ("{" ++ a ++ "}") (JDict [])
| jv_dict ss m : m <> [] ->
    Forall2 (fun s kt => exists a k b c u d, s = a ++ k ++ b ++ ":" ++ c ++ u ++ d
               /\ space a /\ space b /\ space c /\ space d /\ jstring lax k (fst kt) /\ jvalue lax u (snd kt)) ss m ->
    jvalue lax ("{" ++ String.concat "," ss ++ "}") (JDict m).
(** A JSON text. *)
Definition json (lax : bool) (s : string) (t : tree) : Prop :=
  exists a u b, s = a ++ u ++ b /\ space a /\ space b /\ jvalue lax u t.

Fixpoint depth (t : tree) : N :=
  match t with
  | JList l => 1 + foldr N.max 0 (map depth l)
  | JDict m => 1 + foldr N.max 0 (map (fun kt => depth (snd kt)) m)
  | _ => 0
  end.

(** * What it stands for *)

Definition power2 (e : Z) : Q := Qpower 2 e.
(** The finite values of float64. *)
Definition double (v : Q) : Prop :=
  exists m e : Z, (Z.abs m < 2 ^ 53)%Z /\ (-1074 <= e <= 971)%Z /\ v == inject_Z m * power2 e.
(** Those whose significand is even. *)
Definition even_double (v : Q) : Prop :=
  exists m e : Z, Z.even m = true /\ (Z.abs m < 2 ^ 53)%Z /\ (-1074 <= e <= 971)%Z
    /\ (2 ^ 52 <= Z.abs m \/ e = -1074)%Z /\ v == inject_Z m * power2 e.
(** [v] is the float64 nearest to [q]; of two the even one. *)
Definition nearest (q v : Q) : Prop :=
  double v
  /\ (forall w, double w -> Qabs (v - q) <= Qabs (w - q))%Q
  /\ (forall w, double w -> (Qabs (w - q) == Qabs (v - q))%Q -> (w == v)%Q \/ even_double v).
(** The same for float32. *)
Definition single (v : Q) : Prop :=
  exists m e : Z, (Z.abs m < 2 ^ 24)%Z /\ (-149 <= e <= 104)%Z /\ v == inject_Z m * power2 e.
Definition even_single (v : Q) : Prop :=
  exists m e : Z, Z.even m = true /\ (Z.abs m < 2 ^ 24)%Z /\ (-149 <= e <= 104)%Z
    /\ (2 ^ 23 <= Z.abs m \/ e = -149)%Z /\ v == inject_Z m * power2 e.
Definition nearest_single (q v : Q) : Prop :=
  single v
  /\ (forall w, single w -> Qabs (v - q) <= Qabs (w - q))%Q
  /\ (forall w, single w -> (Qabs (w - q) == Qabs (v - q))%Q -> (w == v)%Q \/ even_single v).
(** Half a step beyond the largest float64. *)
Definition representable (q : Q) : Prop := (Qabs q < inject_Z (2 ^ 1024 - 2 ^ 970))%Q.

Definition decimal (neg : bool) (n : N) (x : Z) : Q :=
  (inject_Z (if neg then - Z.of_N n else Z.of_N n) * Qpower 10 x)%Q.
Definition stands_for (q : Q) (f : gofloat) : Prop :=
  exists m e, f = FFin m e /\ representable q /\ nearest q (inject_Z m * power2 e).

(** [m] has the last entry of [l] for each key. *)
Definition last_entries {A} (l m : list (string * A)) : Prop :=
  NoDup (map fst m)
  /\ forall k v, (k, v) ∈ m <-> exists l1 l2, l = (l1 ++ (k, v) :: l2)%list /\ k ∉ map fst l2.

Inductive means : tree -> value -> Prop :=
| me_null : means JNull VNil
| me_bool b : means (JBool b) (VBool b)
| me_number neg n x f : stands_for (decimal neg n x) f -> means (JNumber neg n x) (VF64 f)
| me_string s : means (JString s) (VStr s)
| me_list l vs : Forall2 means l vs -> means (JList l) (VSlice (Some vs))
| me_dict l kvs m : Forall2 (fun kt kv => fst kt = fst kv /\ means (snd kt) (snd kv)) l kvs ->
    last_entries kvs m -> means (JDict l) (VMap (Some m)).

(** Its numbers are not beyond float64. *)
Inductive in_range : tree -> Prop :=
| ir_null : in_range JNull
| ir_bool b : in_range (JBool b)
| ir_number neg n x : representable (decimal neg n x) -> in_range (JNumber neg n x)
| ir_string s : in_range (JString s)
| ir_list l : Forall in_range l -> in_range (JList l)
| ir_dict m : Forall (fun kt => in_range (snd kt)) m -> in_range (JDict m).

(** * What a value is written as *)

(** Strings with U+FFFD for what is not UTF-8, integers exactly, a float64 (float32)
    as a number it is the nearest float64 (float32) to, byte strings in base64, the
    entries of a dictionary each once.  A value of the named string type
    auth.Method is a [VOther] whose number is a code of the string. *)
Definition integer (z : Z) : tree := JNumber (z <? 0)%Z (Z.abs_N z) 0.
Inductive written : value -> tree -> Prop :=
| wr_nil : written VNil JNull
| wr_bool b : written (VBool b) (JBool b)
| wr_int k z : written (VInt k z) (integer z)
| wr_float m e neg n x : representable (decimal neg n x) -> nearest (decimal neg n x) (inject_Z m * power2 e) ->
    written (VF64 (FFin m e)) (JNumber neg n x)
| wr_single m e neg n x : representable (decimal neg n x) -> nearest_single (decimal neg n x) (inject_Z m * power2 e) ->
    written (VF32 (FFin m e)) (JNumber neg n x)
| wr_str s t : repaired s t -> written (VStr s) (JString t)
| wr_method p s t : countable.decode p = Some s -> repaired s t -> written (VOther (Npos p)) (JString t)
| wr_bytes b t : b64_canonical t b -> written (VBytes b) (JString t)
| wr_nil_list : written (VSlice None) JNull
| wr_list l ts : Forall2 written l ts -> written (VSlice (Some l)) (JList ts)
| wr_nil_map : written (VMap None) JNull
| wr_map m es l : NoDup (map fst es) -> (forall k v, (k, v) ∈ es <-> assoc k m = Some v) ->
    Forall2 (fun kv kt => repaired (fst kv) (fst kt) /\ written (snd kv) (snd kt)) es l ->
    written (VMap (Some m)) (JDict l)
| wr_nil_strs : written (VStrs None) JNull
| wr_strs l ts : Forall2 (fun s t => exists x, t = JString x /\ repaired s x) l ts -> written (VStrs (Some l)) (JList ts).
