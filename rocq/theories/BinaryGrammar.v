(** CBOR (RFC 8949) and MessagePack in full: which bytes are an item, and the value
    they stand for.  Only what the libraries refuse is left out: tags and keys that
    are not strings in CBOR, extensions other than the time in MessagePack. *)
From Coq Require Import Ascii.
From Verif Require Import Prelude Value BaseSpec WireSpec PathMatchSpec JsonSpec JsonSafe JsonGrammar BinarySpec.

Local Open Scope string_scope.
Local Open Scope list_scope.
Local Open Scope N_scope.

(** What differs between the formats: the bytes of a value without parts; those
    before [n] elements or entries; those before [n] of them where the number is not
    told, and those which then close the item; those of a key. *)
Record dialect : Type := Dialect {
  di_atom : string -> value -> Prop;
  di_list : N -> string -> Prop;
  di_dict : N -> string -> Prop;
  di_open_list : N -> string -> Prop;
  di_open_dict : N -> string -> Prop;
  di_close : string -> Prop;
  di_key : string -> string -> Prop
}.
(** Levels of nesting; [None] if there is no limit. *)
Definition inside (d d' : option N) : Prop :=
  match d, d' with None, None => True | Some n, Some n' => n = n' + 1 | _, _ => False end.

(** Of the entries of a dictionary with the same key the last one counts. *)
Inductive stands (D : dialect) : option N -> string -> value -> Prop :=
| st_atom d s v : di_atom D s v -> stands D d s v
| st_list d d' h ts vs : inside d d' -> di_list D (N.of_nat (length ts)) h -> Forall2 (stands D d') ts vs ->
    stands D d (h ++ String.concat "" ts)%string (VSlice (Some vs))
| st_open_list d d' h ts vs z : inside d d' -> di_open_list D (N.of_nat (length ts)) h -> Forall2 (stands D d') ts vs ->
    di_close D z -> stands D d (h ++ String.concat "" ts ++ z)%string (VSlice (Some vs))
| st_dict d d' h kts kvs m : inside d d' -> di_dict D (N.of_nat (length kts)) h ->
    Forall2 (fun kt kv => di_key D (fst kv) (fst kt) /\ stands D d' (snd kt) (snd kv)) kts kvs -> last_entries kvs m ->
    stands D d (h ++ String.concat "" (map (fun kt => fst kt ++ snd kt) kts))%string (VMap (Some m))
| st_open_dict d d' h kts kvs m z : inside d d' -> di_open_dict D (N.of_nat (length kts)) h ->
    Forall2 (fun kt kv => di_key D (fst kv) (fst kt) /\ stands D d' (snd kt) (snd kv)) kts kvs -> last_entries kvs m ->
    di_close D z -> stands D d (h ++ String.concat "" (map (fun kt => fst kt ++ snd kt) kts) ++ z)%string (VMap (Some m)).

(** The same, but for the order of the entries of dictionaries. *)
Inductive alike : value -> value -> Prop :=
| al_same v : alike v v
| al_list l l' : Forall2 alike l l' -> alike (VSlice (Some l)) (VSlice (Some l'))
| al_dict m m' :
    (forall k v, (k, v) ∈ m -> exists v', (k, v') ∈ m' /\ alike v v') ->
    (forall k v', (k, v') ∈ m' -> exists v, (k, v) ∈ m /\ alike v v') ->
    alike (VMap (Some m)) (VMap (Some m')).

(** ** CBOR: also strings in chunks, each of them of known length and a text again;
    and what has no Go type of its own. *)
Inductive cbor_value : string -> value -> Prop :=
| cv_atom s v : cbor_item_atom s v -> cbor_value s v
| cv_big n h : cbor_arg 1 n h -> 2 ^ 63 <= n -> cbor_value h (VOther 0)
| cv_simple n : n < 20 -> cbor_value (byte1 (7 * 32 + n)) (VOther 0)
| cv_simple_long n : 32 <= n < 256 -> cbor_value (byte1 248 ++ byte1 n)%string (VOther 0)
| cv_bytes cs : Forall (fun c => cbor_arg 2 (N.of_nat (String.length (snd c))) (fst c)) cs ->
    cbor_value (byte1 95 ++ String.concat "" (map (fun c => fst c ++ snd c) cs) ++ byte1 255)%string
      (VBytes (String.concat "" (map snd cs)))
| cv_text cs : Forall (fun c => cbor_arg 3 (N.of_nat (String.length (snd c))) (fst c) /\ text (snd c)) cs ->
    cbor_value (byte1 127 ++ String.concat "" (map (fun c => fst c ++ snd c) cs) ++ byte1 255)%string
      (VStr (String.concat "" (map snd cs))).
Definition cbor_dialect : dialect :=
  Dialect cbor_value
    (fun n h => cbor_arg 4 n h /\ n <= 131072) (fun n h => cbor_arg 5 n h /\ n <= 131072)
    (fun n h => h = byte1 159 /\ n <= 131072) (fun n h => h = byte1 191 /\ n <= 131072)
    (fun z => z = byte1 255) (fun k t => cbor_value t (VStr k)).

(** ** MessagePack: also the time, and byte strings and nil as keys. *)
Inductive mp_value : string -> value -> Prop :=
| mv_atom s v : mp_item_atom s v -> mp_value s v
| mv_time h x : (h = byte1 214 /\ String.length x = 4%nat) \/ (h = byte1 215 /\ String.length x = 8%nat)
    \/ ((String.length x = 4 \/ String.length x = 8 \/ String.length x = 12)%nat
        /\ exists b k, (b, k) ∈ [(199, 1%nat); (200, 2%nat); (201, 4%nat)] /\ mp_arg b k (N.of_nat (String.length x)) h) ->
    mp_value (h ++ byte1 255 ++ x)%string (VOther 0).
Definition mp_dialect : dialect :=
  Dialect mp_value (mp_count 144 220 221) (mp_count 128 222 223) (fun _ _ => False) (fun _ _ => False) (fun _ => False)
    (fun k t => mp_item_atom t (VStr k) \/ mp_item_atom t (VBytes k) \/ (t = byte1 192 /\ k = "")).
