(** Glob patterns: their grammar and the language they denote (the
    documentation of Go's path.Match), written without the matcher. *)
From Coq Require Import Ascii.
From Verif Require Import Prelude.

Local Open Scope string_scope.
Local Open Scope N_scope.

(** * UTF-8 *)

Definition octet (n : N) : ascii := ascii_of_N n.
(** Unicode scalar values. *)
Definition scalar (r : N) : Prop := r < 1114112 /\ ~ (55296 <= r <= 57343).
Definition utf8 (r : N) : string :=
  if r <? 128 then String (octet r) ""
  else if r <? 2048 then String (octet (192 + r / 64)) (String (octet (128 + r mod 64)) "")
  else if r <? 65536 then
    String (octet (224 + r / 4096)) (String (octet (128 + r / 64 mod 64)) (String (octet (128 + r mod 64)) ""))
  else
    String (octet (240 + r / 262144)) (String (octet (128 + r / 4096 mod 64))
      (String (octet (128 + r / 64 mod 64)) (String (octet (128 + r mod 64)) ""))).

(** * Patterns *)

Inductive token : Type :=
| TLit (c : ascii)                            (* this byte *)
| TAny                                        (* ? *)
| TClass (neg : bool) (l : list (N * N))      (* [...] *)
| TStar.                                      (* * *)

Definition first_is (c : ascii) (s : string) : Prop := exists s', s = String c s'.

(** A character inside brackets. *)
Inductive class_char : string -> N -> Prop :=
| cc_plain r : scalar r -> ~ first_is "-" (utf8 r) -> ~ first_is "]" (utf8 r) -> ~ first_is "\" (utf8 r) ->
    class_char (utf8 r) r
| cc_escaped r : scalar r -> class_char (String "\" (utf8 r)) r.
(** What is between the brackets. *)
Inductive class_body : string -> list (N * N) -> Prop :=
| cb_nil : class_body "" []
| cb_one x r b l : class_char x r -> class_body b l -> class_body (x ++ b) ((r, r) :: l)
| cb_range x lo y hi b l : class_char x lo -> class_char y hi -> class_body b l ->
    class_body (x ++ String "-" (y ++ b)) ((lo, hi) :: l).

Inductive glob : string -> list token -> Prop :=
| g_nil : glob "" []
| g_star p ts : glob p ts -> glob (String "*" p) (TStar :: ts)
| g_any p ts : glob p ts -> glob (String "?" p) (TAny :: ts)
| g_class b l p ts : class_body b l -> l <> [] -> ~ first_is "^" b -> glob p ts ->
    glob (String "[" (b ++ String "]" p)) (TClass false l :: ts)
| g_class_neg b l p ts : class_body b l -> l <> [] -> glob p ts ->
    glob (String "[" (String "^" (b ++ String "]" p))) (TClass true l :: ts)
| g_escaped c p ts : glob p ts -> glob (String "\" (String c p)) (TLit c :: ts)
| g_lit c p ts : c <> "*"%char -> c <> "?"%char -> c <> "["%char -> c <> "\"%char -> glob p ts ->
    glob (String c p) (TLit c :: ts).

(** * The language *)

Definition in_class (neg : bool) (l : list (N * N)) (r : N) : Prop :=
  if neg then Forall (fun '(lo, hi) => ~ (lo <= r <= hi)) l
  else Exists (fun '(lo, hi) => lo <= r <= hi) l.

(** A name begins with the character [r]. *)
Inductive whole_char : string -> N -> string -> Prop :=
| wc r rest : scalar r -> whole_char (utf8 r ++ rest) r rest.
(** The same, where a byte that does not begin a character counts as U+FFFD. *)
Inductive any_char : string -> N -> string -> Prop :=
| ac_whole s r rest : whole_char s r rest -> any_char s r rest
| ac_stray b rest : (forall r rest', ~ whole_char (String b rest) r rest') ->
    any_char (String b rest) 65533 rest.

Definition slash : ascii := "/".
Fixpoint slash_free (s : string) : Prop :=
  match s with
  | EmptyString => True
  | String c s' => c <> slash /\ slash_free s'
  end.

(** The names a pattern denotes, given what a character is. *)
Inductive denotes (char : string -> N -> string -> Prop) : list token -> string -> Prop :=
| d_nil : denotes char [] ""
| d_lit c ts s : denotes char ts s -> denotes char (TLit c :: ts) (String c s)
| d_any ts s r rest : char s r rest -> r <> 47 -> denotes char ts rest -> denotes char (TAny :: ts) s
| d_class neg l ts s r rest : char s r rest -> in_class neg l r -> denotes char ts rest ->
    denotes char (TClass neg l :: ts) s
| d_star u ts s : slash_free u -> denotes char ts s -> denotes char (TStar :: ts) (u ++ s).

(** No class standing between two stars contains the slash. *)
Definition classes_avoid_slash (ts : list token) : Prop :=
  forall pre neg l post, ts = (pre ++ TClass neg l :: post)%list -> In TStar pre -> In TStar post ->
    ~ in_class neg l 47.
(** Literals and stars only. *)
Definition only_literals (ts : list token) : Prop :=
  Forall (fun t => match t with TLit _ | TStar => True | _ => False end) ts.
Fixpoint all_ascii (s : string) : Prop :=
  match s with EmptyString => True | String c s' => N_of_ascii c < 128 /\ all_ascii s' end.
