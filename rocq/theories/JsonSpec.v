(** Reading a JSON object (RFC 8259) whose members are strings or natural
    numbers, written without white space. *)
From Coq Require Import Ascii.
From Verif Require Import Prelude PathMatchSpec.

Local Open Scope string_scope.
Local Open Scope N_scope.

Definition code (c : ascii) : N := N_of_ascii c.
Definition between (a b : N) (c : ascii) : bool := (a <=? code c) && (code c <=? b).

Definition hex_value (c : ascii) : option N :=
  if between 48 57 c then Some (code c - 48)            (* 0-9 *)
  else if between 97 102 c then Some (code c - 87)      (* a-f *)
  else if between 65 70 c then Some (code c - 55)       (* A-F *)
  else None.

(** The escapes of one letter. *)
Definition short_escape (c : ascii) : option string :=
  match code c with
  | 34 | 92 | 47 => Some (String c "")                  (* quotation mark, backslash, slash *)
  | 98 => Some (String (octet 8) "")                    (* b *)
  | 102 => Some (String (octet 12) "")                  (* f *)
  | 110 => Some (String (octet 10) "")                  (* n *)
  | 114 => Some (String (octet 13) "")                  (* r *)
  | 116 => Some (String (octet 9) "")                   (* t *)
  | _ => None
  end.

Definition before {A} (x : string) (r : option (string * A)) : option (string * A) :=
  match r with Some (s, rest) => Some (x ++ s, rest) | None => None end.

(** What stands before the closing quotation mark, and what comes after it.
    Pairs of surrogates are not read. *)
Fixpoint read_chars (s : string) : option (string * string) :=
  match s with
  | EmptyString => None
  | String c s1 =>
      if code c =? 34 then Some ("", s1)
      else if code c =? 92 then
        match s1 with
        | EmptyString => None
        | String e s2 =>
            if code e =? 117 then
              match s2 with
              | String h1 (String h2 (String h3 (String h4 s3))) =>
                  match hex_value h1, hex_value h2, hex_value h3, hex_value h4 with
                  | Some a, Some b, Some c, Some d =>
                      let r := a * 4096 + b * 256 + c * 16 + d in
                      if (55296 <=? r) && (r <=? 57343) then None
                      else before (utf8 r) (read_chars s3)
                  | _, _, _, _ => None
                  end
              | _ => None
              end
            else match short_escape e with
                 | Some x => before x (read_chars s2)
                 | None => None
                 end
        end
      else if code c <? 32 then None
      else before (String c "") (read_chars s1)
  end.

(** The digits of a number, most significant first. *)
Fixpoint read_digits (n : N) (s : string) : N * string :=
  match s with
  | String c s' => if between 48 57 c then read_digits (n * 10 + (code c - 48)) s' else (n, s)
  | EmptyString => (n, s)
  end.

Inductive jvalue : Type := JStr (s : string) | JNum (n : N).

Definition read_value (s : string) : option (jvalue * string) :=
  match s with
  | EmptyString => None
  | String c s' =>
      if code c =? 34 then
        match read_chars s' with Some (x, rest) => Some (JStr x, rest) | None => None end
      else if code c =? 48 then Some (JNum 0, s')
      else if between 49 57 c then let (n, rest) := read_digits 0 s in Some (JNum n, rest)
      else None
  end.

Definition expect (c : ascii) (s : string) : option string :=
  match s with String c' s' => if Ascii.eqb c c' then Some s' else None | EmptyString => None end.

Fixpoint read_members (fuel : nat) (s : string) : option (list (string * jvalue)) :=
  match fuel with
  | O => None
  | S fuel' =>
      match expect """" s with
      | None => None
      | Some s1 =>
          match read_chars s1 with
          | None => None
          | Some (k, s2) =>
              match expect ":" s2 with
              | None => None
              | Some s3 =>
                  match read_value s3 with
                  | None => None
                  | Some (v, s4) =>
                      if String.eqb s4 "}" then Some [(k, v)]
                      else match expect "," s4 with
                           | None => None
                           | Some s5 =>
                               match read_members fuel' s5 with
                               | Some l => Some ((k, v) :: l)
                               | None => None
                               end
                           end
                  end
              end
          end
      end
  end.

(** The members of a non-empty object, in the order of the text. *)
Definition read_object (s : string) : option (list (string * jvalue)) :=
  match expect "{" s with
  | Some s1 => read_members (String.length s1) s1
  | None => None
  end.

(** ** Text *)

(** [s] is UTF-8. *)
Inductive text : string -> Prop :=
| text_nil : text ""
| text_char r s : scalar r -> text s -> text (utf8 r ++ s).

(** [t] is [s] with U+FFFD for each byte that belongs to no character. *)
Inductive repaired : string -> string -> Prop :=
| rep_nil : repaired "" ""
| rep_char r s t : scalar r -> repaired s t -> repaired (utf8 r ++ s) (utf8 r ++ t)
| rep_byte c s t : (forall r rest, scalar r -> String c s <> utf8 r ++ rest) ->
    repaired s t -> repaired (String c s) (utf8 65533 ++ t).
