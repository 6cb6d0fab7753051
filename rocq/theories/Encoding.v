(** encoding/hex, encoding/base64 (StdEncoding) and the string literals of
    encoding/json of Go 1.22, as /repo/auth uses them.  Bytes are characters of Coq strings. *)
From Coq Require Import Ascii.
From Verif Require Import Prelude PathMatch.

Definition byte (c : ascii) : N := N_of_ascii c.
Definition of_byte (n : N) : ascii := ascii_of_N n.

(** hex.EncodeToString: two lower-case digits per byte. *)
Definition hex_alphabet : string := "0123456789abcdef".
Definition digit_at (alphabet : string) (n : N) : ascii :=
  match String.get (N.to_nat n) alphabet with Some c => c | None => "="%char end.
Fixpoint hex_encode (s : string) : string :=
  match s with
  | EmptyString => ""
  | String c s' =>
      String (digit_at hex_alphabet (byte c / 16))
        (String (digit_at hex_alphabet (byte c mod 16)) (hex_encode s'))
  end.

(** reverseHexTable of encoding/hex: both cases are accepted. *)
Definition hex_val (c : ascii) : option N :=
  let n := byte c in
  if (48 <=? n) && (n <=? 57) then Some (n - 48)
  else if (97 <=? n) && (n <=? 102) then Some (n - 87)
  else if (65 <=? n) && (n <=? 70) then Some (n - 55)
  else None.
(** hex.DecodeString: [None] is an error (odd length or another character).
    The prefix Go returns beside the error is not used in /repo. *)
Fixpoint hex_decode (s : string) : option string :=
  match s with
  | EmptyString => Some ""
  | String p (String q s') =>
      match hex_val p, hex_val q, hex_decode s' with
      | Some a, Some b, Some r => Some (String (of_byte (a * 16 + b)) r)
      | _, _, _ => None
      end
  | _ => None
  end%string.

(** base64.StdEncoding. *)
Definition b64_alphabet : string :=
  "ABCDEFGHIJKLMNOPQRSTUVWXYZabcdefghijklmnopqrstuvwxyz0123456789+/".
Definition b64_digit : N -> ascii := digit_at b64_alphabet.
Definition pad_char : ascii := "="%char.

(** EncodeToString: three bytes to four digits, the last group padded. *)
Fixpoint b64_encode (s : string) : string :=
  match s with
  | String a (String b (String c s')) =>
      let v := byte a * 65536 + byte b * 256 + byte c in
      String (b64_digit (v / 262144)) (String (b64_digit (v / 4096 mod 64))
        (String (b64_digit (v / 64 mod 64)) (String (b64_digit (v mod 64)) (b64_encode s'))))
  | String a (String b EmptyString) =>
      let v := byte a * 65536 + byte b * 256 in
      String (b64_digit (v / 262144)) (String (b64_digit (v / 4096 mod 64))
        (String (b64_digit (v / 64 mod 64)) (String pad_char "")))
  | String a EmptyString =>
      let v := byte a * 65536 in
      String (b64_digit (v / 262144)) (String (b64_digit (v / 4096 mod 64))
        (String pad_char (String pad_char "")))
  | EmptyString => ""
  end%string.

(** decodeMap: the position in the alphabet. *)
Fixpoint index_of (c : ascii) (s : string) : option N :=
  match s with
  | EmptyString => None
  | String c' s' =>
      if Ascii.eqb c c' then Some 0
      else match index_of c s' with Some n => Some (n + 1) | None => None end
  end.
Definition b64_val (c : ascii) : option N := index_of c b64_alphabet.

(** decodeQuantum skips carriage returns and newlines wherever they stand. *)
Definition is_newline (c : ascii) : bool := (byte c =? 10) || (byte c =? 13).
Fixpoint drop_newlines (s : string) : string :=
  match s with
  | EmptyString => ""
  | String c s' => if is_newline c then drop_newlines s' else String c (drop_newlines s')
  end.

(** The groups of four.  A group with padding must be the last one; the unused
    low bits of its last digit are ignored (StdEncoding is not Strict). *)
Fixpoint b64_groups (s : string) : option string :=
  match s with
  | EmptyString => Some ""
  | String a (String b (String c (String d s'))) =>
      match b64_val a, b64_val b with
      | Some x, Some y =>
          if Ascii.eqb c pad_char then
            if Ascii.eqb d pad_char then
              match s' with
              | EmptyString => Some (String (of_byte ((x * 64 + y) / 16)) "")
              | _ => None
              end
            else None
          else
            match b64_val c with
            | None => None
            | Some z =>
                if Ascii.eqb d pad_char then
                  match s' with
                  | EmptyString =>
                      let v := (x * 4096 + y * 64 + z) / 4 in
                      Some (String (of_byte (v / 256)) (String (of_byte (v mod 256)) ""))
                  | _ => None
                  end
                else
                  match b64_val d, b64_groups s' with
                  | Some w, Some r =>
                      let v := x * 262144 + y * 4096 + z * 64 + w in
                      Some (String (of_byte (v / 65536)) (String (of_byte (v / 256 mod 256))
                        (String (of_byte (v mod 256)) r)))
                  | _, _ => None
                  end
            end
      | _, _ => None
      end
  | _ => None
  end%string.
(** DecodeString: [None] is a CorruptInputError. *)
Definition b64_decode (s : string) : option string := b64_groups (drop_newlines s).

(** encoding/json, appendString with escapeHTML: a JSON string literal.  Invalid
    UTF-8 becomes U+FFFD, <, > and & and control characters are escaped. *)
Definition chr (n : N) : string := String (of_byte n) "".
Definition json_escape (b : N) : string :=
  if (b =? 34) || (b =? 92) then chr 92 +:+ chr b
  else if b =? 8 then chr 92 +:+ "b"
  else if b =? 12 then chr 92 +:+ "f"
  else if b =? 10 then chr 92 +:+ "n"
  else if b =? 13 then chr 92 +:+ "r"
  else if b =? 9 then chr 92 +:+ "t"
  else if (b <? 32) || (b =? 38) || (b =? 60) || (b =? 62) then
    chr 92 +:+ "u00" +:+ String (digit_at hex_alphabet (b / 16))
                           (String (digit_at hex_alphabet (b mod 16)) "")
  else chr b.
Fixpoint stake (n : nat) (s : string) : string :=
  match n, s with
  | S n', String c s' => String c (stake n' s')
  | _, _ => ""
  end.
Fixpoint json_body (fuel : nat) (s : string) : string :=
  match fuel, s with
  | S fuel', String c _ =>
      let '(r, n) := decode_rune s in
      (if byte c <? 128 then json_escape (byte c)
       else if (r =? rune_error) && (n =? 1)%nat then chr 92 +:+ "ufffd"
       else if (r =? 8232) || (r =? 8233) then
         chr 92 +:+ "u202" +:+ String (digit_at hex_alphabet (r mod 16)) ""
       else stake n s)
      +:+ json_body fuel' (sdrop n s)
  | _, _ => ""
  end.
Definition json_string (s : string) : string :=
  chr 34 +:+ json_body (String.length s) s +:+ chr 34.
