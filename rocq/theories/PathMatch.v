(** wildcardMatch, /repo/dealer.go:386-389, which calls path.Match of Go's
    standard library (Go 1.22, src/path/match.go and unicode/utf8).  The
    library functions are modelled from their published source, function by
    function; strings are byte strings. *)
From Verif Require Import Prelude.
From Coq Require Import Ascii.

(** Bytes. *)
Definition byte_of (a : ascii) : N := N_of_ascii a.
Definition is_chr (a : ascii) (c : N) : bool := byte_of a =? c.
Definition cSlash : N := 47.
Definition cStar : N := 42.
Definition cQuest : N := 63.
Definition cOpen : N := 91.
Definition cBack : N := 92.
Definition cClose : N := 93.
Definition cCaret : N := 94.
Definition cDash : N := 45.

Definition in_rng (lo hi : N) (a : ascii) : bool := (lo <=? byte_of a) && (byte_of a <=? hi).

(** unicode/utf8 DecodeRuneInString: the rune and its width; an invalid
    encoding is U+FFFD with width 1, the empty string has width 0.  The table
    first/acceptRanges is spelled out. *)
Definition rune_error : N := 65533.
Definition cont (a : ascii) : bool := in_rng 128 191 a.
Definition low6 (a : ascii) : N := byte_of a mod 64.
Definition decode_rune (s : string) : N * nat :=
  match s with
  | EmptyString => (rune_error, 0%nat)
  | String a s1 =>
      let b := byte_of a in
      if b <? 128 then (b, 1%nat)
      else if (194 <=? b) && (b <=? 223) then
        match s1 with
        | String a1 _ => if cont a1 then ((b mod 32) * 64 + low6 a1, 2%nat) else (rune_error, 1%nat)
        | _ => (rune_error, 1%nat)
        end
      else if (224 <=? b) && (b <=? 239) then
        let lo := if b =? 224 then 160 else 128 in
        let hi := if b =? 237 then 159 else 191 in
        match s1 with
        | String a1 (String a2 _) =>
            if in_rng lo hi a1 && cont a2
            then ((b mod 16) * 4096 + low6 a1 * 64 + low6 a2, 3%nat) else (rune_error, 1%nat)
        | _ => (rune_error, 1%nat)
        end
      else if (240 <=? b) && (b <=? 244) then
        let lo := if b =? 240 then 144 else 128 in
        let hi := if b =? 244 then 143 else 191 in
        match s1 with
        | String a1 (String a2 (String a3 _)) =>
            if in_rng lo hi a1 && cont a2 && cont a3
            then ((b mod 8) * 262144 + low6 a1 * 4096 + low6 a2 * 64 + low6 a3, 4%nat)
            else (rune_error, 1%nat)
        | _ => (rune_error, 1%nat)
        end
      else (rune_error, 1%nat)
  end.

(** [s[n:]]. *)
Fixpoint sdrop (n : nat) (s : string) : string :=
  match n, s with
  | O, _ => s
  | S n', String _ s' => sdrop n' s'
  | _, EmptyString => EmptyString
  end.

(** The loop of scanChunk: [chunk] and rest of the pattern. *)
Fixpoint scan (inrange : bool) (p : string) : string * string :=
  match p with
  | EmptyString => (EmptyString, EmptyString)
  | String a p1 =>
      if is_chr a cBack then
        match p1 with
        | String b p2 => let (c, r) := scan inrange p2 in (String a (String b c), r)
        | EmptyString => (p, EmptyString)
        end
      else if is_chr a cStar && negb inrange then (EmptyString, p)
      else
        let inrange' := if is_chr a cOpen then true else if is_chr a cClose then false else inrange in
        let (c, r) := scan inrange' p1 in (String a c, r)
  end.

(** The leading stars of scanChunk. *)
Fixpoint strip_stars (p : string) : bool * string :=
  match p with
  | String a p1 => if is_chr a cStar then (true, snd (strip_stars p1)) else (false, p)
  | EmptyString => (false, p)
  end.

Definition scan_chunk (p : string) : bool * string * string :=
  let (star, p1) := strip_stars p in
  let (chunk, rest) := scan false p1 in
  (star, chunk, rest).

(** getEsc: [None] is ErrBadPattern. *)
Definition get_esc (c : string) : option (N * string) :=
  match c with
  | EmptyString => None
  | String a c1 =>
      if is_chr a cDash || is_chr a cClose then None
      else
        let c' := if is_chr a cBack then c1 else c in
        match c' with
        | EmptyString => None
        | _ =>
            let (r, n) := decode_rune c' in
            if (r =? rune_error) && (n =? 1)%nat then None
            else match sdrop n c' with
                 | EmptyString => None
                 | nc => Some (r, nc)
                 end
        end
  end.

(** The range loop of matchChunk: [r] is the rune looked at; [fuel] bounds the
    number of ranges by the length of the chunk (each consumes a byte). *)
Fixpoint match_class (fuel : nat) (r : N) (c : string) (nrange : nat) (m : bool)
  : option (bool * string) :=
  match fuel with
  | O => None
  | S fuel' =>
      match c with
      | String a c1 =>
          if is_chr a cClose && (0 <? nrange)%nat then Some (m, c1)
          else
            match get_esc c with
            | None => None
            | Some (lo, c2) =>
                match c2 with
                | String b c3 =>
                    if is_chr b cDash then
                      match get_esc c3 with
                      | None => None
                      | Some (hi, c4) =>
                          match_class fuel' r c4 (S nrange) (m || ((lo <=? r) && (r <=? hi)))
                      end
                    else match_class fuel' r c2 (S nrange) (m || ((lo <=? r) && (r <=? lo)))
                | EmptyString => None
                end
            end
      | EmptyString => None
      end
  end.

(** matchChunk: [None] is ErrBadPattern, [Some None] no match, [Some (Some t)]
    a match leaving [t].  Indexing chunk[0] after getEsc is safe because getEsc
    rejects an empty remainder. *)
Fixpoint match_chunk (fuel : nat) (c s : string) (failed : bool) : option (option string) :=
  match fuel with
  | O => None
  | S fuel' =>
      match c with
      | EmptyString => if failed then Some None else Some (Some s)
      | String a c1 =>
          let failed := failed || match s with EmptyString => true | _ => false end in
          if is_chr a cOpen then
            let '(r, s') := if failed then (0, s)
                            else let (r, n) := decode_rune s in (r, sdrop n s) in
            let '(neg, c2) := match c1 with
                              | String b c2 => if is_chr b cCaret then (true, c2) else (false, c1)
                              | _ => (false, c1) end in
            match match_class (S (String.length c2)) r c2 0 false with
            | None => None
            | Some (m, c3) => match_chunk fuel' c3 s' (failed || Bool.eqb m neg)
            end
          else if is_chr a cQuest then
            match s with
            | String b _ =>
                if failed then match_chunk fuel' c1 s failed
                else match_chunk fuel' c1 (sdrop (snd (decode_rune s)) s) (is_chr b cSlash)
            | EmptyString => match_chunk fuel' c1 s failed
            end
          else
            let lit := if is_chr a cBack then c1 else c in
            match lit with
            | EmptyString => None
            | String x c2 =>
                match s with
                | String b s1 =>
                    if failed then match_chunk fuel' c2 s failed
                    else match_chunk fuel' c2 s1 (negb (Ascii.eqb x b))
                | EmptyString => match_chunk fuel' c2 s failed
                end
            end
      end
  end.
Definition matchChunk (c s : string) : option (option string) :=
  match_chunk (S (String.length c)) c s false.

(** strings.IndexByte(name, '/') < 0. *)
Fixpoint no_slash (s : string) : bool :=
  match s with
  | EmptyString => true
  | String a s' => negb (is_chr a cSlash) && no_slash s'
  end.

(** The inner loop of Match: look for a match of [chunk] after skipping
    i+1 bytes, none of them a slash; [last]: no pattern remains. *)
Fixpoint try_skip (chunk : string) (last : bool) (name : string) : option (option string) :=
  match name with
  | EmptyString => Some None
  | String a name' =>
      if is_chr a cSlash then Some None
      else
        match matchChunk chunk name' with
        | None => None
        | Some (Some t) =>
            match last, t with
            | true, String _ _ => try_skip chunk last name'
            | _, _ => Some (Some t)
            end
        | Some None => try_skip chunk last name'
        end
  end.

(** The final loop of Match: check the rest of the pattern. *)
Fixpoint check_rest (fuel : nat) (p : string) : option bool :=
  match fuel with
  | O => None
  | S fuel' =>
      match p with
      | EmptyString => Some false
      | _ =>
          let '(_, chunk, rest) := scan_chunk p in
          match matchChunk chunk EmptyString with
          | None => None
          | Some _ => check_rest fuel' rest
          end
      end
  end.

(** Match: [None] is ErrBadPattern.  [fuel] bounds the number of chunks by the
    length of the pattern (each round consumes at least a byte). *)
Fixpoint path_match (fuel : nat) (p name : string) : option bool :=
  match fuel with
  | O => None
  | S fuel' =>
      match p with
      | EmptyString => Some (match name with EmptyString => true | _ => false end)
      | _ =>
          let '(star, chunk, rest) := scan_chunk p in
          match star, chunk with
          | true, EmptyString => Some (no_slash name)
          | _, _ =>
              let last := match rest with EmptyString => true | _ => false end in
              let retry :=
                match (if star then try_skip chunk last name else Some None) with
                | None => None
                | Some (Some t) => path_match fuel' rest t
                | Some None => check_rest fuel' rest
                end in
              match matchChunk chunk name with
              | None => None
              | Some (Some t) =>
                  match last, t with
                  | true, String _ _ => retry
                  | _, _ => path_match fuel' rest t
                  end
              | Some None => retry
              end
          end
      end
  end.

(** wildcardMatch, dealer.go:386-389. *)
Definition wildcard_match (str pattern : string) : bool :=
  match path_match (S (String.length pattern)) pattern str with
  | Some b => b
  | None => false
  end.
