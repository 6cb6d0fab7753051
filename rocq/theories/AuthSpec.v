(** What the authentication properties mean: texts as numbers, the choice of a
    method, the grounds for a WELCOME, the order of messages a joiner accepts.
    Only message and request types, traces and the cryptographic primitives are
    taken from the model. *)
From Coq Require Import Ascii.
From Verif Require Import Prelude Value Msg Types Auth Acceptor Joiner.

Local Open Scope string_scope.

(** * Texts *)

Definition chars (s : string) : list ascii := list_ascii_of_string s.
Definition byte_values (s : string) : list N := map N_of_ascii (chars s).

(** The number written by digits in a base, most significant first. *)
Fixpoint in_base (b : N) (ds : list N) : N :=
  match ds with
  | [] => 0
  | d :: ds' => d * b ^ N.of_nat (length ds') + in_base b ds'
  end.

(** RFC 4648, table 1. *)
Definition b64_letter (d : N) (c : ascii) : Prop :=
  (d < 26 /\ N_of_ascii c = 65 + d)                 (* A-Z *)
  \/ (26 <= d < 52 /\ N_of_ascii c = 97 + (d - 26))  (* a-z *)
  \/ (52 <= d < 62 /\ N_of_ascii c = 48 + (d - 52))  (* 0-9 *)
  \/ (d = 62 /\ c = "+"%char)
  \/ (d = 63 /\ c = "/"%char).

(** Letters and padding: the digits, then 0, 1 or 2 signs "=" to fill up a
    multiple of four. *)
Definition b64_shape (cs : list ascii) (ds : list N) : Prop :=
  exists ls pad,
    cs = (ls ++ repeat "="%char pad)%list /\ Forall2 b64_letter ds ls
    /\ (pad <= 2)%nat /\ Nat.divide 4 (length cs).

(** A text that stands for [data] in base64 as Go reads it: newlines may stand
    anywhere, and the last letter may carry up to four unused bits. *)
Definition b64_denotes (text data : string) : Prop :=
  exists ds,
    b64_shape (filter (fun c => c <> "010"%char /\ c <> "013"%char) (chars text)) ds
    /\ (8 * length (chars data) <= 6 * length ds < 8 * length (chars data) + 8)%nat
    /\ in_base 64 ds / 2 ^ N.of_nat (6 * length ds - 8 * length (chars data))
       = in_base 256 (byte_values data).

(** The text RFC 4648 prescribes: no newlines, unused bits zero. *)
Definition b64_canonical (text data : string) : Prop :=
  exists ds,
    b64_shape (chars text) ds
    /\ (8 * length (chars data) <= 6 * length ds < 8 * length (chars data) + 8)%nat
    /\ in_base 64 ds
       = in_base 256 (byte_values data) * 2 ^ N.of_nat (6 * length ds - 8 * length (chars data)).

(** Hexadecimal, both cases. *)
Definition hex_digit (d : N) (c : ascii) : Prop :=
  (d < 10 /\ N_of_ascii c = 48 + d)
  \/ (10 <= d < 16 /\ (N_of_ascii c = 97 + (d - 10) \/ N_of_ascii c = 65 + (d - 10))).
Inductive hex_denotes : string -> string -> Prop :=
| hex_nil : hex_denotes "" ""
| hex_cons p q a b c text data :
    hex_digit a p -> hex_digit b q -> N_of_ascii c = 16 * a + b ->
    hex_denotes text data -> hex_denotes (String p (String q text)) (String c data).

(** * The method of a handshake *)

(** The first of the proposed methods that is allowed. *)
Definition first_allowed (allowed proposed : list string) (m : string) : Prop :=
  exists pre post, proposed = (pre ++ m :: post)%list /\ m ∈ allowed
                   /\ Forall (fun p => p ∉ allowed) pre.
Definition proposals (h : hello) : list string := default [] (he_authmethods h).
(** A HELLO without proposals is taken as a proposal of anonymous, whether the
    server allows it or not (see C63). *)
Definition selected (allowed : list string) (h : hello) (m : string) : Prop :=
  first_allowed allowed (proposals h) m \/ (proposals h = [] /\ m = "anonymous").

Section spec.
Context {CR : Crypto}.

(** * Keys and signatures *)

(** The key of a WAMP-CRA user: the secret, or its salted derivation with 1000
    rounds and 32 bytes where 0 is given. *)
Definition or_default (z d : Z) : Z := if (z =? 0)%Z then d else z.
Definition cra_key (c : cra) (key : string) : Prop :=
  (cra_salt c = "" /\ key = cra_secret c)
  \/ (cra_salt c <> ""
      /\ b64_canonical key
           (pbkdf2_sha256 (cra_secret c) (cra_salt c)
              (or_default (cra_iterations c) 1000) (or_default (cra_keylen c) 32))).

(** A public key given as some bytes: cut or filled with zeros to 32. *)
Definition public_key (raw pub : string) : Prop :=
  chars pub = take 32 (chars raw ++ repeat "000"%char 32)%list.

(** [text] is, in hexadecimal, a 64-byte signature of [msg] (32 bytes) followed
    by [msg], and verifies under [pub]. *)
Definition signed_text (text pub msg : string) : Prop :=
  exists sig, hex_denotes text (sig ++ msg)
    /\ String.length sig = 64%nat /\ String.length msg = 32%nat
    /\ ed_verify pub msg sig = true.

(** * Grounds for a WELCOME *)

(** A request about the client who sent [h]. *)
Definition about (rq : request) (h : hello) (m : string) (k : request_kind) : Prop :=
  rq_realm rq = he_realm h /\ rq_authid rq = he_authid h /\ rq_authextra rq = he_authextra h
  /\ rq_method rq = m /\ rq_kind rq = k.

(** The WELCOME names the HELLO's realm, the approved identity and the method. *)
Definition names (w : welcome) (h : hello) (r : response) (m : string) : Prop :=
  mget (we_details w) "realm" = VStr (he_realm h)
  /\ mget (we_details w) "authid" = VStr (rs_authid r)
  /\ mget (we_details w) "authrole" = VStr (rs_authrole r)
  /\ mget (we_details w) "authmethod" = VMethod m.

Definition no_challenge (t : list aevent) : Prop :=
  forall c, AMade (Ok (MChallenge c)) ∉ t.

(** The text of a WAMP-CRA challenge for that user. *)
Definition challenges_user (ch : string) (r : response) : Prop :=
  exists nonce now id,
    generate_cra_challenge (Some nonce) now id (rs_authid r) (rs_authrole r) "dynamic" = Ok ch.

(** [warranted past w]: after the events [past] (latest first) the WELCOME [w]
    may be sent. *)
Inductive warranted : list aevent -> welcome -> Prop :=
| w_anonymous w h r rq allowed old :
    selected allowed h "anonymous" -> about rq h "anonymous" RBase ->
    names w h r "anonymous" ->
    warranted (ACalled (AAsked rq (Approve r)) :: ACalled (AMethods allowed)
               :: AGot (MHello h) :: old) w
| w_ticket w h r rq allowed au c mid old :
    selected allowed h "ticket" -> about rq h "ticket" (RTicket (au_signature au)) ->
    names w h r "ticket" -> no_challenge mid -> ch_method c = "ticket" ->
    warranted (ACalled (AAsked rq (Approve r)) :: AGot (MAuthenticate au)
               :: mid ++ AMade (Ok (MChallenge c)) :: ACalled (AMethods allowed)
               :: AGot (MHello h) :: old) w
| w_wampcra w h r rq allowed au c mid old k key ch :
    selected allowed h "wampcra" -> about rq h "wampcra" RBase ->
    names w h r "wampcra" -> no_challenge mid -> ch_method c = "wampcra" ->
    rs_cra r = Some k -> cra_key k key ->
    mget (ch_extra c) "challenge" = VStr ch -> challenges_user ch r ->
    b64_denotes (au_signature au) (hmac_sha256 key ch) ->
    warranted (AGot (MAuthenticate au)
               :: mid ++ AMade (Ok (MChallenge c)) :: ACalled (AAsked rq (Approve r))
               :: ACalled (AMethods allowed) :: AGot (MHello h) :: old) w
| w_cryptosign w h r rq allowed au c mid old pk raw pub msg :
    selected allowed h "cryptosign" -> about rq h "cryptosign" (RCryptoSign pk) ->
    names w h r "cryptosign" -> no_challenge mid -> ch_method c = "cryptosign" ->
    mget (he_authextra h) "pubkey" = VStr pk -> hex_denotes pk raw -> public_key raw pub ->
    signed_text (au_signature au) pub msg ->
    warranted (AGot (MAuthenticate au)
               :: mid ++ AMade (Ok (MChallenge c)) :: ACalled (AAsked rq (Approve r))
               :: ACalled (AMethods allowed) :: AGot (MHello h) :: old) w.

(** SessionDetails that agree with a WELCOME. *)
Definition agrees (d : session_details) (w : welcome) : Prop :=
  se_id d = we_session w
  /\ mget (we_details w) "realm" = VStr (se_realm d)
  /\ mget (we_details w) "authid" = VStr (se_authid d)
  /\ mget (we_details w) "authrole" = VStr (se_authrole d)
  /\ mget (we_details w) "authmethod" = VMethod (se_authmethod d).

(** Authenticators that return a response or an error, and key lengths pbkdf2
    can serve. *)
Definition proper_answer (a : answer) : Prop := a <> Neither.
Definition proper_keylen (a : answer) : Prop :=
  match a with
  | Approve (Response _ _ (Some c)) =>
      cra_salt c = "" \/ (0 <= cra_keylen c <= kdf_max)%Z
  | _ => True
  end.

End spec.

(** * The joiner *)

(** Something a WELCOME may rest on happened in this stretch of a history. *)
Definition later_grounds (mid : list aevent) : Prop :=
  (exists h rq r, AGot (MHello h) ∈ mid /\ ACalled (AAsked rq (Approve r)) ∈ mid)
  \/ (exists au, AGot (MAuthenticate au) ∈ mid).

(** After a SendHello that no WELCOME has answered yet. *)
Fixpoint awaiting (t : list jevent) : Prop :=
  match t with
  | [] => False
  | JHello (Ok _) :: _ => True
  | JGot (MWelcome _) (Ok _) :: _ => False
  | _ :: t' => awaiting t'
  end.
(** A CHALLENGE was accepted since the last SendHello. *)
Fixpoint challenged (t : list jevent) : Prop :=
  match t with
  | [] => False
  | JHello (Ok _) :: _ => False
  | JGot (MChallenge _) (Ok _) :: _ => True
  | _ :: t' => challenged t'
  end.
Fixpoint last_welcome (t : list jevent) : option welcome :=
  match t with
  | [] => None
  | JGot (MWelcome w) (Ok _) :: _ => Some w
  | _ :: t' => last_welcome t'
  end.
(** The joiner's view of a WELCOME in its own realm. *)
Definition joined_as (realm : string) (d : session_details) (w : welcome) : Prop :=
  se_id d = we_session w /\ se_realm d = realm
  /\ mget (we_details w) "authid" = VStr (se_authid d)
  /\ mget (we_details w) "authrole" = VStr (se_authrole d)
  /\ match mget (we_details w) "authmethod" with
     | VStr m => se_authmethod d = m | _ => se_authmethod d = "" end.
(** A WELCOME the joiner can read. *)
Definition readable (w : welcome) : Prop :=
  exists i r, mget (we_details w) "authid" = VStr i /\ mget (we_details w) "authrole" = VStr r.

(** The key length a WAMP-CRA client uses: the number in the challenge, 32 if
    there is none or it is 0. *)
Definition effective_keylen `{PL : Platform} (ch : challenge) : Z :=
  let k := fst (as_int (mget (ch_extra ch) "keylen")) in if (k =? 0)%Z then 32%Z else k.

(** * Zone offsets *)

Definition decimal (d : Z) (c : ascii) : Prop :=
  (0 <= d <= 9 /\ Z.of_N (N_of_ascii c) = 48 + d)%Z.
(** The suffix of a time stamp denotes a zone offset of that many seconds, to
    the minute: Z, or a sign, two digits of hours and two of minutes. *)
Definition zone_suffix (suffix : string) (offset : Z) : Prop :=
  (suffix = "Z" /\ offset = 0%Z)
  \/ exists sign a b c d h1 h2 m1 m2,
       suffix = String sign (String a (String b (String c (String d ""))))
       /\ decimal h1 a /\ decimal h2 b /\ decimal m1 c /\ decimal m2 d
       /\ (10 * m1 + m2 < 60)%Z
       /\ ((sign = "+"%char /\ 0 < offset /\ (10 * h1 + h2) * 60 + (10 * m1 + m2) = Z.quot offset 60)
           \/ (sign = "-"%char /\ offset < 0 /\ - ((10 * h1 + h2) * 60 + (10 * m1 + m2)) = Z.quot offset 60))%Z.
