(** /repo/auth: method selection, requests and responses, the four client
    authenticators, WAMP-CRA and cryptosign, ISO 8601 time stamps. *)
From Coq Require Import Ascii.
From stdpp Require Import pretty.
From Verif Require Import Prelude Value Msg Encoding.

Local Open Scope string_scope.

(** The primitives of crypto/hmac, crypto/sha256, golang.org/x/crypto/pbkdf2 and
    crypto/ed25519 that /repo calls, as arbitrary functions
    with only the laws a user of those packages may count on.  Nothing is said
    about how hard they are to forge or invert.  Ed25519 private keys are
    represented by their 32-byte seed.  [kdf_max] is the largest key length for
    which pbkdf2 can allocate its result. *)
Class Crypto : Type := {
  hmac_sha256 : string -> string -> string;               (* key, message *)
  pbkdf2_sha256 : string -> string -> Z -> Z -> string;   (* password, salt, iterations, length *)
  kdf_max : Z;
  ed_public : string -> string;                           (* seed *)
  ed_sign : string -> string -> string;                   (* seed, message *)
  ed_verify : string -> string -> string -> bool;         (* public key, message, signature *)
  kdf_max_ok : (32 <= kdf_max)%Z;
  ed_public_length : forall seed, String.length (ed_public seed) = 32%nat;
  ed_sign_length : forall seed m, String.length (ed_sign seed m) = 64%nat;
  ed_verify_sign : forall seed m, String.length seed = 32%nat ->
    ed_verify (ed_public seed) m (ed_sign seed m) = true
}.

(** Method constants, auth/authenticator.go:11-16. *)
Definition mAnonymous : string := "anonymous".
Definition mTicket : string := "ticket".
Definition mWAMPCRA : string := "wampcra".
Definition mCryptoSign : string := "cryptosign".

(** Request, TicketRequest and RequestCryptoSign, auth/authenticator.go:32-137:
    the dynamic type and its extra field are [rq_kind]. *)
Inductive request_kind : Type :=
| RBase
| RTicket (ticket : string)
| RCryptoSign (pubkey : string).
Record request : Type := Request {
  rq_method : string; rq_realm : string; rq_authid : string; rq_authextra : gomap;
  rq_kind : request_kind }.
(** NewRequest, auth/authenticator.go:39-46. *)
Definition new_request (h : hello) (m : string) : request :=
  Request m (he_realm h) (he_authid h) (he_authextra h) RBase.
(** NewTicketRequest, auth/authenticator.go:122-127. *)
Definition new_ticket_request (h : hello) (ticket : string) : request :=
  Request mTicket (he_realm h) (he_authid h) (he_authextra h) (RTicket ticket).
(** NewCryptoSignRequest, auth/authenticator.go:105-110. *)
Definition new_cryptosign_request (h : hello) (pubkey : string) : request :=
  Request mCryptoSign (he_realm h) (he_authid h) (he_authextra h) (RCryptoSign pubkey).

(** Response, auth/authenticator.go:71-103, and CRAResponse, 139-181 ([rs_cra]
    is what a *CRAResponse carries, [None] for every other dynamic type).  The
    TTL, which /repo never reads, is left out. *)
Record cra : Type := Cra {
  cra_secret : string; cra_salt : string; cra_iterations : Z; cra_keylen : Z }.
Record response : Type := Response {
  rs_authid : string; rs_authrole : string; rs_cra : option cra }.

(** What ServerAuthenticator.Authenticate may return: a response, an error (with
    its text), or (nil, nil). *)
Inductive answer : Type :=
| Approve (r : response)
| Refuse (err : string)
| Neither.

(** SelectAuthMethod, auth/helpers.go:9-31.  The first loop finds the method and
    collects the unsupported names for the error text. *)
Fixpoint find_method (allowed proposed : list string) : string * list string :=
  match proposed with
  | [] => ("", [])
  | p :: ps =>
      if bool_decide (p ∈ allowed) then (p, [])
      else let '(m, u) := find_method allowed ps in (m, p :: u)
  end.
Definition select_auth_method (allowed proposed : list string) : res string :=
  match proposed with
  | [] => Ok mAnonymous
  | _ =>
      let '(m, u) := find_method allowed proposed in
      if String.eqb m "" then
        Err ("server does not have [" ++ String.concat " " u ++ "] auth enabled")
      else Ok m
  end.

Section auth.
Context {PL : Platform} {CR : Crypto}.

(** * WAMP-CRA, auth/wampcra.go *)

(** pbkdf2.Key panics when it cannot make a slice of that length. *)
Definition pbkdf2_key (secret salt : string) (iterations keylen : Z) : res string :=
  if ((0 <=? keylen) && (keylen <=? kdf_max))%Z then Ok (pbkdf2_sha256 secret salt iterations keylen)
  else Panic "makeslice: cap out of range".

(** DeriveWAMPCRAKey, auth/wampcra.go:84-101. *)
Definition derive_key (salt secret : string) (iterations keylen : Z) : res string :=
  let iterations := if (iterations =? 0)%Z then 1000%Z else iterations in
  let keylen := if (keylen =? 0)%Z then 32%Z else keylen in
  match pbkdf2_key secret salt iterations keylen with
  | Ok dk => Ok (b64_encode dk)
  | Err e => Err e
  | Panic w => Panic w
  end.

(** SignWAMPCRAChallengeBytes and SignWAMPCRAChallenge, auth/wampcra.go:70-82. *)
Definition sign_cra_bytes (ch key : string) : string := hmac_sha256 key ch.
Definition sign_cra (ch key : string) : string := b64_encode (sign_cra_bytes ch key).

(** VerifyWAMPCRASignature, auth/wampcra.go:108-115. *)
Definition verify_cra (sig chal key : string) : bool :=
  match b64_decode sig with
  | None => false
  | Some b => String.eqb b (sign_cra_bytes chal key)
  end.

(** wampcraAuthenticator.Authenticate, auth/wampcra.go:46-68. *)
Definition cra_authenticate (secret : string) (extra : gomap) (c : challenge)
  : res authenticate :=
  let ch := to_string (mget (ch_extra c) "challenge") in
  let salt := to_string (mget (ch_extra c) "salt") in
  let key :=
    if String.eqb salt "" then Ok secret
    else derive_key salt secret (fst (as_int (mget (ch_extra c) "iterations")))
           (fst (as_int (mget (ch_extra c) "keylen"))) in
  match key with
  | Ok k => Ok (Authenticate (sign_cra ch k) extra)
  | Err e => Err e
  | Panic w => Panic w
  end.

(** GenerateWAMPCRAChallenge, auth/wampcra.go:117-149: json.Marshal writes the
    keys in alphabetical order.  [nonce] is the 16 random bytes ([None]: the
    random source failed), [now] the time stamp. *)
Definition json_field (k v : string) : string := json_string k ++ ":" ++ v.
Definition generate_cra_challenge (nonce : option string) (now : string)
  (session : N) (authid authrole provider : string) : res string :=
  match nonce with
  | None => Err "failed to get nonce"
  | Some n =>
      Ok ("{" ++ String.concat ","
            [json_field "authid" (json_string authid);
             json_field "authmethod" (json_string mWAMPCRA);
             json_field "authprovider" (json_string provider);
             json_field "authrole" (json_string authrole);
             json_field "nonce" (json_string (b64_encode n));
             json_field "session" (pretty session);
             json_field "timestamp" (json_string now)] ++ "}")
  end.

(** * Cryptosign, auth/cryptosign.go *)

(** SignCryptoSignChallenge, auth/cryptosign.go:77-87. *)
Definition sign_cryptosign (challenge seed : string) : res string :=
  match hex_decode challenge with
  | None => Err "failed to decode challenge"
  | Some raw => Ok (hex_encode (ed_sign seed raw) ++ challenge)
  end.

(** copy(pubkey[:], publicKey) into a [32]byte. *)
Definition zero_byte : ascii := "000".
Fixpoint pad_key (n : nat) (k : string) : string :=
  match n with
  | O => ""
  | S n' => match k with
            | EmptyString => String zero_byte (pad_key n' "")
            | String c k' => String c (pad_key n' k')
            end
  end.

(** nacl/sign.Open on a message of at least 64 bytes: an Ed25519 signature
    followed by the signed message. *)
Definition sign_open (sm pub : string) : bool :=
  ed_verify pub (substring 64 (String.length sm - 64) sm) (substring 0 64 sm).

(** VerifyCryptoSignSignature, auth/cryptosign.go:89-105: an error counts as
    [false] for its only caller. *)
Definition verify_cryptosign (sig key : string) : bool :=
  match hex_decode sig with
  | None => false
  | Some b =>
      if Nat.eqb (String.length b) 96 then sign_open b (pad_key 32 key) else false
  end.

(** GenerateCryptoSignChallenge, auth/cryptosign.go:107-115; [r] is the 32
    random bytes. *)
Definition generate_cryptosign_challenge (r : option string) : res string :=
  match r with None => Err "random source failed" | Some b => Ok (hex_encode b) end.

(** GenerateCryptoSignKeyPair, auth/cryptosign.go:117-131: (public, private). *)
Definition generate_key_pair (r : option string) : res (string * string) :=
  match r with
  | None => Err "random source failed"
  | Some seed => Ok (hex_encode (ed_public seed), hex_encode seed)
  end.

(** cryptoSignAuthenticator.Authenticate, auth/cryptosign.go:67-75. *)
Definition cryptosign_authenticate (seed : string) (extra : gomap) (c : challenge)
  : res authenticate :=
  match sign_cryptosign (to_string (mget (ch_extra c) "challenge")) seed with
  | Ok r => Ok (Authenticate r extra)
  | Err _ => Err "failed to sign challenge"
  | Panic w => Panic w
  end.

(** * Client authenticators *)

(** ClientAuthenticator, auth/authenticator.go:20-25. *)
Record client : Type := Client {
  cl_method : string; cl_authid : string; cl_authextra : gomap;
  cl_authenticate : challenge -> res authenticate }.

(** NewAnonymousAuthenticator, auth/anonymous.go:16-41. *)
Definition new_anonymous (authid : string) (extra : gomap) : client :=
  Client mAnonymous authid (or_empty extra) (fun _ => Err "must not be called").
(** NewTicketAuthenticator, auth/ticket.go:16-38. *)
Definition new_ticket (authid ticket : string) (extra : gomap) : client :=
  Client mTicket authid extra (fun _ => Ok (Authenticate ticket extra)).
(** NewWAMPCRAAuthenticator, auth/wampcra.go:26-44. *)
Definition new_wampcra (authid secret : string) (extra : gomap) : client :=
  Client mWAMPCRA authid extra (cra_authenticate secret extra).
(** NewCryptoSignAuthenticator, auth/cryptosign.go:24-65.  NewKeyFromSeed panics
    on a seed that is not 32 bytes.  That the caller's map is written in place
    is not represented. *)
Definition new_cryptosign (authid privhex : string) (extra : gomap) : res client :=
  match hex_decode privhex with
  | None => Err "invalid private key"
  | Some seed =>
      if Nat.eqb (String.length seed) 32 then
        let pub := hex_encode (ed_public seed) in
        let ex := match extra with Some l => l | None => [] end in
        let mk ex := Client mCryptoSign authid (Some ex) (cryptosign_authenticate seed (Some ex)) in
        match mget (Some ex) "pubkey" with
        | VNil => Ok (mk (assoc_set "pubkey" (VStr pub) ex))
        | VStr v =>
            if String.eqb v pub then Ok (mk ex)
            else Err "provided pubkey does not correspond to the private key"
        | _ => Ok (mk ex)
        end
      else Panic "ed25519: bad seed length"
  end.

End auth.

(** * ISO 8601, auth/iso8601.go:9-21 *)

(** fmt's %02d for a non-negative number. *)
Definition two_digits (n : Z) : string :=
  let s := pretty (Z.to_N n) in
  if Nat.leb 2 (String.length s) then s else "0" ++ s.
(** [tstr] is the date and time of day; the zone offset is in seconds. *)
Definition iso8601 (tstr : string) (offset : Z) : string :=
  if (offset =? 0)%Z then tstr ++ "Z"
  else if (offset <? 0)%Z then
    tstr ++ "-" ++ two_digits (Z.quot (- offset) 3600)
                ++ two_digits (Z.quot (Z.rem (- offset) 3600) 60)
  else
    tstr ++ "+" ++ two_digits (Z.quot offset 3600)
                ++ two_digits (Z.quot (Z.rem offset 3600) 60).
