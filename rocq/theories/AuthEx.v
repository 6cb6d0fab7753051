(** A transparent instance of the cryptographic primitives, for examples only. *)
From Coq Require Import Ascii.
From Verif Require Import Prelude Value Msg Types Encoding Auth Acceptor Joiner.

Local Open Scope string_scope.
Local Open Scope N_scope.

Lemma pad_key_length n k : String.length (pad_key n k) = n.
Proof. revert k. induction n as [|n IH]; [done|]. intros [|c k]; cbn; by rewrite IH. Qed.

Definition toy : Crypto := {|
  hmac_sha256 key m := key ++ "/" ++ m;
  pbkdf2_sha256 pw salt it len := salt ++ "+" ++ pw;
  kdf_max := 1024%Z;
  ed_public seed := pad_key 32 seed;
  ed_sign seed m := pad_key 64 (pad_key 32 seed ++ m);
  ed_verify pub m sig := String.eqb sig (pad_key 64 (pub ++ m));
  kdf_max_ok := ltac:(lia);
  ed_public_length seed := pad_key_length 32 seed;
  ed_sign_length seed m := pad_key_length 64 _;
  ed_verify_sign seed m _ := String.eqb_refl _
|}.

Definition toy_seed : string := "0123456789abcdef0123456789abcdef".
Definition toy_pub : string := hex_encode toy_seed.
Definition toy_rand : string := "................................".
Definition toy_cra : response := Response "alice" "user" (Some (Cra "secret" "salt" 100 16)).

(** An authenticator that knows one user for each method. *)
Definition toy_answer (rq : request) : answer :=
  match rq_kind rq with
  | RTicket t => if String.eqb t "open sesame" then Approve (Response "alice" "user" None) else Refuse "no"
  | RCryptoSign pk => if String.eqb pk toy_pub then Approve (Response "alice" "admin" None) else Refuse "no"
  | RBase => if String.eqb (rq_method rq) "wampcra" then Approve toy_cra
             else if String.eqb (rq_method rq) "anonymous" then Approve (Response "nobody" "guest" None)
             else Refuse "no"
  end.
Definition toy_env : aenv :=
  AEnv ["anonymous"; "ticket"; "wampcra"; "cryptosign"] toy_answer 77 5 (Some "sixteen bytes...") "2026-11-16T00:00:00.000Z"
    (Some toy_rand).
Definition toy_hello (ms : list string) : hello :=
  Hello "realm1" "alice" (Some ms) (Some [("pubkey", VStr toy_pub)]) client_roles.

(** The kinds of the messages the acceptor made, first to last. *)
Inductive made : Type := Aborted | Challenged (method : string) | Welcomed (authid : string) | Failed | Other.
Definition made_of (e : aevent) : list made :=
  match e with
  | AMade (Ok (MAbort _)) => [Aborted]
  | AMade (Ok (MChallenge c)) => [Challenged (ch_method c)]
  | AMade (Ok (MWelcome w)) => [Welcomed (to_string (mget (we_details w) "authid"))]
  | AMade (Ok _) => [Other]
  | AMade (Err _) | AMade (Panic _) => [Failed]
  | _ => []
  end.
Definition toy_run (ms : list message) : list made :=
  match acceptor_run (CR := toy) (map (fun m => (toy_env, m)) ms) (new_acceptor false, []) with
  | Ret (_, tr) _ => rev (flat_map made_of tr)
  | Crash _ => []
  end.
Definition auth_msg (sig : string) : message := MAuthenticate (Authenticate sig None).
