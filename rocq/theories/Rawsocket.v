(** /repo/transports/rawsocket.go.  Go ints are Z, bytes are Z in [0,256). *)
From Verif Require Import Prelude Value.

#[local] Open Scope Z_scope.

(** rawsocket.go:10-12. *)
Definition MAGIC : Z := 127.
Definition ProtocolMaxMsgSize : Z := 2 ^ 24.
Definition DefaultMaxMsgSize : Z := 2 ^ 20.

(** Handshake, rawsocket.go:26-29. *)
Record handshake := Handshake { hs_serializer : Z; hs_max : Z }.

Definition to_byte (z : Z) : Z := z mod 256.

Section platform.
Context {PL : Platform}.

(** [int(math.Log2(float64(n)))], rawsocket.go:51.  For positive [n] below
    2^53 math.Log2 is exact on powers of two and lies strictly between the
    neighbouring integers otherwise (it is computed from Frexp), so truncation
    gives floor(log2 n).  math.Log2(0) is -Inf and of a negative number NaN. *)
Definition int_log2 (n : Z) : Z :=
  if 0 <? n then Z.log2 n
  else if n =? 0 then f2i (FInf true)
  else f2i FNaN.

(** Go [1 << k] on a 64-bit int: a negative count panics, a large one gives 0
    (k = 63 gives the minimal int). *)
Definition go_shl1 (k : Z) : res Z :=
  if k <? 0 then Panic "negative shift amount"
  else if k <? 63 then Ok (2 ^ k)
  else if k =? 63 then Ok (- two63)
  else Ok 0.

(** SendHandshake, rawsocket.go:46-58. *)
Definition send_handshake (hs : handshake) : res (list Z) :=
  if ProtocolMaxMsgSize <? hs_max hs then Err "too large"
  else
    let log2 := int_log2 (hs_max hs) in
    match go_shl1 log2 with
    | Panic w => Panic w
    | Err e => Err e
    | Ok p =>
        if negb (p =? hs_max hs) || (log2 <? 9) then Err "not a power of 2 >= 512"
        else
          let b1 := to_byte (Z.lor (Z.shiftl (log2 - 9) 4) (Z.land (hs_serializer hs) 15)) in
          Ok [MAGIC; b1; 0; 0]
    end.
End platform.

(** ReceiveHandshake, rawsocket.go:60-76; [sizeShift] is a byte. *)
Definition receive_handshake (data : list Z) : res handshake :=
  match data with
  | [d0; d1; d2; d3] =>
      if negb (d0 =? MAGIC) then Err "expected MAGIC"
      else if negb (d2 =? 0) || negb (d3 =? 0) then Err "expected zeros"
      else
        let ser := Z.land d1 15 in
        let shift := to_byte (Z.shiftr d1 4 + 9) in
        Ok (Handshake ser (2 ^ shift))
  | _ => Err "expected 4 bytes"
  end.

(** MessageHeader, rawsocket.go:78-81. *)
Record header := Header { hd_kind : Z; hd_length : Z }.

(** IntToBytes, rawsocket.go:112-118. *)
Definition int_to_bytes (i : Z) : list Z :=
  [to_byte (Z.land (Z.shiftr i 16) 255); to_byte (Z.land (Z.shiftr i 8) 255);
   to_byte (Z.land i 255)].

(** Wrap-around of a 64-bit signed int. *)
Definition wrap_int (z : Z) : Z := (z + two63) mod two64 - two63.

(** BytesToInt, rawsocket.go:120-127. *)
Definition bytes_to_int (b : list Z) : Z :=
  fold_left (fun n v => Z.lor (wrap_int (Z.shiftl n 8)) v) b 0.

(** SendMessageHeader, rawsocket.go:98-106. *)
Definition send_header (h : header) : list Z := to_byte (hd_kind h) :: int_to_bytes (hd_length h).

(** ReceiveMessageHeader, rawsocket.go:108-110: indexing an empty slice panics. *)
Definition receive_header (data : list Z) : res header :=
  match data with
  | [] => Panic "index out of range"
  | k :: rest => Ok (Header k (bytes_to_int rest))
  end.
