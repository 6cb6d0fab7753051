(** A RawSocket connection after the handshake.  /repo has the headers
    (transports/rawsocket.go:78-127) and leaves reading and writing to its
    user; this is the loop those functions are made for: write a header and the
    payload behind it, read four bytes and then as many as they announce. *)
From Verif Require Import Prelude Value Rawsocket.

Notation frame := (Z * list Z)%type (only parsing).  (* kind and payload *)

(** SendMessageHeader(NewMessageHeader(kind, len(payload))) and the payload. *)
Definition write_frame (f : frame) : list Z :=
  send_header (Header (fst f) (Z.of_nat (length (snd f)))) ++ snd f.
Definition write_frames (fs : list frame) : list Z := concat (map write_frame fs).

(** The next frame in the bytes read so far, and the bytes after it; [None]
    while it is incomplete. *)
Definition read_frame (buf : list Z) : option (frame * list Z) :=
  if (length buf <? 4)%nat then None
  else
    match receive_header (take 4 buf) with
    | Ok h =>
        let body := drop 4 buf in
        if (Z.of_nat (length body) <? hd_length h)%Z then None
        else
          let n := Z.to_nat (hd_length h) in
          Some ((hd_kind h, take n body), drop n body)
    | _ => None
    end.

(** All complete frames; each has four bytes at least, which bounds the loop. *)
Fixpoint read_loop (fuel : nat) (buf : list Z) : list frame * list Z :=
  match fuel with
  | O => ([], buf)
  | S fuel' =>
      match read_frame buf with
      | None => ([], buf)
      | Some (f, rest) => let (fs, r) := read_loop fuel' rest in (f :: fs, r)
      end
  end.
Definition read_frames (buf : list Z) : list frame * list Z := read_loop (length buf) buf.

(** A connection: the frames handed over so far and the bytes kept; [chunk] is
    what one read on the connection returned. *)
Definition feed (s : list frame * list Z) (chunk : list Z) : list frame * list Z :=
  let (fs, r) := read_frames (snd s ++ chunk) in (fst s ++ fs, r).
Definition feed_all (chunks : list (list Z)) : list frame * list Z :=
  fold_left feed chunks ([], []).

(** What may be written: a kind is a byte, a length has 24 bits. *)
Definition writable (f : frame) : Prop :=
  (0 <= fst f < 256)%Z /\ (Z.of_nat (length (snd f)) < 2 ^ 24)%Z.
