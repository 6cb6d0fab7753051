(** /repo/serializers/payload.go and the payload helpers of cbor.go.
    The third-party codecs are a parameter: encode/decode of a value list. *)
From Verif Require Import Prelude Value.

(** A codec: Marshal of an []any and Unmarshal into an []any. *)
Record codec : Type := Codec {
  cd_marshal : list value -> res string;
  cd_unmarshal : string -> res goslice }.

(** decode, payload.go:11-34.  A nil or empty array yields nil args and kwargs. *)
Definition decode (arr : goslice) : res (goslice * gomap) :=
  match arr with
  | None | Some [] => Ok (None, None)
  | Some [a] =>
      match a with VSlice l => Ok (l, None) | _ => Err "args element is not []any" end
  | Some [a; k] =>
      match a with
      | VSlice l =>
          match k with
          | VMap m => Ok (l, m)
          | _ => Err "kwargs element is not map[string]any"
          end
      | _ => Err "args element is not []any"
      end
  | Some _ => Err "too many args to decode"
  end.

Definition slice_len (a : goslice) : nat := match a with None => 0 | Some l => length l end.
Definition map_len (m : gomap) : nat := match m with None => 0 | Some l => length l end.

(** prepareForEncode, payload.go:36-55; the result is empty when both are. *)
Definition prepare_for_encode (args : goslice) (kwargs : gomap) : list value :=
  (if (slice_len args =? 0)%nat then [] else [VSlice args]) ++
  (if (map_len kwargs =? 0)%nat then []
   else (if (slice_len args =? 0)%nat then [VSlice (Some [])] else []) ++ [VMap kwargs]).

(** CBOREncodePayload, MsgPackEncodePayload, JSONEncodePayload,
    payload.go:57-64, 75-82, 93-100: nil bytes (the empty string) for an empty
    payload. *)
Definition encode_payload (c : codec) (args : goslice) (kwargs : gomap) : res string :=
  let data := prepare_for_encode args kwargs in
  if (length data =? 0)%nat then Ok "" else cd_marshal c data.

(** CBORDecodePayload, MsgPackDecodePayload, JSONDecodePayload,
    payload.go:66-73, 84-91, 102-109. *)
Definition decode_payload (c : codec) (b : string) : res (goslice * gomap) :=
  match cd_unmarshal c b with
  | Ok arr => decode arr
  | Err e => Err e
  | Panic w => Panic w
  end.

(** The three codecs behind the serializer ids: serializer.go:5, json.go:9,
    msgpack.go:9, cbor.go:12. *)
Record codecs : Type := Codecs { c_json : codec; c_msgpack : codec; c_cbor : codec }.
Definition NoneSerializerID : N := 0.
Definition JSONSerializerID : N := 1.
Definition MsgPackSerializerID : N := 2.
Definition CBORSerializerID : N := 3.

(** DeserializePayload, payload.go:111-124. *)
Definition deserialize_payload (cs : codecs) (id : N) (b : string) : res (goslice * gomap) :=
  if id =? NoneSerializerID then Ok (Some [VBytes b], Some [])
  else if id =? JSONSerializerID then decode_payload (c_json cs) b
  else if id =? CBORSerializerID then decode_payload (c_cbor cs) b
  else if id =? MsgPackSerializerID then decode_payload (c_msgpack cs) b
  else Err "serializer not recognized".

(** SerializePayload, payload.go:126-152. *)
Definition serialize_payload (cs : codecs) (id : N) (args : goslice) (kwargs : gomap)
  : res string :=
  if id =? NoneSerializerID then
    if (slice_len args =? 0)%nat && (map_len kwargs =? 0)%nat then Ok ""
    else if negb (slice_len args =? 1)%nat || negb (map_len kwargs =? 0)%nat
         then Err "requires exactly 1 arg"
    else match args with
         | Some (VBytes b :: _) => Ok b
         | _ => Err "requires []byte"
         end
  else if id =? JSONSerializerID then encode_payload (c_json cs) args kwargs
  else if id =? CBORSerializerID then encode_payload (c_cbor cs) args kwargs
  else if id =? MsgPackSerializerID then encode_payload (c_msgpack cs) args kwargs
  else Err "serializer not recognized".

(** EncodeCBOR, cbor.go:49-59. *)
Definition encode_cbor (c : codec) (args : goslice) (kwargs : gomap) : res string :=
  cd_marshal c [VSlice args; VMap kwargs].

(** DecodeCBOR, cbor.go:61-78: indexes payload[0] and payload[1] unchecked. *)
Definition decode_cbor (c : codec) (b : string) : res (goslice * gomap) :=
  match cd_unmarshal c b with
  | Err e => Err e
  | Panic w => Panic w
  | Ok arr =>
      match arr with
      | None | Some [] => Panic "index out of range"
      | Some (a :: rest) =>
          match a with
          | VSlice l =>
              match rest with
              | [] => Panic "index out of range"
              | VMap m :: _ => Ok (l, m)
              | _ :: _ => Err "invalid kwargs type"
              end
          | _ => Err "invalid args type"
          end
      end
  end.
