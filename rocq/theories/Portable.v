(** What all three serializers carry, and can hand on to each other. *)
From Verif Require Import Prelude Value Msg Types BaseSpec WireSpec MsgSpec PathMatchSpec JsonSpec JsonSafe BinarySpec Broker Dealer Session Network Connection.

Local Open Scope string_scope.
Local Open Scope N_scope.

(** Strings in UTF-8, integers up to 2^53 that MessagePack does not write as
    int16, finite float64s; no float32, no byte strings. *)
Definition portable_string (s : string) : Prop := text s /\ shorter (2 ^ 32) s.
Inductive portable : value -> Prop :=
| po_nil : portable VNil
| po_bool b : portable (VBool b)
| po_int k z : (Z.abs z <= 2 ^ 53)%Z -> not_int16 k z -> portable (VInt k z)
| po_float f : float64 f -> portable (VF64 f)
| po_str s : portable_string s -> portable (VStr s)
| po_method s : portable_string s -> portable (VMethod s)
| po_slice l : Forall portable (default [] l) -> portable (VSlice l)
| po_map m : Forall (fun kv => portable_string (fst kv) /\ portable (snd kv)) (default [] m) ->
    NoDup (map fst (default [] m)) -> portable (VMap m)
| po_strs l : Forall portable_string (default [] l) -> portable (VStrs l).
(** Within the limits of CBOR. *)
Definition fits_all (v : value) : Prop := portable v /\ widest v <= 131072 /\ nesting v <= 31.

Definition portable_field (f : fld) : Prop :=
  match f with
  | FId n => n <= 2 ^ 53
  | FStr s => portable_string s
  | FDict m | FKwArgs m => fits_all (VMap m)
  | FArgs a => fits_all (VSlice a)
  end.
(** Messages after the handshake. *)
Definition portable_message (m : message) : Prop :=
  match m with
  | MHello _ | MAuthenticate _ | MAbort _ => False
  | _ => Forall portable_field (msg_fields m)
  end.
(** The router discloses authid and authrole. *)
Definition portable_event (e : nevent) : Prop :=
  match e with
  | NSend _ m => portable_message m
  | NJoin d => se_id d <= 2 ^ 53 /\ portable_string (se_authid d) /\ portable_string (se_authrole d)
  | _ => True
  end.
(** The three of them. *)
Definition serializer (ser : Z) : Prop := ser = SerializerJson \/ ser = SerializerMsgpack \/ ser = SerializerCbor.

(** What one serializer carries. *)
Definition fits_serializer (ser : Z) (m : message) : Prop :=
  (ser = SerializerJson -> message_fits_json m) /\ (ser = SerializerMsgpack -> message_fits_msgpack m)
  /\ (ser = SerializerCbor -> message_fits_cbor m).
Definition fits_event (sers : N -> Z) (e : nevent) : Prop :=
  match e with NSend c m => fits_serializer (sers c) m | _ => True end.

(** A message handed on over connections with these serializers: written and
    read on each, in whatever order the maps are walked. *)
Inductive handed_on {PL : Platform} : list Z -> message -> message -> Prop :=
| ho_end m : handed_on [] m m
| ho_hop ser sers m t m1 m2 sh sh1 sh2 :
    serialize_as ser sh m = Ok t -> deserialize_as ser sh1 sh2 t = Ok m1 ->
    handed_on sers m1 m2 -> handed_on (ser :: sers) m m2.
