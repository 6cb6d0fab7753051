(** Which values a JSON text can carry. *)
From Verif Require Import Prelude Value Msg BaseSpec WireSpec MsgSpec PathMatchSpec JsonSpec.

Local Open Scope string_scope.
Local Open Scope N_scope.

(** The finite float64 values. *)
Definition float64 (f : gofloat) : Prop :=
  exists m e, float_same f (FFin m e) /\ (Z.abs m < 2 ^ 53)%Z /\ (-1074 <= e <= 971)%Z.
(** The finite float32 values. *)
Definition float32 (f : gofloat) : Prop :=
  exists m e, float_same f (FFin m e) /\ (Z.abs m < 2 ^ 24)%Z /\ (-149 <= e <= 104)%Z.
(** Strings are UTF-8, integers are up to 2^53, no float32, no byte strings. *)
Inductive json_safe : value -> Prop :=
| js_nil : json_safe VNil
| js_bool b : json_safe (VBool b)
| js_int k z : (Z.abs z <= 2 ^ 53)%Z -> json_safe (VInt k z)
| js_float f : float64 f -> json_safe (VF64 f)
| js_str s : text s -> json_safe (VStr s)
| js_method s : text s -> json_safe (VMethod s)
| js_slice l : Forall json_safe (default [] l) -> json_safe (VSlice l)
| js_map m : Forall (fun kv => text (fst kv) /\ json_safe (snd kv)) (default [] m) -> json_safe (VMap m)
| js_strs l : Forall text (default [] l) -> json_safe (VStrs l).

(** How deep lists and dictionaries are nested in it. *)
Fixpoint nesting (v : value) : N :=
  match v with
  | VSlice (Some l) => 1 + foldr N.max 0 (map nesting l)
  | VMap (Some m) => 1 + foldr N.max 0 (map (fun kv => nesting (snd kv)) m)
  | VStrs (Some _) => 1
  | _ => 0
  end.

(** The same for the fields of a message; the list around them is one more
    level, and encoding/json reads 10000. *)
Definition fits_json (v : value) : Prop := json_safe v /\ nesting v < 10000.
Definition field_fits_json (f : fld) : Prop :=
  match f with
  | FId n => n <= 2 ^ 53
  | FStr s => text s
  | FDict m | FKwArgs m => fits_json (VMap m)
  | FArgs a => fits_json (VSlice a)
  end.
Definition message_fits_json (m : message) : Prop :=
  Forall field_fits_json (msg_fields m)
  /\ match m with
     | MHello h => text (he_authid h) /\ Forall text (default [] (he_authmethods h))
                   /\ json_safe (VMap (he_authextra h)) /\ nesting (VMap (he_authextra h)) < 9999
                   /\ json_safe (VMap (he_roles h)) /\ nesting (VMap (he_roles h)) < 9999
     | _ => True
     end.
