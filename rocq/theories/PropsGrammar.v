(** Properties C122-C124: JSON texts, as RFC 8259 defines them. *)
From Coq Require Import Ascii QArith.
From Verif Require Import Prelude Value Msg PathMatchSpec AuthSpec JsonSpec Json JsonGrammar JsonNumber JsonRead JsonTree JsonWrite.

Local Open Scope string_scope.
Local Open Scope list_scope.
Local Open Scope N_scope.

(** ** C122: what is read. *)
(** Nothing but JSON is read, and nothing is read as anything else. *)
Theorem C122_sound : forall s l, json_unmarshal s = Ok l ->
  exists t, json true s t /\ depth t <= 10000
    /\ match l with None => t = JNull | Some vs => means t (VSlice (Some vs)) end.
Proof. exact unmarshal_sound. Qed.
(** All of JSON is read. *)
Theorem C122_complete : forall s t, json true s t -> depth t <= 10000 -> in_range t ->
  match t with
  | JNull => json_unmarshal s = Ok None
  | JList _ => exists vs, json_unmarshal s = Ok (Some vs) /\ means t (VSlice (Some vs))
  | _ => exists e, json_unmarshal s = Err e
  end.
Proof. exact unmarshal_complete. Qed.
(** White space, a pair of surrogates, an exponent, a repeated key. *)
Definition a_text : string := " [ ""\uD83d\uDE00\/"",{ ""k"" :-1.50e1, ""k"":[ ] } ]".
Definition a_tree : tree :=
  JList [JString (utf8 128512 ++ "/")%string; JDict [("k", JNumber true 150 (-1)); ("k", JList [])]].
Example C122_ex : json true a_text a_tree /\ depth a_tree = 3 /\ in_range a_tree
  /\ json_unmarshal a_text = Ok (Some [VStr (utf8 128512 ++ "/")%string; VMap (Some [("k", VSlice (Some []))])]).
Proof.
  assert (S : space "" /\ space " ") by (split; repeat constructor).
  destruct S as [S0 S1].
  assert (K : jstring true """k""" "k").
  { exists "k". split; [done|]. exact (jc_plain true 107 "" "" ltac:(unfold scalar; lia) ltac:(lia) ltac:(lia) ltac:(lia) (jc_end true)). }
  split; [|split; [reflexivity|split; [|vm_compute; reflexivity]]].
  - exists " ", "[ ""\uD83d\uDE00\/"",{ ""k"" :-1.50e1, ""k"":[ ] } ]", "". split; [done|]. split; [done|]. split; [done|].
    apply (jv_list true [" ""\uD83d\uDE00\/"""; "{ ""k"" :-1.50e1, ""k"":[ ] } "]); [done|]. constructor; [|constructor; [|constructor]].
    + exists " ", """\uD83d\uDE00\/""", "". split; [done|]. split; [done|]. split; [done|]. constructor.
      exists "\uD83d\uDE00\/". split; [done|].
      apply (jc_pair true "D83d" 55357 "DE00" 56832 "\/" "/").
      * exact (hex4_digits "D" "8" "3" "d" 13 8 3 13 eq_refl eq_refl eq_refl eq_refl).
      * exact (hex4_digits "D" "E" "0" "0" 13 14 0 0 eq_refl eq_refl eq_refl eq_refl).
      * unfold high. lia.
      * unfold low. lia.
      * exact (jc_short true "/" "/" "" "" eq_refl (jc_end true)).
    + exists "", "{ ""k"" :-1.50e1, ""k"":[ ] }", " ". split; [done|]. split; [done|]. split; [done|].
      apply (jv_dict true [" ""k"" :-1.50e1"; " ""k"":[ ] "]); [done|]. constructor; [|constructor; [|constructor]].
      * exists " ", """k""", " ", "", "-1.50e1", "". do 6 (split; [done|]). constructor.
        apply (jn_number true "1" ".50" "50" "e1" 1); [by repeat constructor|done|done| |].
        -- apply jf_digits; [by repeat constructor|done].
        -- apply (je_plus "e" "" "1"); [left|left|by repeat constructor|done].
      * exists " ", """k""", "", "", "[ ]", " ". do 6 (split; [done|]). by apply (jv_empty true " ").
  - repeat constructor. all: vm_compute; reflexivity.
Qed.

(** ** C123: numbers are read as the nearest float64. *)
Theorem C123_numbers : forall s neg n x, jnumber s neg n x ->
  match json_unmarshal ("[" ++ s ++ "]") with
  | Ok l => exists f, l = Some [VF64 f] /\ stands_for (decimal neg n x) f
  | Err _ => ~ representable (decimal neg n x)
  | Panic _ => False
  end.
Proof. exact unmarshal_number. Qed.
(** 0.1; 2^53 + 1 is half way and goes to the even neighbour; 1e400 is refused. *)
Example C123_ex :
  json_unmarshal "[0.1]" = Ok (Some [VF64 (FFin 7205759403792794 (-56))])
  /\ json_unmarshal "[9007199254740993, 9007199254740995]"
     = Ok (Some [VF64 (FFin 9007199254740992 0); VF64 (FFin 9007199254740996 0)])
  /\ (exists e, json_unmarshal "[1e400]" = Err e).
Proof. split; [vm_compute; reflexivity|]. split; [vm_compute; reflexivity|]. eexists. vm_compute. reflexivity. Qed.

(** ** C124: what is written. *)
Theorem C124_written : forall l s, json_marshal l = Ok s ->
  exists ts, Forall2 written l ts /\ json false s (JList ts).
Proof. exact marshal_written. Qed.
Theorem C124_messages : forall m s, json_serialize m = Ok s ->
  exists ts, Forall2 written (marshal m) ts /\ json false s (JList ts).
Proof. intros m s. apply marshal_written. Qed.
Example C124_ex :
  json_marshal [VMap (Some [("<b>", VInt KInt (-9007199254740993)); ("a", VBytes "xy")]); VStr (String (octet 255) "")]
  = Ok "[{""\u003cb\u003e"":-9007199254740993,""a"":""eHk=""},""\ufffd""]".
Proof. vm_compute. reflexivity. Qed.

(** * Assumptions *)
Print Assumptions C122_sound.
Print Assumptions C122_complete.
Print Assumptions C123_numbers.
Print Assumptions C124_written.
Print Assumptions C124_messages.
