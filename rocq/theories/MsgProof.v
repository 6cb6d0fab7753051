(** The converse of acceptance, panics, dispatch, and the wire round trip. *)
From Verif Require Import Prelude Value Msg BaseSpec WireSpec MsgSpec BaseFacts MsgFacts MsgParse.

Section facts.
Context {PL : Platform}.

(** Slots that hold are validated: one lemma per slot kind. *)
Lemma slots_hold_cons_inv s ss v vs fs :
  slots_hold (s :: ss) (v :: vs) fs →
  exists f fs', fs = f :: fs' /\ slot_holds s v f /\ slots_hold ss vs fs'.
Proof. intros H. inversion H; subst. eauto. Qed.
Lemma slots_hold_absent_inv s ss fs :
  slots_hold (s :: ss) [] fs →
  exists f fs', fs = f :: fs' /\ slot_absent s f /\ slots_hold ss [] fs'.
Proof. intros H. inversion H; subst. eauto. Qed.
Lemma slots_hold_nil_inv vs fs : slots_hold [] vs fs → vs = [] /\ fs = [].
Proof. intros H. inversion H; subst. eauto. Qed.

Lemma to_message_complete sh l m : list_is_message l m → to_message sh l = Ok m.
Proof.
  intros (v & vs & lo & hi & ss & -> & Hin & Ht & [Hlo Hhi] & Hbin & Hs).
  apply reads_code in Ht; [|by destruct m]. cbn [to_message]. rewrite <- Ht. apply parse_ok.
  clear Ht.
  unfold wamp_table in Hin.
  destruct m; cbn [mtype] in Hin |- *;
  repeat (apply elem_of_cons in Hin as [Hin|Hin];
    [first [discriminate Hin | injection Hin as -> -> ->]|]);
  try (apply elem_of_nil in Hin; destruct Hin).
  all: apply Nat.leb_le in Hlo, Hhi.
  1: { destruct Hs as (v2 & d & -> & -> & Hd).
       exists (VSpec 2 3 [(1%nat, VkRealm); (2%nat, VkDetails)]),
         (set_details d (set_realm (he_realm m) empty_fields)).
       split; [reflexivity|]. split; [reflexivity|]. split; [reflexivity|].
       split; [reflexivity|].
       replace (build tHello _) with
         (match build_hello (set_details d (set_realm (he_realm m) empty_fields)) with
          | Ok h => Ok (MHello h) | Err e => Err e | Panic w => Panic w end) by reflexivity.
       rewrite (proj2 (build_hello_spec _ m)); [reflexivity|]. split; [reflexivity|exact Hd]. }
  all: destruct vs as [|v1 [|v2 [|v3 [|v4 [|v5 [|v6 [|v7 vs]]]]]]];
    cbn [length Nat.leb] in Hlo, Hhi; try discriminate Hlo; try discriminate Hhi; clear Hlo Hhi.
  all: destruct m; cbn [msg_fields msg_bin] in Hs, Hbin; cbn in Hs, Hbin.
  all: repeat match type of Hs with
    | slots_hold (_ :: _) (_ :: _) (_ :: _) =>
        apply slots_hold_cons_inv in Hs as (? & ? & Hf & Hh & Hs);
        injection Hf as <- <-; cbn [slot_holds] in Hh;
        lazymatch type of Hh with reads_id _ _ => apply reads_id_iff in Hh as [Hn ->]; revert Hn | _ => subst end
    | slots_hold (_ :: _) [] _ =>
        apply slots_hold_absent_inv in Hs as (? & ? & Hf & Hh & Hs);
        injection Hf as <- <-; destruct Hh as [[Ha Hb]|[Ha Hb]];
        first [discriminate Ha | discriminate Hb | injection Hb as ->]; clear Ha
    end.
  all: clear Hs; intros; subst.
  all: do 2 eexists; split; [reflexivity|]; split; [reflexivity|]; split; [reflexivity|].
  all: cbn [vs_spec run_all run_validator length Nat.leb];
    unfold validate_id, validate_string, validate_map, validate_slice;
    cbn [lookup list_lookup].
  all: repeat match goal with
    | H : is_number ?x = true |- _ => rewrite (as_uint64_is_number x), H; clear H
    end.
  all: cbn [setf].
  all: split; [reflexivity|].
  all: reflexivity.
Qed.

Lemma to_message_iff sh l m : to_message sh l = Ok m ↔ list_is_message l m.
Proof. split; [apply to_message_accepts|apply to_message_complete]. Qed.

(** * Panics *)

Definition mandatory (k : vkind) : bool :=
  match k with VkArgs | VkKwArgs => false | _ => true end.

Lemma run_validator_panics k msg i f w :
  run_validator k msg i f = Panic w → mandatory k = true /\ (length msg <= i)%nat.
Proof.
  rewrite <- lookup_ge_None.
  destruct k; cbn [run_validator mandatory]; unfold setf, validate_id, validate_string, validate_slice, validate_map.
  all: destruct (msg !! i) eqn:E; cbn; intros H; repeat case_match; try discriminate; try done.
  all: apply lookup_ge_None in E; destruct (Nat.leb_spec (length msg) i); [discriminate|lia].
Qed.

Lemma run_validator_panics_iff k msg i f :
  (exists w, run_validator k msg i f = Panic w) ↔ mandatory k = true /\ (length msg <= i)%nat.
Proof.
  split; [intros [w H]; by eapply run_validator_panics|].
  rewrite <- lookup_ge_None. intros [Hk Hm]. exists "index out of range"%string.
  destruct k; cbn in Hk; try discriminate Hk; cbn [run_validator];
    unfold setf, validate_id, validate_string, validate_slice, validate_map; by rewrite Hm.
Qed.

Lemma run_spec_panics sp msg f b :
  (exists w, run_spec sp msg f b = Panic w) ↔
  exists i k, (i, k) ∈ sp /\ mandatory k = true /\ (length msg <= i)%nat.
Proof.
  revert f b. induction sp as [|[i k] sp IH]; intros f b; cbn.
  - split; [intros [w H]; discriminate H|intros (i & k & H & _)]. by apply elem_of_nil in H.
  - destruct (run_validator k msg i f) as [f'|e|w] eqn:E.
    1,2: rewrite IH; setoid_rewrite elem_of_cons; split;
      [intros (i' & k' & H & H2); exists i', k'; auto
      |intros (i' & k' & [Hik|H] & H2); [|exists i', k'; auto]];
      injection Hik as -> ->;
      apply (run_validator_panics_iff k msg i f) in H2 as [w H2]; congruence.
    split; [|eauto]. intros _. exists i, k. split; [by left|]. by eapply run_validator_panics.
Qed.

Lemma build_no_panic t f w : build t f ≠ Panic w.
Proof.
  unfold build. destruct (t =? tHello).
  - unfold build_hello. destruct (anys_to_strings _) eqn:E; try congruence.
    by apply anys_to_strings_no_panic in E.
  - repeat match goal with |- context [if ?c then _ else _] => destruct c; [discriminate|] end. discriminate.
Qed.

Lemma parse_panics sh t msg :
  (exists w, parse sh t msg = Panic w) ↔ (t = 1 \/ t = 5) /\ length msg = 2%nat.
Proof.
  rewrite parse_order. unfold parse, validate_message. cbn [shuf sh_fun sh_id].
  destruct (spec_of t) as [sp|] eqn:Hsp.
  - assert (Hmand : (exists i k, (i, k) ∈ vs_spec sp /\ mandatory k = true /\ (length msg <= i)%nat)
        /\ (vs_min sp <= length msg <= vs_max sp)%nat ↔ (t = 1 \/ t = 5) /\ length msg = 2%nat).
    { revert Hsp. unfold spec_of.
      repeat match goal with
      | |- context [t =? ?b] => destruct (N.eqb_spec t b) as [->|]
      end; intros Hsp; [..|discriminate Hsp]; injection Hsp as <-; cbn [vs_spec vs_min vs_max].
      all: split;
        [intros [(i & k & Hin & Hk & Hl) Hm]; 
         repeat (apply elem_of_cons in Hin as [Hin|Hin];
           [injection Hin as -> ->; cbn in Hk;
            first [discriminate Hk | exfalso; clear -Hl Hm; lia
                  | split; [first [left; reflexivity|right; reflexivity]|clear -Hl Hm; lia]]|]);
         apply elem_of_nil in Hin; destruct Hin
        |intros [[Ht|Ht] Hl]; try discriminate Ht].
      all: split; [|lia]; exists 2%nat; eexists; split; [right; left|]; split; [reflexivity|lia]. }
    rewrite <- Hmand, <- (run_spec_panics _ _ empty_fields false). clear Hmand Hsp.
    destruct (Nat.ltb_spec (length msg) (vs_min sp)).
    { split; [intros [w H']; discriminate H'|intros [_ ?]; lia]. }
    destruct (Nat.ltb_spec (vs_max sp) (length msg)) as [Hgt|].
    { split; [intros [w H']; discriminate H'|].
      intros [_ ?]; lia. }
    destruct (run_spec _ _ _ _) as [[f []]|e|w].
    + split; [intros [w H']; discriminate H'|intros [[w H'] _]; discriminate H'].
    + split; [intros [w H']; by apply build_no_panic in H'|intros [[w H'] _]; discriminate H'].
    + split; [intros [w H']; discriminate H'|intros [[w H'] _]; discriminate H'].
    + split; eauto 6.
  - split; [intros [w H']; discriminate H'|].
    intros [[-> | ->] _]; discriminate Hsp.
Qed.

Lemma to_message_panics sh l :
  (exists w, to_message sh l = Panic w) ↔
  l = [] \/ exists v v1, l = [v; v1] /\ (fst (as_uint64 v) = 1 \/ fst (as_uint64 v) = 5).
Proof.
  destruct l as [|v vs]; cbn [to_message].
  - split; [auto|eauto].
  - rewrite parse_panics. split.
    + intros [Ht Hl]. destruct vs as [|v1 [|]]; cbn in Hl; try discriminate Hl. right. eauto.
    + intros [Hx|(v0 & v1 & Hx & Ht)]; [discriminate Hx|]. injection Hx as -> ->. auto.
Qed.

End facts.
