(** Exact acceptance (C08), panics (C09), dispatch (C07). *)
From Verif Require Import Prelude Value Msg BaseSpec WireSpec MsgSpec BaseFacts MsgFacts.

Section facts.
Context {PL : Platform}.

Lemma anys_to_strings_spec l ms : anys_to_strings l = Ok ms ↔ l = map VStr ms.
Proof.
  revert ms. induction l as [|v l IH]; intros ms; cbn.
  - destruct ms; cbn; naive_solver.
  - destruct v; try (destruct ms; cbn; naive_solver).
    destruct (anys_to_strings l) as [r| |] eqn:E; destruct ms as [|m ms]; cbn; split; intros H; try done.
    + injection H as -> <-. f_equal. by apply IH.
    + injection H as -> Hl. f_equal. f_equal. apply IH in Hl. congruence.
    + injection H as -> Hl. apply IH in Hl. congruence.
    + injection H as -> Hl. apply IH in Hl. congruence.
Qed.

Lemma anys_to_strings_no_panic l w : anys_to_strings l ≠ Panic w.
Proof.
  induction l as [|v l IH]; cbn; [done|]. destruct v; try done.
  destruct (anys_to_strings l); congruence.
Qed.

Lemma build_hello_spec f h :
  build_hello f = Ok h ↔ he_realm h = f_realm f /\ hello_details (f_details f) h.
Proof.
  unfold build_hello, hello_details, to_string, as_string. split.
  - destruct (anys_to_strings _) as [ms| |] eqn:E; [|done..]. intros [=<-]. cbn.
    split; [done|]. split; [by destruct (mget (f_details f) "authid")|].
    split; [done|]. split; [done|]. exists ms. split; [done|].
    destruct (mget (f_details f) "authmethods") as [| | | | | | |[l|]| | |];
      try (cbn in E; congruence). by apply anys_to_strings_spec.
  - destruct h as [r a ms e ro]; cbn. intros (-> & -> & -> & -> & ms' & -> & H).
    assert (anys_to_strings match mget (f_details f) "authmethods" with
              | VSlice (Some l) => l | _ => [] end = Ok ms') as ->.
    { destruct (mget (f_details f) "authmethods") as [| | | | | | |[l|]| | |]; try by subst.
      by apply anys_to_strings_spec. }
    by destruct (mget (f_details f) "authid").
Qed.

Lemma validate_id_cases msg i v : msg !! i = Some v →
  (is_number v = true /\ validate_id msg i = Ok (fst (as_uint64 v)))
  \/ (is_number v = false /\ validate_id msg i = Err "must be uint64").
Proof. intros H. rewrite (validate_id_at _ _ _ H). destruct (is_number v); auto. Qed.

End facts.


(** Validation that stops at the first failure. *)
Fixpoint run_all {PL : Platform} (sp : list (nat * vkind)) (msg : list value) (f : fields)
  : option fields :=
  match sp with
  | [] => Some f
  | (i, k) :: sp' =>
      match run_validator k msg i f with Ok f' => run_all sp' msg f' | _ => None end
  end.

Section accept.
Context {PL : Platform}.

Lemma run_spec_true sp msg f f' : run_spec sp msg f true ≠ Ok (f', false).
Proof.
  revert f. induction sp as [|[i k] sp IH]; intros f; cbn; [congruence|].
  destruct (run_validator k msg i f); [apply IH|apply IH|done].
Qed.

Lemma run_spec_all sp msg f f' :
  run_spec sp msg f false = Ok (f', false) ↔ run_all sp msg f = Some f'.
Proof.
  revert f. induction sp as [|[i k] sp IH]; intros f; cbn; [naive_solver|].
  destruct (run_validator k msg i f); [apply IH| |done].
  split; [|done]. intros H. by apply run_spec_true in H.
Qed.

Lemma parse_ok sh t msg m :
  parse sh t msg = Ok m ↔
  exists sp f, spec_of t = Some sp /\ (vs_min sp <=? length msg)%nat = true /\ (length msg <=? vs_max sp)%nat = true
    /\ run_all (vs_spec sp) msg empty_fields = Some f /\ build t f = Ok m.
Proof.
  rewrite parse_order. unfold parse, validate_message. cbn [shuf sh_fun sh_id].
  split.
  - destruct (spec_of t) as [sp|]; [|done].
    destruct (Nat.ltb_spec (length msg) (vs_min sp)); [done|].
    destruct (Nat.ltb_spec (vs_max sp) (length msg)); [done|].
    destruct (run_spec _ _ _ _) as [[f []]| |] eqn:E; try done.
    apply run_spec_all in E. intros Hb. exists sp, f. repeat split; try done; by apply Nat.leb_le.
  - intros (sp & f & -> & Hl%Nat.leb_le & Hl2%Nat.leb_le & Hr & Hb). apply run_spec_all in Hr. rewrite Hr.
    destruct (Nat.ltb_spec (length msg) (vs_min sp)); [lia|].
    by destruct (Nat.ltb_spec (vs_max sp) (length msg)); [lia|].
Qed.

Lemma to_message_accepts sh l m : to_message sh l = Ok m → list_is_message l m.
Proof.
  destruct l as [|v vs]; [done|]. cbn [to_message].
  remember (fst (as_uint64 v)) as t eqn:Ht.
  rewrite parse_ok. intros (sp & f & Hsp & Hlen & Hlen2 & Hrun & Hb). revert Hsp Hb. unfold spec_of, build.
  repeat match goal with
  | |- context [t =? ?b] => destruct (N.eqb_spec t b) as [->|]; [|]
  end; intros Hsp Hb; [..|discriminate Hsp].
  all: injection Hsp as <-; cbn [vs_min vs_max vs_spec] in Hlen, Hlen2, Hrun.
  all: repeat match goal with H : _ ≠ _ |- _ => clear H end.
  all: destruct vs as [|v1 [|v2 [|v3 [|v4 [|v5 [|v6 [|v7 vs]]]]]]];
    cbn [length Nat.leb] in Hlen, Hlen2; try discriminate Hlen; try discriminate Hlen2;
    clear Hlen Hlen2.
  all: cbn [run_all run_validator length Nat.leb] in Hrun;
    unfold validate_id, validate_string, validate_map, validate_slice in Hrun;
    cbn [lookup list_lookup] in Hrun.
  all: repeat match type of Hrun with
    | context [setf (let (n, ok) := as_uint64 ?x in _)] =>
        rewrite (as_uint64_is_number x) in Hrun; destruct (is_number x) eqn:?;
        cbn [setf] in Hrun; [|discriminate Hrun]
    | context [setf (match ?x with _ => _ end)] =>
        is_var x; destruct x; cbn [setf] in Hrun; try discriminate Hrun
    end.
  all: try discriminate Hrun.
  all: injection Hrun as <-.
  all: match type of Hb with
    | match build_hello _ with _ => _ end = _ => idtac
    | _ => injection Hb as <-
    end.
  1: { destruct (build_hello _) as [h| |] eqn:Hh; [|discriminate Hb..].
       injection Hb as <-. apply build_hello_spec in Hh as [Hr Hd].
       exists v, [VStr s; VMap m0], 2%nat, 3%nat, [SStr; SDict].
       split; [reflexivity|]. split; [apply elem_of_list_here|].
       split; [apply reads_code; [discriminate|exact Ht]|]. split; [split; apply Nat.leb_le; reflexivity|].
       split; [reflexivity|]. cbn in Hr, Hd. rewrite Hr. eauto. }
  all: do 5 eexists; split; [reflexivity|]; split;
    [cbn [mtype]; repeat first [apply elem_of_list_here | apply elem_of_list_further]|];
    split; [apply reads_code; [discriminate|exact Ht]|]; split; [split; apply Nat.leb_le; reflexivity|]; split; [reflexivity|].
  all: cbn [msg_fields].
  all: repeat first [apply sh_nil | apply sh_cons; [first [reflexivity | apply reads_id_iff; split; [assumption|reflexivity]]|]
                    | apply sh_absent; [first [left; split; reflexivity | right; split; reflexivity]|]].
Qed.
End accept.
