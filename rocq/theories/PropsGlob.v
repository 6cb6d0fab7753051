(** Property C77: wildcardMatch and the glob language. *)
From Coq Require Import Ascii.
From Verif Require Import Prelude PathMatch PathMatchSpec PathMatchMain.

Local Open Scope string_scope.
Local Open Scope N_scope.

(** ** C77: false for two kinds of pattern.  A star is only ever tried at the
    first place where the next chunk fits, and it may stop inside a UTF-8
    character. *)
Theorem C77_slash_in_class_refuted : exists name p ts,
  glob p ts /\ denotes whole_char ts name /\ wildcard_match name p = false.
Proof. eexists _, _, _. exact slash_class_missed. Qed.
Theorem C77_half_character_refuted : exists r p ts,
  scalar r /\ glob p ts /\ ~ denotes whole_char ts (utf8 r) /\ wildcard_match (utf8 r) p = true.
Proof. exists 8364. eexists _, _. split; [unfold scalar; lia|exact half_euro_matched]. Qed.
(** What matches is in the language, a stray byte counting as a character. *)
Theorem C77_sound_partial : forall name p, wildcard_match name p = true ->
  exists ts, glob p ts /\ denotes any_char ts name.
Proof. exact wildcard_sound. Qed.
(** What is in the language matches, for any bytes, unless a class between two
    stars contains the slash. *)
Theorem C77_complete_partial : forall name p ts, glob p ts -> classes_avoid_slash ts ->
  denotes whole_char ts name -> wildcard_match name p = true.
Proof. exact wildcard_complete. Qed.
(** Exact for ASCII names, and for patterns of literals and stars. *)
Theorem C77_ascii_exact_partial : forall name p ts, glob p ts -> classes_avoid_slash ts -> all_ascii name ->
  (wildcard_match name p = true <-> denotes whole_char ts name).
Proof. exact ascii_exact. Qed.
Theorem C77_literals_exact_partial : forall name p ts, glob p ts -> only_literals ts ->
  (wildcard_match name p = true <-> denotes whole_char ts name).
Proof. exact literals_exact. Qed.
(** A malformed pattern matches nothing; malformed means exactly ErrBadPattern. *)
Theorem C77_malformed : forall name p, (forall ts, ~ glob p ts) -> wildcard_match name p = false.
Proof. exact malformed_matches_nothing. Qed.
Theorem C77_bad_pattern : forall name p,
  path_match (S (String.length p)) p name = None <-> (forall ts, ~ glob p ts).
Proof.
  intros name p. pose proof (well_formed_iff name p) as [H1 H2]. split.
  - intros E ts Hg. by apply H2; [exists ts|].
  - intros H. destruct (path_match _ p name) eqn:E; [|done]. destruct H1 as [ts Hg]; [done|]. by apply H in Hg.
Qed.
(** A pattern has one reading. *)
Theorem C77_unambiguous : forall p ts1 ts2, glob p ts1 -> glob p ts2 -> ts1 = ts2.
Proof. intros p ts1 ts2 H1 H2. exact (glob_det p ts1 H1 ts2 H2). Qed.
Example C77_ex :
  let ts := [TLit "c"; TLit "."; TStar; TLit "."; TAny; TClass false [(48, 57)]; TLit "*"] in
  glob "c.*.?[0-9]\*" ts /\ classes_avoid_slash ts /\ denotes whole_char ts "c.a.b.x7*"
  /\ wildcard_match "c.a.b.x7*" "c.*.?[0-9]\*" = true
  /\ wildcard_match "c.a.b.x7" "c.*.?[0-9]\*" = false
  /\ wildcard_match "c.x" "c.[x" = false.
Proof.
  split; [|split; [|split; [|repeat split; vm_compute; reflexivity]]].
  - repeat (constructor; try done). apply (g_class "0-9"); [|done|by intros (?&?)|repeat (constructor; try done)].
    apply (cb_range "0" 48 "9" 57 "" []); [apply (cc_plain 48)|apply (cc_plain 57)|constructor];
      try (by intros (?&?)); unfold scalar; lia.
  - intros pre neg l post E _ Hp. exfalso.
    destruct pre as [|t0 [|t1 [|t2 [|t3 [|t4 [|t5 [|t6 pre]]]]]]]; try discriminate E.
    + injection E as _ _ _ _ _ _ _ <-. destruct Hp as [Hp|[]]. discriminate Hp.
    + injection E as _ _ _ _ _ _ _ E. by destruct pre.
  - repeat constructor. apply (d_star whole_char "a.b"); [by repeat split|]. constructor.
    apply (d_any _ _ "x7*" 120 "7*"); [apply (wc 120); unfold scalar; lia|lia|].
    apply (d_class _ _ _ _ "7*" 55 "*"); [apply (wc 55); unfold scalar; lia|repeat constructor; lia|]. repeat constructor.
Qed.
Example C77_ex_literals : glob "com.*.log" [TLit "c"; TLit "o"; TLit "m"; TLit "."; TStar; TLit "."; TLit "l"; TLit "o"; TLit "g"]
  /\ wildcard_match "com.a.b.log" "com.*.log" = true /\ wildcard_match "com.a/b.log" "com.*.log" = false.
Proof. split; [repeat (constructor; try done)|split; vm_compute; reflexivity]. Qed.

(** * Assumptions *)
Print Assumptions C77_slash_in_class_refuted.
Print Assumptions C77_half_character_refuted.
Print Assumptions C77_sound_partial.
Print Assumptions C77_complete_partial.
Print Assumptions C77_ascii_exact_partial.
Print Assumptions C77_literals_exact_partial.
Print Assumptions C77_malformed.
Print Assumptions C77_bad_pattern.
Print Assumptions C77_unambiguous.
