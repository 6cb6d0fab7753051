(** Hostile bytes do what hostile messages do. *)
From Verif Require Import Prelude Value Msg IdGen Types PathMatch Broker Dealer Session Mutex Network Connection.
From Verif Require Import WireSpec MsgSpec Portable PortableFacts BrokerSpec DealerSpec NetworkSpec NetworkWire NetworkBytes MsgWire MsgProof WireFacts.
From Verif Require Import Json Binary BinaryGrammar NetworkFinal NetworkLocal NetworkWireProofs NetworkWireSim NetworkBytesIds NetworkBytesProofs.
From Verif Require Import BinaryExact BinaryExactLaws Hostile HostileFinal HostileBytes.
From Verif Require NetworkWireIds.

Local Open Scope string_scope.
Local Open Scope list_scope.
Local Open Scope N_scope.

(** * What is read is well-formed *)
Lemma value_no_dict D d s v : (forall t x, di_atom D t x -> x <> VMap None) -> stands D d s v -> v <> VMap None.
Proof. intros HD H. destruct H; [by eapply HD|done..]. Qed.
Lemma cbor_no_dict t x : di_atom cbor_dialect t x -> x <> VMap None.
Proof. cbn. destruct 1 as [? ? H| | | | |]; try done. by destruct H. Qed.
Lemma mp_no_dict t x : di_atom mp_dialect t x -> x <> VMap None.
Proof. cbn. destruct 1 as [? ? H|]; try done. by destruct H. Qed.
Lemma list_no_dict D d s l : (forall t x, di_atom D t x -> x <> VMap None) -> (forall t l, ~ di_atom D t (VSlice l)) ->
  stands D d s (VSlice (Some l)) -> Forall (fun v => v <> VMap None) l.
Proof.
  intros HD HA H. inversion H as [? ? ? Ha|? ? ? ? ? _ _ F|? ? ? ? ? ? _ _ F _| |]; subst; [by destruct (HA _ _ Ha)|..];
    (apply Forall_forall; intros x Hx; destruct (elem_of_list_lookup_1 _ _ Hx) as [i Hi];
     destruct (Forall2_lookup_r _ _ _ _ _ F Hi) as (u & _ & Hu); by eapply value_no_dict).
Qed.
Lemma read_lists {PL : Platform} ser sh sh' t m : deserialize_as ser sh sh' t = Ok m ->
  exists l, Forall (fun v => v <> VMap None) l /\ deserialize_decoded sh sh' l = Ok m.
Proof.
  unfold deserialize_as. destruct (ser =? SerializerJson)%Z; [|destruct (ser =? SerializerMsgpack)%Z; [|destruct (ser =? SerializerCbor)%Z; [|done]]].
  - unfold json_deserialize. destruct (json_unmarshal t) as [l| |] eqn:E; try done. destruct l as [l|]; [|by exists []].
    intros H. exists l. split; [|done]. eapply Forall_impl; [by eapply json_decoded|]. intros v Hv ->. inversion Hv.
  - intros (t1 & r & l & _ & H & _ & Hd)%mp_deserialize_only. exists l. split; [|done]. eapply list_no_dict; [apply mp_no_dict| |exact H].
    intros s l' Ha. inversion Ha as [? ? Hb|]; subst. inversion Hb.
  - unfold cbor_deserialize, bin_deserialize. destruct (bin_unmarshal cbor t) as [l| |] eqn:E; try done.
    apply cbor_unmarshal_sound in E. destruct l as [l|]; [|by exists []]. intros H. exists l. split; [|done].
    eapply list_no_dict; [apply cbor_no_dict| |exact E]. intros s l' Ha. inversion Ha as [? ? Hb| | | | |]; subst. inversion Hb.
Qed.
Lemma read_any {PL : Platform} ser sh sh' t m sh1 sh1' : deserialize_as ser sh sh' t = Ok m -> deserialize_as ser sh1 sh1' t = Ok m.
Proof.
  assert (forall l, deserialize_decoded sh sh' l = Ok m -> deserialize_decoded sh1 sh1' l = Ok m) as H.
  { intros l. rewrite !deserialize_is_to_message, !to_message_iff. done. }
  unfold deserialize_as. destruct (ser =? SerializerJson)%Z; [|destruct (ser =? SerializerMsgpack)%Z; [|destruct (ser =? SerializerCbor)%Z; [|done]]].
  - unfold json_deserialize. destruct (json_unmarshal t); try done. apply H.
  - unfold msgpack_deserialize, bin_deserialize. destruct (bin_unmarshal msgpack t); try done. apply H.
  - unfold cbor_deserialize, bin_deserialize. destruct (bin_unmarshal cbor t); try done. apply H.
Qed.
Lemma slots_dicts {PL : Platform} ss vs fs : slots_hold ss vs fs -> Forall (fun v => v <> VMap None) vs -> Forall (fun f => f <> FDict None) fs.
Proof.
  induction 1 as [|s ss v vs f fs H Hs IH|s ss f fs H Hs IH]; intros Hv; [done| |].
  - inversion Hv; subst. constructor; [|by apply IH]. intros ->. destruct s; cbn in H; try done.
  - constructor; [|by apply IH]. by destruct H as [[_ ->]|[_ ->]].
Qed.
Lemma read_ok {PL : Platform} ser sh sh' t m : deserialize_as ser sh sh' t = Ok m -> routed m -> portable_message m ->
  msg_ok m /\ msg_bin m = no_bin.
Proof.
  intros (l & Hl & H)%read_lists Hr Hp. split; [|by eapply read_plain].
  rewrite deserialize_is_to_message in H. apply to_message_iff in H as (v & vs & lo & hi & ss & -> & _ & _ & _ & _ & Hs).
  inversion Hl as [|? ? _ Hvs]; subst.
  assert (slots_hold ss vs (msg_fields m)) as Hs' by (destruct m; try done).
  pose proof (slots_dicts _ _ _ Hs' Hvs) as Hd.
  assert (Forall portable_field (msg_fields m)) as Hpf by (destruct m; try done).
  assert (Forall fld_ok (msg_fields m)) as Hf.
  { clear -Hd Hpf. induction Hpf as [|f fs Hf Hpf IH]; [constructor|]. inversion Hd; subst. constructor; [|by apply IH].
    destruct f; cbn in *; try done; [|by intros ->]. unfold two64. lia. }
  destruct m; try done.
Qed.

(** * One step *)
Section refine.
Context {PL : Platform} (sers : N -> Z) (Hsers : forall c, serializer (sers c)).
Notation xinv := (xinv sers).

Lemma not_routed o c m b d : ~ routed m -> answers o c m b d = Ret (b, d) [].
Proof. destruct m; cbn; try done; intros []; exact Logic.I. Qed.

Lemma posts_rel o c m n w b d outs ws : winv n w -> answers o c m (n_broker n) (n_dealer n) = Ret (b, d) outs ->
  NetworkWireIds.bok b -> NetworkWireIds.dok d -> Forall (fun a => msg_ok (fst a) /\ wireable (fst a)) outs -> sent_out outs (w_clients w) ws ->
  winv (handle o c m n) (WNet ws b d (w_read w) (w_rejected w) (w_unread w) (w_crashed w)).
Proof.
  intros [I1 I2 I3 I4 I5 I6 I7 I8] Ha Hb Hd Hoo Hso. pose proof (handle_answers o c m n) as Hh. rewrite Ha in Hh.
  destruct Hh as (n1 & (R1 & R2 & R3 & R4 & R5) & ->). destruct (nposts_spec outs n1) as (P1 & P2 & P3 & P4 & P5).
  split; cbn; rewrite ?P1, ?P2, ?P3, ?P4, ?R1, ?R2, ?R4, ?R5; try done.
  intros k. rewrite P5, R3. specialize (Hso k). specialize (I5 k).
  assert (forall ls, Forall2 carried (answers_for k outs) ls -> Forall2 downq (answers_for k outs) ls) as Hq.
  { clear -Hoo. unfold answers_for. induction Hoo as [|[a to] outs [Hok Hw] Hoo IH]; intros ls Hls; cbn in *.
    - inversion Hls. constructor.
    - destruct (to =? k); [|by apply IH]. cbn in Hls. apply Forall2_cons_inv_l in Hls as (v & ls' & Hv & Hls & ->). cbn.
      constructor; [|by apply IH]. exists a. split; [done|]. split; [done|]. split; [done|]. apply msg_like_refl. }
  destruct I5 as [cl wcl (Es & Hu & Hdn)|]; cbn.
  - destruct Hso as (ls & Hls & ->). constructor. split; [done|]. cbn. split; [done|]. apply Forall2_app; [done|]. by apply Hq.
  - rewrite Hso. constructor.
Qed.

Lemma sends_nil cs un cs' un' : sends sers [] cs un cs' un' -> cs' = cs /\ un' = un.
Proof. by inversion 1. Qed.

Lemma bytes_forge n x w o c t sh sh' m b d outs cs un : xinv x w -> winv n w -> is_Some (x_clients x !! c) ->
  deserialize_as (sers c) sh sh' t = Ok m -> (routed m -> portable_message m) ->
  answers o c m (x_broker x) (x_dealer x) = Ret (b, d) outs -> sends sers outs (x_clients x) (x_unsent x) cs un ->
  exists w', xinv (BNet cs b d (x_read x) (x_rejected x) (x_unread x) un (x_crashed x)) w' /\ winv (handle o c m n) w' /\ w_read w' = w_read w.
Proof.
  intros Hx Hw [cl Hcl] Hd Hp Ha Hs.
  assert (routed m \/ ~ routed m) as [Hr|Hr] by (destruct m; cbn; tauto).
  - specialize (Hp Hr). destruct (read_ok _ _ _ _ _ Hd Hr Hp) as [Hok Hbin]. pose proof (xi_low _ _ _ Hx _ _ Hcl) as Hlow.
    destruct Hx as [G1 G2 G3 G4 G5 G6 G7 G8 G9 G10 G11 G12 G13].
    destruct (answers_portable _ _ _ _ _ _ _ _ Ha Hp Hbin Hlow G10 G11 G12 G13) as (P1 & P2 & P3 & P4 & P5).
    destruct (NetworkWireIds.answers_ok o c m (x_broker x) (x_dealer x) b d outs Ha Hok) as (Hb' & Hd' & Ho).
    { rewrite G1, (wi_broker _ _ Hw). apply Hw. }
    { rewrite G2, (wi_dealer _ _ Hw). apply Hw. }
    assert (Forall (fun a => out_ok a /\ msg_ok (fst a)) outs) as Hall.
    { apply Forall_and. split; [done|]. eapply Forall_impl; [exact Ho|]. by intros ? []. }
    destruct (sends_refines sers Hsers _ _ _ _ _ Hs Hall _ G8) as (-> & ws' & Hso & Hcs & Hk).
    exists (WNet ws' b d (w_read w) (w_rejected w) (w_unread w) (w_crashed w)). split; [|split; [|done]].
    + split; cbn; try done. intros k cl' Hcl'. destruct (Hk k (ex_intro _ _ Hcl')) as [z Hz]. eauto.
    + eapply posts_rel; try done. by rewrite <- (wi_broker _ _ Hw), <- (wi_dealer _ _ Hw), <- G1, <- G2.
  - rewrite (not_routed _ _ _ _ _ Hr) in Ha. injection Ha as <- <- <-. apply sends_nil in Hs as [-> ->].
    exists w. assert (handle o c m n = n) as -> by (destruct m; try reflexivity; destruct Hr; exact Logic.I).
    split; [by destruct x|done].
Qed.

(** * Whole runs *)
Lemma xstep_crashed x e x' : xstep sers x e x' -> x_crashed x' = [] -> x_crashed x = [].
Proof.
  destruct 1; cbn; try done; unfold xcall_dealer, xcall_broker; repeat (case_match; cbn); done.
Qed.
Lemma ystep_crashed x y x' : ystep sers x y x' -> x_crashed x' = [] -> x_crashed x = [].
Proof. destruct 1; cbn; try done. by apply xstep_crashed with e. Qed.
Lemma yrun_crashed x ys x' : yrun sers x ys x' -> x_crashed x' = [] -> x_crashed x = [].
Proof. induction 1; [done|]. intros. eapply ystep_crashed; eauto. Qed.

Lemma hostile_run n x w ys x' : xinv x w -> winv n w -> Forall (fair sers) ys -> yrun sers x ys x' -> x_crashed x' = [] ->
  exists hs w' log, reading sers ys hs /\ xinv x' w' /\ winv (hrun n hs) w'
    /\ w_read w' = w_read w ++ log /\ forall c, Forall2 msg_like (hread c n hs) (read_by c log).
Proof.
  intros Hx Hw Hf Hr Hc. revert n w Hx Hw Hf. induction Hr as [x|x y ys x1 x2 Hs Hr IH]; intros n w Hx Hw Hf.
  { exists [], w, []. split; [constructor|]. split; [done|]. split; [done|]. split; [by rewrite app_nil_r|constructor]. }
  apply Forall_cons in Hf as [Hy Hf]. specialize (IH Hc).
  pose proof (yrun_crashed _ _ _ Hr Hc) as Hc1. destruct Hs.
  - destruct Hy as [[Ho Hp] _]. destruct (bytes_step sers Hsers n x w e x' Hx Hw Ho Hp H) as (w1 & Hs1 & Hx1).
    destruct (sim_step n w e w1 Hw Ho Hs1) as (Hw1 & log & Hlog & Hd).
    destruct (IH _ _ Hx1 Hw1 Hf) as (hs & w' & log' & Hrd & Hx' & Hw' & Hlog' & Hd').
    exists (HNet e :: hs), w', (log ++ log'). split; [by constructor|]. split; [done|]. split; [done|].
    split; [by rewrite Hlog', Hlog, app_assoc|]. intros c. cbn [hread hreads]. unfold read_by. rewrite omap_app.
    apply Forall2_app; [apply Hd|apply Hd'].
  - destruct (IH _ _ Hx Hw Hf) as (hs & w' & log' & Hrd & H'). destruct (deserialize_as (sers c) sh_id sh_id t) as [m| |] eqn:Ed.
    + exists (HForge o c m :: hs), w', log'. split; [by econstructor|]. cbn [hrun hread hreads]. 
      assert (hstep n (HForge o c m) = n) as ->; [|done].
      cbn. pose proof (xi_clients _ _ _ Hx c) as E1. pose proof (wi_clients _ _ Hw c) as E2.
      rewrite H in E1. inversion E1 as [|Ea Ew]. rewrite <- Ew in E2. by inversion E2.
    + exists hs, w', log'. split; [|done]. constructor; [|done]. intros sh sh' m Hm.
      by rewrite (read_any _ _ _ _ _ sh_id sh_id Hm) in Ed.
    + exists hs, w', log'. split; [|done]. constructor; [|done]. intros sh sh' m Hm.
      by rewrite (read_any _ _ _ _ _ sh_id sh_id Hm) in Ed.
  - destruct (IH _ _ Hx Hw Hf) as (hs & w' & log' & Hrd & H'). exists hs, w', log'. split; [|done]. constructor; [|done]. intros sh1 sh1' m Hm.
    by rewrite (read_any _ _ _ _ _ sh sh' Hm) in H.
  - done.
  - destruct (bytes_forge n x w o c t sh sh' m b d outs cs un Hx Hw H H0 (proj2 Hy _ _ _ H0) H1 H2) as (w1 & Hx1 & Hw1 & Hlog).
    destruct (IH _ _ Hx1 Hw1 Hf) as (hs & w' & log' & Hrd & Hx' & Hw' & Hlog' & Hd').
    assert (hstep n (HForge o c m) = handle o c m n) as Hh.
    { cbn. destruct H as [bcl Hb]. pose proof (xi_clients _ _ _ Hx c) as E1. pose proof (wi_clients _ _ Hw c) as E2.
      rewrite Hb in E1. inversion E1 as [bb wcl Hcr Eb Ew|]; subst. rewrite <- Ew in E2. by inversion E2. }
    exists (HForge o c m :: hs), w', log'. split; [by econstructor|]. split; [done|]. cbn [hrun hread hreads]. rewrite Hh.
    split; [done|]. split; [by rewrite Hlog', Hlog|]. exact Hd'.
  - done.
Qed.

Lemma winv_bytes n w x : xinv x w -> winv n w -> bnet_like sers n x.
Proof.
  intros Hx Hw. destruct (winv_like _ _ Hw) as [L1 L2 L3 L4 L5 L6].
  destruct Hx as [G1 G2 G3 G4 G5 G6 G7 G8 _ _ _ _ _]. destruct G6 as [G6 _]. split; try congruence.
  intros c. specialize (L3 c). specialize (G8 c). inversion G8 as [b wc (E1 & E2 & E3) Ea Eb|Ea Eb].
  - rewrite <- Eb in L3. inversion L3 as [cl ? (F1 & F2 & F3) Ec Ed|]; subst. constructor.
    assert (forall ms ts ls, Forall2 (queued (sers c)) ts ls -> Forall2 reads_like ms ls -> Forall2 (bytes_like (sers c)) ms ts) as HF.
    { clear. intros ms ts ls H. revert ms. induction H as [|t l ts ls [Hb _] H IH]; intros ms Hm.
      - apply Forall2_nil_inv_r in Hm as ->. constructor.
      - apply Forall2_cons_inv_r in Hm as (m & ms' & Hm & Hms & ->). constructor; [|by apply IH].
        intros sh sh'. rewrite (Hb sh sh'). apply Hm. }
    split; [congruence|]. split; by eapply HF.
  - rewrite <- Eb in L3. inversion L3. constructor.
Qed.

Theorem hostile_bytes_same ys x : Forall (fair sers) ys -> yrun sers empty_bnet ys x -> x_crashed x = [] ->
  exists hs, reading sers ys hs /\ bnet_like sers (hrun empty_net hs) x
    /\ forall c, Forall2 msg_like (hread c empty_net hs) (read_by c (x_read x)).
Proof.
  intros Hf Hr Hc. destruct (hostile_run _ _ _ _ _ (xinv_empty sers) winv_empty Hf Hr Hc) as (hs & w & log & Hrd & Hx & Hw & Hlog & Hd).
  exists hs. split; [done|]. split; [by eapply winv_bytes|]. by rewrite (xi_read _ _ _ Hx), Hlog.
Qed.

(** * The well-behaved ones *)
Lemma reading_length ys hs : reading sers ys hs -> (length hs <= length ys)%nat.
Proof. induction 1; cbn; lia. Qed.
Lemma answer_ids_like q q' : Forall2 msg_like q q' -> answer_ids q = answer_ids q'.
Proof.
  induction 1 as [|m m' q q' [Ht Hf] H IH]; [done|]. unfold answer_ids in *. cbn. rewrite IH.
  destruct m, m'; try discriminate Ht; try done; cbn in Hf;
    repeat match goal with H : Forall2 _ (_ :: _) (_ :: _) |- _ => apply Forall2_cons in H as [? ?] end.
  all: repeat match goal with H : fld_like (FId _) (FId _) |- _ => cbn in H; injection H as ? end.
  all: try match goal with H : fld_like (FDict ?a) (FDict ?b) |- _ => pose proof (like_flag _ _ "progress" H) as Hfl end.
  - repeat match goal with H : @eq N _ _ |- _ => rewrite H; clear H end. done.
  - assert (says (re_details m) "progress" = says (re_details m0) "progress") as ->.
    { clear -Hfl. unfold says, to_bool in *. destruct (mget (re_details m) _), (mget (re_details m0) _); cbn in *; congruence. }
    repeat match goal with H : @eq N _ _ |- _ => rewrite H; clear H end. done.
Qed.
Lemma calls_sent c n hs r : r ∈ hcalled c n hs -> exists m, HNet (NSend c (MCall m)) ∈ hs /\ ca_request m = r.
Proof.
  revert n. induction hs as [|h hs IH]; intros n; cbn [hcalled]; [by intros ?%elem_of_nil|]. intros [H|H]%elem_of_app.
  - destruct h as [[]|]; cbn in H; try (by apply elem_of_nil in H). destruct m; try (by apply elem_of_nil in H).
    destruct ((c0 =? c) && _) eqn:E in H; [|by apply elem_of_nil in H]. apply andb_true_iff in E as [->%N.eqb_eq _].
    apply elem_of_list_singleton in H as ->. eexists. split; [left|done].
  - destruct (IH _ H) as (m & Hm & ?). exists m. split; [by right|done].
Qed.
Lemma reading_net ys hs e : reading sers ys hs -> HNet e ∈ hs -> YNet e ∈ ys.
Proof.
  induction 1; intros He; [by apply elem_of_nil in He|..]; rewrite ?elem_of_cons in *; naive_solver.
Qed.

Theorem hostile_bytes_honest honest ys x : Forall (fair sers) ys -> yrun sers empty_bnet ys x -> x_crashed x = [] ->
  N.of_nat (length ys) <= two53 -> (forall hs, reading sers ys hs -> decently honest empty_net hs) ->
  x_unread x = [] /\ x_unsent x = []
  /\ forall c, honest c -> (forall a, (c, a) ∉ x_rejected x) /\ NoDup (answer_ids (read_by c (x_read x)))
     /\ forall r, r ∈ answer_ids (read_by c (x_read x)) -> exists m, YNet (NSend c (MCall m)) ∈ ys /\ ca_request m = r.
Proof.
  intros Hf Hr Hc Hlen Hdec. destruct (hostile_bytes_same ys x Hf Hr Hc) as (hs & Hrd & Hl & Hread).
  pose proof (reading_length _ _ Hrd) as Hlh. specialize (Hdec _ Hrd). assert (N.of_nat (length hs) <= two53) as Hlen' by lia.
  assert (n_crashed (hrun empty_net hs) = []) as Hcn by (rewrite <- (xl_crashed _ _ _ Hl); done).
  split; [apply Hl|]. split; [apply Hl|]. intros c Hh. split; [|].
  - intros a Ha. destruct (elem_of_list_lookup_1 _ _ Ha) as [i Hi].
    destruct (Forall2_lookup_r _ _ _ _ _ (xl_rejected _ _ _ Hl) Hi) as ([c' a'] & Hi' & [E _]). cbn in E. subst c'.
    apply (h_accepted honest hs c a' Hlen' Hdec Hcn Hh). by eapply elem_of_list_lookup_2.
  - rewrite <- (answer_ids_like _ _ (Hread c)). destruct (h_answered_once honest hs c Hlen' Hdec Hcn Hh) as (_ & H2 & H3).
    split; [done|]. intros r Hrr. destruct (calls_sent _ _ _ _ (H3 _ Hrr)) as (m & Hm & ?). exists m. split; [|done].
    by eapply reading_net.
Qed.
End refine.
