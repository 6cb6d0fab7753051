From Verif Require Import Prelude Value Rawsocket RawStream BaseSpec BaseFacts.

Lemma header_four h : length (send_header h) = 4%nat.
Proof. done. Qed.

Lemma write_frame_length f : length (write_frame f) = (4 + length (snd f))%nat.
Proof. unfold write_frame. by rewrite app_length. Qed.

Lemma read_frame_of k n p rest : (0 <= k < 256)%Z -> (0 <= n < 2 ^ 24)%Z ->
  (Z.to_nat n <= length (p ++ rest))%nat -> length p = Z.to_nat n ->
  read_frame (send_header (Header k n) ++ p ++ rest) = Some ((k, p), rest).
Proof.
  intros Hk Hn Hl Hp. unfold read_frame. rewrite app_length, header_four.
  destruct (Nat.ltb_spec (4 + length (p ++ rest)) 4); [lia|].
  rewrite take_app_le by done. rewrite firstn_all2 by done.
  rewrite header_roundtrip by done. rewrite Z.mod_small by done. cbn [hd_kind hd_length].
  rewrite drop_app_ge by done. rewrite header_four, Nat.sub_diag, drop_0.
  destruct (Z.ltb_spec (Z.of_nat (length (p ++ rest))) n); [lia|].
  by rewrite take_app_alt, drop_app_alt by done.
Qed.
Lemma read_written f rest : writable f -> read_frame (write_frame f ++ rest) = Some (f, rest).
Proof.
  destruct f as [k p]. intros [Hk Hn]. cbn [fst snd] in *. unfold write_frame. cbn [fst snd].
  rewrite <- app_assoc. apply read_frame_of; [done|lia|rewrite app_length; lia|lia].
Qed.

Lemma bytes_app a b : bytes (a ++ b) <-> bytes a /\ bytes b.
Proof. apply Forall_app. Qed.

(** What is read is what was written. *)
Lemma read_frame_inv buf f rest : bytes buf -> read_frame buf = Some (f, rest) ->
  buf = write_frame f ++ rest /\ writable f /\ bytes rest.
Proof.
  intros Hb H. unfold read_frame in H. destruct (Nat.ltb_spec (length buf) 4) as [|Hl]; [done|].
  destruct buf as [|a [|b [|c [|d body]]]]; cbn [length] in Hl; try lia. clear Hl.
  cbn [firstn skipn receive_header hd_length hd_kind] in H. rewrite drop_0, take_0 in H.
  inversion Hb as [|? ? Ha Hb1]; subst. inversion Hb1 as [|? ? Hbb Hb2]; subst.
  inversion Hb2 as [|? ? Hc Hb3]; subst. inversion Hb3 as [|? ? Hd Hb4]; subst.
  set (n := bytes_to_int [b; c; d]) in *.
  assert (n = b * 65536 + c * 256 + d)%Z as En by (apply bytes_to_int3; done).
  destruct (Z.ltb_spec (Z.of_nat (length body)) n) as [|Hl]; [done|]. injection H as <- <-.
  assert (length (take (Z.to_nat n) body) = Z.to_nat n) as Et by (rewrite take_length; lia).
  split_and!.
  - unfold write_frame. cbn [fst snd]. rewrite Et, Z2Nat.id by lia.
    unfold send_header. cbn [hd_kind hd_length]. rewrite int_to_bytes_closed. cbn [app].
    rewrite take_drop. unfold to_byte. rewrite (Z.mod_small a 256) by done.
    do 2 f_equal; [rewrite Z.mod_small; [|split]|f_equal; [|f_equal]].
    + apply Z.div_unique with (c * 256 + d)%Z; lia.
    + apply Z.div_pos; lia.
    + apply Z.div_lt_upper_bound; lia.
    + rewrite <- (Z.mod_small c 256) at 1 by done.
      replace (n / 256)%Z with (c + b * 256)%Z; [by rewrite Z_mod_plus_full|].
      apply Z.div_unique with d; lia.
    + rewrite En. replace (b * 65536 + c * 256 + d)%Z with (d + (b * 256 + c) * 256)%Z by lia.
      rewrite Z_mod_plus_full. by rewrite Z.mod_small.
  - split; cbn [fst snd]; [done|]. rewrite Et. lia.
  - by apply Forall_drop.
Qed.
Lemma read_frame_shorter buf f rest : read_frame buf = Some (f, rest) -> (length rest < length buf)%nat.
Proof.
  intros H. unfold read_frame in H. destruct (Nat.ltb_spec (length buf) 4) as [|Hl]; [done|].
  destruct (receive_header (take 4 buf)) as [h| |]; try done.
  destruct (Z.ltb_spec (Z.of_nat (length (drop 4 buf))) (hd_length h)); [done|].
  injection H as <- <-. rewrite !drop_length. lia.
Qed.
(** More bytes do not change a complete frame. *)
Lemma read_frame_more buf f rest more : read_frame buf = Some (f, rest) ->
  read_frame (buf ++ more) = Some (f, rest ++ more).
Proof.
  intros H. unfold read_frame in *. destruct (Nat.ltb_spec (length buf) 4) as [|Hl]; [done|].
  destruct (Nat.ltb_spec (length (buf ++ more)) 4) as [Hc|_]; [rewrite app_length in Hc; lia|].
  rewrite take_app_le by done.
  destruct (receive_header (take 4 buf)) as [h| |]; try done.
  rewrite drop_app_le by done. destruct (Z.ltb_spec (Z.of_nat (length (drop 4 buf))) (hd_length h)); [done|].
  destruct (Z.ltb_spec (Z.of_nat (length (drop 4 buf ++ more))) (hd_length h)) as [Hc|_];
    [rewrite app_length in Hc; lia|].
  injection H as <- <-. rewrite take_app_le by lia. by rewrite drop_app_le by lia.
Qed.

Lemma read_loop_fuel n : forall m buf, (length buf <= n)%nat -> (length buf <= m)%nat ->
  read_loop n buf = read_loop m buf.
Proof.
  induction n as [|n IH]; intros m buf Hn Hm.
  - destruct buf; [|cbn in Hn; lia]. by destruct m.
  - destruct m as [|m]; [destruct buf; [done|cbn in Hm; lia]|]. cbn [read_loop].
    destruct (read_frame buf) as [[f rest]|] eqn:E; [|done].
    apply read_frame_shorter in E. rewrite (IH m rest); [done|lia|lia].
Qed.
Lemma read_frames_eq buf : read_frames buf =
  match read_frame buf with
  | None => ([], buf)
  | Some (f, rest) => let (fs, r) := read_frames rest in (f :: fs, r)
  end.
Proof.
  unfold read_frames. destruct buf as [|a buf]; [done|].
  cbn [length read_loop]. destruct (read_frame (a :: buf)) as [[f rest]|] eqn:E; [|done].
  apply read_frame_shorter in E. cbn [length] in E.
  by rewrite (read_loop_fuel (length buf) (length rest)) by lia.
Qed.

Lemma split_more buf more : read_frames (buf ++ more) =
  let (fs, r) := read_frames buf in let (gs, r') := read_frames (r ++ more) in (fs ++ gs, r').
Proof.
  remember (length buf) as n eqn:En. revert buf En.
  induction n as [n IH] using lt_wf_ind. intros buf ->.
  rewrite (read_frames_eq buf). destruct (read_frame buf) as [[f rest]|] eqn:E.
  - rewrite read_frames_eq. rewrite (read_frame_more _ _ _ more E).
    rewrite (IH (length rest) (read_frame_shorter _ _ _ E) rest eq_refl).
    destruct (read_frames rest) as [fs r]. by destruct (read_frames (r ++ more)) as [gs r'].
  - by destruct (read_frames (buf ++ more)) as [gs r'].
Qed.
Lemma split_done buf fs r : read_frames buf = (fs, r) -> read_frames r = ([], r).
Proof.
  remember (length buf) as n eqn:En. revert buf En fs.
  induction n as [n IH] using lt_wf_ind. intros buf -> fs H.
  rewrite read_frames_eq in H. destruct (read_frame buf) as [[f rest]|] eqn:E.
  - destruct (read_frames rest) as [gs r'] eqn:E'. injection H as <- <-.
    by eapply (IH _ (read_frame_shorter _ _ _ E) rest eq_refl).
  - injection H as <- <-. rewrite read_frames_eq. by rewrite E.
Qed.
Lemma feed_from chunks : forall b fs r, read_frames b = (fs, r) ->
  fold_left feed chunks (fs, r) = read_frames (b ++ concat chunks).
Proof.
  induction chunks as [|c chunks IH]; intros b fs r H; cbn [fold_left concat]; [by rewrite app_nil_r|].
  rewrite app_assoc. unfold feed at 2. cbn [fst snd].
  pose proof (split_more b c) as S. rewrite H in S.
  destruct (read_frames (r ++ c)) as [gs r'] eqn:E. by apply IH.
Qed.
Lemma feed_chunks chunks : feed_all chunks = read_frames (concat chunks).
Proof. by apply (feed_from chunks []). Qed.
Lemma split_written fs rest : Forall writable fs -> read_frames (write_frames fs ++ rest) =
  let (gs, r) := read_frames rest in (fs ++ gs, r).
Proof.
  induction 1 as [|f fs Hf Hfs IH]; [cbn [write_frames map concat app]; by destruct (read_frames rest)|].
  change (write_frames (f :: fs)) with (write_frame f ++ write_frames fs). rewrite <- app_assoc.
  rewrite read_frames_eq, read_written by done. rewrite IH. by destruct (read_frames rest).
Qed.
Lemma split_bytes b fs r : bytes b -> read_frames b = (fs, r) ->
  b = write_frames fs ++ r /\ Forall writable fs.
Proof.
  remember (length b) as n eqn:En. revert b En fs.
  induction n as [n IH] using lt_wf_ind. intros b -> fs Hb H.
  rewrite read_frames_eq in H. destruct (read_frame b) as [[f rest]|] eqn:E.
  - destruct (read_frames rest) as [gs r'] eqn:E'. injection H as <- <-.
    destruct (read_frame_inv _ _ _ Hb E) as (-> & Hw & Hr).
    destruct (IH _ (read_frame_shorter _ _ _ E) rest eq_refl gs Hr E') as [-> Hg].
    split; [|by constructor]. change (write_frames (f :: gs)) with (write_frame f ++ write_frames gs).
    by rewrite <- app_assoc.
  - by injection H as <- <-.
Qed.
Lemma stream_roundtrip fs chunks : Forall writable fs -> concat chunks = write_frames fs ->
  feed_all chunks = (fs, []).
Proof.
  intros Hf E. rewrite feed_chunks, E, <- (app_nil_r (write_frames fs)), split_written by done.
  change (read_frames []) with (@nil (Z * list Z), @nil Z). cbn. by rewrite app_nil_r.
Qed.
Lemma stream_lossless chunks fs r : bytes (concat chunks) -> feed_all chunks = (fs, r) ->
  concat chunks = write_frames fs ++ r /\ Forall writable fs
  /\ (forall f rest, r = write_frame f ++ rest -> ~ writable f).
Proof.
  rewrite feed_chunks. intros Hb H. destruct (split_bytes _ _ _ Hb H) as [E Hf].
  split_and!; [done|done|]. intros f rest -> Hw. apply split_done in H.
  rewrite read_frames_eq, read_written in H by done. destruct (read_frames rest). congruence.
Qed.
Lemma stream_prefix chunks more fs r : feed_all chunks = (fs, r) ->
  exists gs r', feed_all (chunks ++ more) = (fs ++ gs, r').
Proof.
  rewrite !feed_chunks, concat_app, split_more. intros ->.
  destruct (read_frames (r ++ concat more)) as [gs r']. eauto.
Qed.

(** A payload of 2^24 bytes is announced as empty. *)
Lemma smuggled k fs : (0 <= k < 256)%Z -> Forall writable fs -> Z.of_nat (length (write_frames fs)) = (2 ^ 24)%Z ->
  feed_all [write_frame (k, write_frames fs)] = ((k, []) :: fs, []).
Proof.
  intros Hk Hf Hn. rewrite feed_chunks. cbn [concat]. rewrite app_nil_r.
  assert (write_frame (k, write_frames fs) = write_frame (k, []) ++ write_frames fs) as ->.
  { unfold write_frame. cbn [fst snd length]. rewrite Hn, app_nil_r. done. }
  rewrite read_frames_eq, read_written by (split; cbn; [done|lia]).
  rewrite <- (app_nil_r (write_frames fs)), split_written by done.
  change (read_frames []) with (@nil (Z * list Z), @nil Z). cbn. by rewrite app_nil_r.
Qed.
Lemma smuggling : exists k payload fs, (0 <= k < 256)%Z /\ Z.of_nat (length payload) = (2 ^ 24)%Z
  /\ feed_all [write_frame (k, payload)] = ((k, []) :: fs, []) /\ fs <> [].
Proof.
  set (n := Z.to_nat (2 ^ 24 - 4)).
  assert (Z.of_nat n = 2 ^ 24 - 4)%Z as En by (unfold n; rewrite Z2Nat.id; lia).
  clearbody n.
  exists 0%Z, (write_frames [(1, replicate n 0)])%Z, [(1, replicate n 0)]%Z.
  assert (Z.of_nat (length (write_frames [(1, replicate n 0)]%Z)) = 2 ^ 24)%Z as El.
  { unfold write_frames. cbn [map concat]. rewrite app_nil_r, write_frame_length. cbn [snd].
    rewrite replicate_length. lia. }
  split_and!; [lia|lia|done| |done]. apply smuggled; [lia| |done].
  constructor; [|constructor]. split; cbn [fst snd]; [lia|]. rewrite replicate_length. lia.
Qed.
