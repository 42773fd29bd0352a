(** How much a writer writes, at most (C78). *)
From Coq Require Import NArith Arith List Bool Lia ZifyBool ZifyNat ZifyN.
From Verif Require Import Base Ucd Norm Chars TextUtils UcdFacts NormFacts SpecText TextFacts PipelineFacts Utf8 Utf8Facts Input SpecRead Output Strings SpecBound BoundProps BoundTables.
Import ListNotations.
Local Open Scope N_scope.
Arguments N.add : simpl never.
Arguments N.leb : simpl never.
Arguments N.ltb : simpl never.
Arguments N.eqb : simpl never.
Local Opaque pipeline.

Lemma utf8_len_pos : forall c, (1 <= utf8_len c)%nat.
Proof. intro c. pose proof (unit_low c) as [H _]. unfold unit in H. lia. Qed.
Theorem pipeline_bound : forall s, (str_len (pipeline s) <= 4 * str_len s)%nat.
Proof.
  intro s. pose proof (pipeline_total unit compose_unit cgj_small few_leading s) as H. rewrite total_unit in H.
  assert (W : (total (weight unit) s <= 52 * str_len s)%nat).
  { clear H. induction s as [|c s IH]; [reflexivity|]. cbn [total str_len]. pose proof (char_small c) as K. unfold four in K. change (unit c) with (13 * utf8_len c)%nat in K. lia. }
  lia.
Qed.
Lemma categorize_len : forall s, (str_len (categorize s) <= str_len s)%nat.
Proof.
  induction s as [|c s IH]; [reflexivity|]. unfold categorize in *. cbn [map str_len]. pose proof (utf8_len_pos c). enough (utf8_len (categorize1 c) <= utf8_len c)%nat by lia. unfold categorize1. destruct (check_basic_text_char c); [change (utf8_len SUB) with 1%nat|]; lia.
Qed.
Lemma converted_bound : forall s, (str_len (converted s) <= 4 * str_len s)%nat.
Proof. intro s. unfold converted. pose proof (categorize_len s). destruct (_ && _); [lia|]. pose proof (pipeline_bound (categorize s)). lia. Qed.

(** What a writer has written and still holds. *)
Definition hold (w : writer) : nat :=
  (str_len (emitted (inner w)) + str_len (buffer w) + match wst w with WGround _ => 0 | _ => str_len (escseq w) end)%nat.
Lemma failure_hold : forall w, (hold (prepare_failure w) <= hold w)%nat.
Proof. intro w. unfold hold, prepare_failure, reset_state, set_wst, set_inner, sink_abandon. cbn [inner buffer wst emitted escseq]. lia. Qed.
Lemma sm_char_hold : forall w c r w', sm_char w c = (r, w') -> (hold w' <= hold w + utf8_len c)%nat.
Proof.
  intros w c r w' H. pose proof (failure_hold w) as F. pose proof (utf8_len_pos c). unfold sm_char in H. destruct (wst w) eqn:ES.
  - destruct ((c =? ESC) && ansi w); [injection H as <- <-; unfold hold; cbn [inner buffer wst escseq]; rewrite ES; change (str_len [ESC]) with 1%nat; lia|].
    destruct (c =? LF); [injection H as <- <-; unfold hold; cbn [set_buf set_wst inner buffer wst escseq]; rewrite ES, str_len_app; change (str_len [LF]) with 1%nat; lia|].
    destruct (c =? SUB); [injection H as <- <-; lia|]. destruct (c =? ESC); [injection H as <- <-; lia|].
    injection H as <- <-; unfold hold; cbn [set_buf set_wst inner buffer wst escseq]; rewrite ES, str_len_app; cbn [str_len]; lia.
  - destruct (c =? 0x5B); injection H as <- <-; [|lia]. unfold hold; cbn [inner buffer wst escseq]; rewrite ES, str_len_app. change (str_len [0x5B]) with 1%nat. lia.
  - destruct (in_range c 0x20 0x3F); [injection H as <- <-; unfold hold; cbn [inner buffer wst escseq]; rewrite ES, str_len_app; cbn [str_len]; lia|].
    destruct (c =? 0x6D); injection H as <- <-; [|lia]. unfold hold; cbn [inner buffer wst escseq]. rewrite ES, !str_len_app. change (str_len [0x6D]) with 1%nat. lia.
Qed.
Lemma sm_hold : forall s w r w', state_machine w s = (r, w') -> (hold w' <= hold w + 4 * str_len s)%nat.
Proof.
  intros s w r w' H. unfold state_machine in H. enough (K : forall cs w r w', sm_chars w cs = (r, w') -> (hold w' <= hold w + str_len cs)%nat).
  { apply K in H. pose proof (converted_bound s). lia. }
  clear. induction cs as [|c cs IH]; intros w r w' H; cbn [sm_chars] in H; [injection H as <- <-; cbn; lia|].
  destruct (sm_char w c) as [[e|] w1] eqn:E; apply sm_char_hold in E; cbn [str_len]; [injection H as <- <-; lia|]. apply IH in H. lia.
Qed.
Lemma sink_hold : forall k s b k', sink_write k s = (b, k') -> (str_len (emitted k') <= str_len (emitted k) + str_len s)%nat.
Proof.
  intros k s b k' H. unfold sink_write in H. destruct (abandoned k); [injection H as <- <-; lia|].
  assert (F : forall n, (str_len (firstn n s) <= str_len s)%nat).
  { clear. intro n. rewrite <- (firstn_skipn n s) at 2. rewrite str_len_app. lia. }
  destruct (script k) as [|[|n] t]; injection H as <- <-; cbn [emitted]; rewrite str_len_app; [lia|lia|specialize (F n); lia].
Qed.
Lemma buffer_hold : forall w r w', write_buffer w = (r, w') -> (hold w' <= hold w)%nat.
Proof.
  intros w r w' H. unfold write_buffer in H. destruct (_ && _).
  - injection H as <- <-. etransitivity; [apply failure_hold|]. unfold hold, set_exp. cbn [inner buffer wst escseq]. lia.
  - cbn [set_exp inner buffer] in H. destruct (sink_write (inner w) (buffer w)) as [b k] eqn:E. apply sink_hold in E. destruct b; injection H as <- <-.
    + unfold hold, set_inner, set_buf, set_exp. cbn [inner buffer wst escseq str_len]. lia.
    + etransitivity; [apply failure_hold|]. unfold hold, set_inner, set_buf, set_exp. cbn [inner buffer wst escseq str_len]. lia.
Qed.
(** The lines of a text, and what their ends cost. *)
Fixpoint lines_len (l : list (list N)) : nat := match l with [] => 0 | s :: t => str_len s + match t with [] => 0 | _ => 1 + lines_len t end end%nat.
Lemma split_len : forall s, lines_len (split_lf s) = str_len s /\ split_lf s <> [].
Proof.
  induction s as [|c s [IH IN]]; [split; [reflexivity|discriminate]|]. cbn [split_lf str_len]. destruct (c =? LF) eqn:E.
  - apply N.eqb_eq in E. subst c. split; [|discriminate]. change (utf8_len LF) with 1%nat. cbn [lines_len str_len]. destruct (split_lf s); [congruence|]. lia.
  - destruct (split_lf s) as [|x l]; [congruence|]. split; [|discriminate]. cbn [lines_len str_len] in *. lia.
Qed.
Lemma crlf_hold : forall w, (hold (push_crlf w) <= hold w + 2)%nat.
Proof. intro w. unfold push_crlf, hold, set_buf, set_wst. cbn [inner buffer wst escseq]. rewrite str_len_app. change (str_len [CR; LF]) with 2%nat. lia. Qed.
Lemma rest_hold : forall l w r w', crlf_rest w l = (r, w') -> (hold w' <= hold w + match l with [] => 0 | _ => 2 + 4 * lines_len l end)%nat.
Proof.
  induction l as [|s l IH]; intros w r w' H; cbn [crlf_rest] in H; [injection H as <- <-; lia|]. pose proof (crlf_hold w) as C.
  destruct (state_machine (push_crlf w) s) as [[e|] w1] eqn:E; apply sm_hold in E; cbn [lines_len].
  - injection H as <- <-. lia.
  - apply IH in H. destruct l; lia.
Qed.
Lemma str_hold : forall w s r w', write_str w s = (r, w') -> (hold w' <= hold w + 4 * str_len s)%nat.
Proof.
  intros w s r w' H. unfold write_str, and_then in H. destruct (if crlf w then _ else _) as [[e|] w1] eqn:E.
  all: assert (B : (hold w1 <= hold w + 4 * str_len s)%nat).
  1,3: (destruct (crlf w); [|now apply sm_hold in E]; destruct (split_len s) as [L1 L2]; rewrite <- L1; destruct (split_lf s) as [|x l]; [congruence|]; cbn [crlf_segs] in E;
    destruct (state_machine w x) as [[e'|] w2] eqn:E2; apply sm_hold in E2; cbn [lines_len]; [inversion E; subst; lia|apply rest_hold in E; destruct l; lia]).
  - injection H as <- <-. exact B.
  - apply buffer_hold in H. lia.
Qed.
Lemma seg_hold : forall w s, (hold (push_text_seg w s) <= hold w + str_len s)%nat.
Proof. intros w s. unfold push_text_seg, hold, set_buf, set_wst. cbn [inner buffer wst escseq]. rewrite str_len_app. lia. Qed.
Lemma text_hold : forall w s r w', write_text w s = (r, w') -> (hold w' <= hold w + 4 * str_len s)%nat.
Proof.
  intros w s r w' H. unfold write_text in H. apply buffer_hold in H. destruct (crlf w); [|pose proof (seg_hold w s); lia].
  destruct (split_len s) as [L1 L2]. rewrite <- L1. destruct (split_lf s) as [|x l]; [congruence|]. cbn [lines_len].
  assert (G : forall l w, (hold (fold_left (fun w seg => push_text_seg (push_crlf w) seg) l w) <= hold w + match l with [] => 0 | _ => 2 + 4 * lines_len l end)%nat).
  { clear. induction l as [|y l IH]; intro w; [cbn; lia|]. cbn [fold_left lines_len]. specialize (IH (push_text_seg (push_crlf w) y)). pose proof (seg_hold (push_crlf w) y). pose proof (crlf_hold w).
    destruct l; lia. }
  specialize (G l (push_text_seg w x)). pose proof (seg_hold w x). destruct l; lia.
Qed.

Lemma op_hold : forall w o r w', do_op w o = (r, w') -> (hold w' <= hold w + 4 * given o)%nat.
Proof.
  intros w o r w' H. pose proof (failure_hold w) as F. assert (CALL : forall k b k', sink_call k = (b, k') -> (str_len (emitted k') <= str_len (emitted k))%nat) by (intros k b k' E; apply sink_hold in E; cbn in E; lia).
  destruct o as [s|s|bs| | |]; cbn [do_op given] in *; rewrite ?encode_all_length.
  - now apply str_hold in H.
  - now apply text_hold in H.
  - unfold write_bytes in H. destruct (decode bs) as [cs rest] eqn:D. apply decode_spec in D. destruct D as (_ & D & _).
    assert (L : (str_len cs <= length bs)%nat) by (rewrite D, app_length, encode_all_length; lia).
    destruct rest; [|destruct cs]; try (destruct (write_str w _) as [r1 w1] eqn:E; injection H as <- <-; apply str_hold in E; lia). injection H as <- <-. lia.
  - unfold flush in H. destruct (wst w) as [[| |]| |] eqn:ES; try (destruct (sink_call (inner w)) as [b k] eqn:E; apply CALL in E); injection H as <- <-; try lia;
      unfold hold, set_inner, set_exp; cbn [inner buffer wst escseq]; rewrite ES; lia.
  - unfold close, and_then in H. assert (X : hold (set_exp w true) = hold w) by reflexivity. destruct (check_nl (set_exp w true)) as [[e|] w1] eqn:E.
    + injection H as <- <-. unfold check_nl in E. pose proof (failure_hold (set_exp w true)). destruct (wst (set_exp w true)) as [[| |]| |]; inversion E; subst; lia.
    + unfold check_nl in E. destruct (wst (set_exp w true)) as [[| |]| |] eqn:ES; try discriminate. injection E as <-. destruct (sink_call (inner (set_exp w true))) as [b k] eqn:E; apply CALL in E. injection H as <- <-.
      unfold hold, set_inner, set_exp in *. cbn [inner buffer wst escseq] in *. rewrite ES. lia.
  - injection H as <- <-. unfold hold, abandon, reset_state, set_wst, set_inner, sink_abandon. cbn [inner buffer wst escseq emitted]. lia.
Qed.
Theorem writer_bound : forall cr an k ops rs w, do_ops (new_writer cr an k) ops = (rs, w) ->
  (str_len (emitted (inner w)) <= str_len (emitted k) + 4 * list_sum (map given ops))%nat.
Proof.
  intros cr an k ops rs w H. enough (K : forall ops w0 rs w, do_ops w0 ops = (rs, w) -> (hold w <= hold w0 + 4 * list_sum (map given ops))%nat).
  { apply K in H. unfold hold in H at 2. cbn [new_writer inner buffer wst str_len] in H. unfold hold in H. lia. }
  clear. induction ops as [|o ops IH]; intros w0 rs w H; cbn [do_ops] in H; [injection H as <- <-; cbn; lia|]. destruct (do_op w0 o) as [r w1] eqn:E. apply op_hold in E.
  destruct (do_ops w1 ops) as [rs' w2] eqn:E2. injection H as <- <-. apply IH in E2. change (list_sum (map given (o :: ops))) with (given o + list_sum (map given ops))%nat. lia.
Qed.

Theorem from_text_bound : forall check s t, string_from_text check s = TOk t -> (str_len t <= 4 * str_len s)%nat.
Proof.
  intros check s t H. unfold string_from_text, and_then in H. destruct (write_str (new_writer false false vec_sink) s) as [[e|] w1] eqn:E; [discriminate|]. apply str_hold in E.
  destruct (flush w1) as [[e|] w2] eqn:E2; [discriminate|]. apply (op_hold w1 OpFlush) in E2. injection H as <-. change (hold (new_writer false false vec_sink)) with 0%nat in E.
  change (given OpFlush) with 0%nat in E2. unfold abandon_into_inner, reset_state, set_wst. cbn [inner]. unfold hold in E2 at 1. lia.
Qed.
