(** Properties of writing: C28-C35, C41, C45.
    A history is [do_ops (new_writer crlf colour (mksink p o false)) ops]: a
    fresh writer with the two options, over a stream that has already accepted
    [p] and answers as [o] says, and the operations [ops] in order. *)
From Coq Require Import NArith List Bool.
From Verif Require Import Base Ucd Norm Chars TextUtils Utf8 Utf8Facts Output DocTable SpecText SpecEscape SpecWrite WriteFacts WriteProps WriteColour.
Import ListNotations.
Local Open Scope N_scope.

(** "a LF", "A" with a combining ring, flush, the valid text "b LF", the bytes of "é LF",
    over a stream that accepts everything *)
Definition ex_ops : list wop :=
  [OpWriteStr [0x61; 0xA]; OpWriteStr [0x41; 0x30A]; OpFlush; OpWriteText [0x62; 0xA]; OpWrite [0xC3; 0xA9; 0xA]].
Definition ex_plain := do_ops (new_writer false false (mksink [] [] false)) ex_ops.
Definition ex_crlf := do_ops (new_writer true false (mksink [] [] false)) ex_ops.
Example ex_ops_plain : Forall plain_op ex_ops.
Proof. repeat constructor; try discriminate; vm_compute; reflexivity. Qed.

(** ** C45 *)
(** The writer, with its staging buffer and its state machine, behaves as the
    text-level specification: the same calls succeed, the same text is sent. *)
Theorem C45_writer_specification : forall cr p o ops rs w,
  do_ops (new_writer cr false (mksink p o false)) ops = (rs, w) -> Forall plain_op ops ->
  let '(bs, d) := spec_ops cr (new_doc p o) ops in
  map ok rs = bs /\ emitted (inner w) = sent d /\ abandoned (inner w) = failed d.
Proof.
  intros cr p o ops rs w H HP. destruct (ops_refine ops cr _ _ (new_refines cr p o) HP) as [RS R]. rewrite H in RS, R. cbn [fst snd] in RS, R.
  destruct (spec_ops cr (new_doc p o) ops) as [bs d]. cbn [fst snd] in RS, R. destruct R as (_ & _ & _ & E & A & _). auto.
Qed.
Print Assumptions C45_writer_specification.
Example C45_example : map ok (fst ex_plain) = [true; true; true; true; true] /\ emitted (inner (snd ex_plain)) = [0x61; 0xA; 0xC5; 0x62; 0xA; 0xE9; 0xA].
Proof. split; vm_compute; reflexivity. Qed.
(** A rejected character; then everything fails. *)
Example C45_example_failing :
  spec_ops false (new_doc [] []) [OpWriteStr [0x61]; OpWriteStr [0x7]; OpWriteStr [0x61]] = ([true; false; false], mkdoc [0x61] [0x61] false true []).
Proof. vm_compute. reflexivity. Qed.

(** ** C28 *)
Theorem C28_closed_complete : forall cr p o ops rs w w', do_ops (new_writer cr false (mksink p o false)) ops = (rs, w) -> Forall plain_op ops ->
  close w = (None, w') ->
  let t := concat (map op_text ops) in
  emitted (inner w') = p ++ as_sent cr t /\ line_terminated t /\ Forall allowed t /\ Forall2 (fun o r => is_write o = true -> r = None) ops rs.
Proof. exact closed_complete. Qed.
Print Assumptions C28_closed_complete.
Example C28_example : fst (close (snd ex_plain)) = None /\ fst (close (snd ex_crlf)) = None.
Proof. split; vm_compute; reflexivity. Qed.
(** With colours too. *)
Theorem C28_closed_complete_colour : forall an p o ops rs w w', do_ops (new_writer false an (mksink p o false)) ops = (rs, w) -> Forall plain_op ops ->
  close w = (None, w') -> exists t, coloured t /\ line_terminated t /\ emitted (inner w') = p ++ t.
Proof. exact colour_closed. Qed.
Print Assumptions C28_closed_complete_colour.
(** Writing an empty text makes the writer believe it is at the start of a line:
    "a" is then closed without complaint. *)
Theorem C28_empty_text_refuted : exists ops rs w w', Forall (fun o => match o with OpWriteText s => is_basic_text s = true | _ => True end) ops /\
  do_ops (new_writer false false (mksink [] [] false)) ops = (rs, w) /\ close w = (None, w') /\ ~ line_terminated (emitted (inner w')).
Proof.
  exists [OpWriteStr [0x61]; OpWriteText []]. do 3 eexists. split; [repeat constructor|]. split; [vm_compute; reflexivity|]. split; [vm_compute; reflexivity|].
  intros [E|[t E]]; [discriminate E|]. cbn in E. apply (app_inj_tail [] t) in E. destruct E as [_ E]. discriminate E.
Qed.
Print Assumptions C28_empty_text_refuted.

(** ** C29 *)
Theorem C29_nothing_forbidden : forall cr p o ops rs w, do_ops (new_writer cr false (mksink p o false)) ops = (rs, w) -> Forall plain_op ops ->
  exists t rest, Forall allowed t /\ p ++ as_sent cr t = emitted (inner w) ++ rest.
Proof. exact writer_sends_allowed. Qed.
Print Assumptions C29_nothing_forbidden.
(** BEL is not sent, nor is anything after it; a failure after one character. *)
Example C29_example :
  emitted (inner (snd (do_ops (new_writer true false (mksink [] [WOk; WErr 1] false)) [OpWriteStr [0x61; 0xA]; OpWriteStr [0xA; 0x62]; OpWriteStr [0x63]])))
  = [0x61; 0xD; 0xA; 0xD] /\
  emitted (inner (snd (do_ops (new_writer false false (mksink [] [] false)) [OpWriteStr [0x61]; OpWriteStr [0x61; 0x7; 0xA]; OpWriteStr [0x61]]))) = [0x61].
Proof. split; vm_compute; reflexivity. Qed.

(** ** C30 *)
Theorem C30_crlf_mode : forall p o ops rs1 w1 rs2 w2,
  do_ops (new_writer false false (mksink p o false)) ops = (rs1, w1) -> do_ops (new_writer true false (mksink p o false)) ops = (rs2, w2) ->
  Forall plain_op ops ->
  map ok rs1 = map ok rs2 /\ wst w1 = wst w2 /\
  (whole o -> exists u, emitted (inner w1) = p ++ u /\ emitted (inner w2) = p ++ expand u).
Proof. exact crlf_same. Qed.
Print Assumptions C30_crlf_mode.
Theorem C30_every_line_end : forall o ops rs w a b, do_ops (new_writer true false (mksink [] o false)) ops = (rs, w) -> Forall plain_op ops ->
  emitted (inner w) = a ++ 0xA :: b -> exists a', a = a' ++ [0xD].
Proof. exact crlf_line_ends. Qed.
Print Assumptions C30_every_line_end.
Example C30_example : emitted (inner (snd ex_crlf)) = [0x61; 0xD; 0xA; 0xC5; 0x62; 0xD; 0xA; 0xE9; 0xD; 0xA].
Proof. vm_compute. reflexivity. Qed.

(** ** C31 *)
Theorem C31_drop_after_failed_write : forall w o e w' ops, do_op w o = (Some e, w') -> is_write o = true -> drop_panics (snd (do_ops w' ops)) = false.
Proof. exact drop_after_failure. Qed.
Print Assumptions C31_drop_after_failed_write.
Theorem C31_drop_after_abandon : forall w ops, drop_panics (snd (do_ops (abandon w) ops)) = false.
Proof. exact drop_after_abandon. Qed.
Print Assumptions C31_drop_after_abandon.
Theorem C31_drop_after_close : forall w r w', close w = (r, w') -> drop_panics w' = false.
Proof. exact drop_after_close. Qed.
Print Assumptions C31_drop_after_close.
(** After a failed write nothing more is sent and every call fails. *)
Theorem C31_silent_after_failure : forall w o e w' ops, do_op w o = (Some e, w') -> is_write o = true ->
  emitted (inner (snd (do_ops w' ops))) = emitted (inner w') /\ Forall2 (fun o r => o <> OpAbandon -> r <> None) ops (fst (do_ops w' ops)).
Proof. exact dead_silent. Qed.
Print Assumptions C31_silent_after_failure.
(** A writer that would panic if dropped, one whose write fails, one whose close fails. *)
Example C31_example :
  drop_panics (snd (do_ops (new_writer false false (mksink [] [] false)) [OpWriteStr [0x61]])) = true /\
  drop_panics (snd (do_ops (new_writer false false (mksink [] [] false)) [OpWriteStr [0x61]; OpWriteStr [0x7]])) = false /\
  map ok (fst (do_ops (new_writer false false (mksink [] [] false)) [OpWriteStr [0x61]; OpClose])) = [true; false] /\
  drop_panics (snd (do_ops (new_writer false false (mksink [] [] false)) [OpWriteStr [0x61]; OpClose])) = false.
Proof. repeat split; vm_compute; reflexivity. Qed.
(** Not so after a failed flush: when the flush of the stream below fails, and
    when flushing inside an escape sequence. *)
Theorem C31_failed_flush_panics : 
  (exists o, let '(rs, w) := do_ops (new_writer false false (mksink [] o false)) [OpWriteStr [0x61]; OpFlush] in
     rs = [None; Some EWInner] /\ drop_panics w = true) /\
  (let '(rs, w) := do_ops (new_writer false true (mksink [] [] false)) [OpWriteStr [0x1B]; OpFlush] in
     rs = [None; Some EWFlushEscape] /\ drop_panics w = true).
Proof. split; [exists [WOk; WErr 0]|]; vm_compute; split; reflexivity. Qed.
Print Assumptions C31_failed_flush_panics.

(** ** C32 *)
Theorem C32_write_count : forall w bs c r w', write_bytes w bs = (c, r, w') ->
  (forall n, c = Some n -> r = None /\ (n <= length bs)%nat /\ (n = 0%nat -> bs = []) /\
     exists s, scalars s /\ firstn n bs = encode_all s /\ decode1 (skipn n bs) = None /\ write_str w s = (None, w')) /\
  (c = None -> r <> None).
Proof. exact write_bytes_spec. Qed.
Print Assumptions C32_write_count.
(** "é" followed by a lone continuation byte: two bytes are written *)
Example C32_example : fst (fst (write_bytes (new_writer false false (mksink [] [] false)) [0xC3; 0xA9; 0x80])) = Some 2%nat /\
  fst (fst (write_bytes (new_writer false false (mksink [] [] false)) [0x80])) = None.
Proof. split; vm_compute; reflexivity. Qed.

(** ** C33 *)
Theorem C33_split_write : forall cr p ops rs w s t w1, do_ops (new_writer cr false (mksink p [] false)) ops = (rs, w) -> Forall plain_op ops ->
  write_str w (s ++ [0xA]) = (None, w1) ->
  ok (fst (write_str w (s ++ 0xA :: t))) = ok (fst (write_str w1 t)) /\
  (fst (write_str w1 t) = None -> write_str w (s ++ 0xA :: t) = write_str w1 t).
Proof. exact split_write. Qed.
Print Assumptions C33_split_write.
Example C33_example : fst (write_str (snd ex_plain) [0x61; 0xA; 0x301; 0x62]) = None /\
  emitted (inner (snd (write_str (new_writer false false (mksink [] [] false)) [0x61; 0xA; 0x301; 0x62]))) = [0x61; 0xA; 0x301; 0x62].
Proof. split; vm_compute; reflexivity. Qed.
(** It matters where the split is: "a" and a combining ring *)
Example C33_example_other : 
  emitted (inner (snd (do_ops (new_writer false false (mksink [] [] false)) [OpWriteStr [0x61; 0x30A]]))) = [0xE5] /\
  emitted (inner (snd (do_ops (new_writer false false (mksink [] [] false)) [OpWriteStr [0x61]; OpWriteStr [0x30A]]))) = [0x61; 0x30A].
Proof. split; vm_compute; reflexivity. Qed.

(** ** C34 *)
(** A closed stream of non-empty writes is Basic Text except possibly for
    normalization across the boundaries of writes. *)
Theorem C34_closed_basic_text_partial : forall cr p o ops rs w w', do_ops (new_writer cr false (mksink p o false)) ops = (rs, w) -> Forall plain_op ops ->
  Forall nonempty_op ops -> close w = (None, w') ->
  let t := concat (map op_text ops) in
  emitted (inner w') = p ++ as_sent cr t /\ (string_ok t <-> nfc_text t /\ stream_safe_text t).
Proof. exact closed_basic_text. Qed.
Print Assumptions C34_closed_basic_text_partial.
(** If every write is of whole lines, or there is one write, it is Basic Text. *)
Theorem C34_lines_basic_text_partial : forall cr p o ops rs w w', do_ops (new_writer cr false (mksink p o false)) ops = (rs, w) -> Forall plain_op ops ->
  Forall line_op ops -> close w = (None, w') ->
  let t := concat (map op_text ops) in emitted (inner w') = p ++ as_sent cr t /\ is_basic_text t = true.
Proof. exact closed_lines_basic_text. Qed.
Print Assumptions C34_lines_basic_text_partial.
Example C34_example : Forall nonempty_op ex_ops /\ Forall line_op [OpWriteStr [0x61; 0xA]; OpFlush; OpWriteText [0xC5; 0xA]].
Proof.
  split; repeat constructor; try (intro K; discriminate K); try (intros _; vm_compute; discriminate).
  - exists [0x61]. vm_compute. reflexivity.
  - exists [0xC5]. reflexivity.
Qed.
(** "a" and then a combining ring: the stream is not normalized. *)
Theorem C34_normalization_refuted : exists ops rs w w', Forall (fun o => exists s, o = OpWriteStr s /\ s <> []) ops /\
  do_ops (new_writer false false (mksink [] [] false)) ops = (rs, w) /\ close w = (None, w') /\ is_basic_text (emitted (inner w')) = false.
Proof.
  exists [OpWriteStr [0x61]; OpWriteStr [0x30A; 0xA]]. do 3 eexists.
  split; [repeat constructor; eexists; (split; [reflexivity|discriminate])|]. repeat split; vm_compute; reflexivity.
Qed.
Print Assumptions C34_normalization_refuted.
(** An empty write and then a combining ring: the stream begins with a non-starter. *)
Theorem C34_start_refuted : exists ops rs w w', Forall (fun o => exists s, o = OpWriteStr s) ops /\
  do_ops (new_writer false false (mksink [] [] false)) ops = (rs, w) /\ close w = (None, w') /\ emitted (inner w') = [0x30A; 0xA] /\ is_basic_text (emitted (inner w')) = false.
Proof.
  exists [OpWriteStr []; OpWriteStr [0x30A; 0xA]]. do 3 eexists. split; [repeat constructor; eexists; reflexivity|]. repeat split; vm_compute; reflexivity.
Qed.
Print Assumptions C34_start_refuted.

(** ** C35 *)
Theorem C35_text_write : forall w s g, ansi w = false -> wst w = WGround g -> s <> [] -> is_basic_text_substr s = true -> preceded s ->
  write_text w s = write_str w s.
Proof. exact text_write_is_str_write. Qed.
Print Assumptions C35_text_write.
(** "å", U+378 (unassigned) isolated, line end *)
Example C35_example : is_basic_text_substr [0xE5; 0x34F; 0x378; 0x34F; 0xA] = true /\
  snd (write_text (new_writer true false (mksink [] [] false)) [0xE5; 0x34F; 0x378; 0x34F; 0xA])
  = mkwriter [] true false false (WGround Newline) [] (mksink [0xE5; 0x34F; 0x378; 0x34F; 0xD; 0xA] [] false).
Proof. split; vm_compute; reflexivity. Qed.
(** The empty text is different: see also C28_empty_text_refuted. *)
Theorem C35_empty_text_refuted : exists w, is_basic_text [] = true /\ wst (snd (write_text w [])) <> wst (snd (write_str w [])).
Proof. exists (snd (write_str (new_writer false false (mksink [] [] false)) [0x61])). split; [reflexivity|]. vm_compute. discriminate. Qed.
Print Assumptions C35_empty_text_refuted.

(** ** C41 *)
Theorem C41_colours_only : forall an p o ops rs w, do_ops (new_writer false an (mksink p o false)) ops = (rs, w) -> Forall plain_op ops ->
  exists t rest, coloured t /\ p ++ t = emitted (inner w) ++ rest /\ (abandoned (inner w) = false -> rest = []).
Proof. exact colours_only. Qed.
Print Assumptions C41_colours_only.
(** Without the option there is no ESC at all. *)
Theorem C41_no_escape : forall cr o ops rs w, do_ops (new_writer cr false (mksink [] o false)) ops = (rs, w) -> Forall plain_op ops ->
  ~ In 0x1B (emitted (inner w)).
Proof. exact no_escape. Qed.
Print Assumptions C41_no_escape.
(** A sequence split over two writes, then one that is not a colour. *)
Example C41_example : 
  let '(rs, w) := do_ops (new_writer false true (mksink [] [] false)) [OpWriteStr [0x61; 0x1B; 0x5B; 0x31]; OpWriteStr [0x6D; 0x62]; OpWriteStr [0x1B; 0x5B; 0x41]] in
  map ok rs = [true; true; false] /\ emitted (inner w) = [0x61; 0x1B; 0x5B; 0x31; 0x6D; 0x62].
Proof. vm_compute. split; reflexivity. Qed.
