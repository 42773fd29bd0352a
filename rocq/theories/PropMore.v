(** Properties of copying, exact reads, lines and duplexers: C36, C37, C44,
    C49-C53. *)
From Coq Require Import NArith List Bool Lia.
From Verif Require Import Base Ucd Norm Chars TextUtils DocTable SpecText TextFacts Utf8 Utf8Facts Input Output ReadFacts ReadSession SpecRead SpecConv ReadProps EscapeCheck
  SpecEscape SpecWrite WriteFacts WriteProps Strings SpecString LossyProps Copy CopyProps CopyPush ExactProps Lines LineProps Duplex SpecDuplex DuplexProps SpecAscii ScalarFacts ExactBuf DuplexExact CopyAny.
Import ListNotations.
Local Open Scope N_scope.

(** ** C36 *)
(** [reads … (repeat blen k)] are the reads a caller with a buffer of [blen]
    bytes makes; [received rs] is the text they deliver and [reached_end rs] says
    that the last one reported the end.  Copying to a fresh writer succeeds,
    returns the number of bytes of that text, sends exactly that text, and the
    writer can be closed. *)
Theorem C36_copy_text : forall nel lsps sc blen cr p, no_fail sc -> (136 <= blen)%nat ->
  exists n, forall fuel, (n <= fuel)%nat -> exists k rs j rest w,
    reads (new_input nel lsps) sc (repeat blen k) = (rs, j, rest) /\ reached_end rs /\
    copy_text false fuel (new_input nel lsps) sc (new_writer cr false (mksink p [] false)) blen 0 = Some (CopyOk (str_len (received rs)), j, rest, w) /\
    emitted (inner w) = p ++ as_sent cr (received rs) /\ exists w', close w = (None, w') /\ emitted (inner w') = emitted (inner w).
Proof. exact copy_text_copies. Qed.
Print Assumptions C36_copy_text.
(** "e" and a combining acute in two chunks, then the end *)
Definition ex_copy : list event := [Chunk [0x61; 0xA; 0x65] Active; Chunk [0x301] End].
Example C36_example : no_fail ex_copy /\
  exists j rest w, copy_text false 10 (new_input false false) ex_copy (new_writer true false (mksink [] [] false)) 136 0 = Some (CopyOk 5, j, rest, w) /\
    emitted (inner w) = [0x61; 0xD; 0xA; 0xE9; 0xD; 0xA].
Proof. split; [intros [H|[H|[]]]; discriminate|]. do 3 eexists. split; vm_compute; reflexivity. Qed.
(** Whatever fails: what is sent is a beginning of the text delivered; all of it
    if the copy succeeds or ends with a failed read. *)
Theorem C36_copy_text_any : forall intr nel lsps sc blen cr p o fuel res j rest w,
  copy_text intr fuel (new_input nel lsps) sc (new_writer cr false (mksink p o false)) blen 0 = Some (res, j, rest, w) ->
  exists k rs, reads (new_input nel lsps) sc (repeat blen k) = (rs, j, rest) /\ prefix_of (emitted (inner w)) (p ++ as_sent cr (received rs)) /\
    match res with
    | CopyOk n => reached_end rs /\ n = str_len (received rs) /\ emitted (inner w) = p ++ as_sent cr (received rs)
    | CopyRead => emitted (inner w) = p ++ as_sent cr (received rs)
    | CopyWrite _ => True
    end.
Proof. exact copy_text_any. Qed.
Print Assumptions C36_copy_text_any.
Example C36_any_example : exists j rest w,
  copy_text false 10 (new_input false false) [Chunk [0x61; 0xA] Active; Fail] (new_writer false false (mksink [] [WOk; WErr 0] false)) 136 0 = Some (CopyRead, j, rest, w)
  /\ emitted (inner w) = [0x61; 0xA].
Proof. do 3 eexists. split; vm_compute; reflexivity. Qed.
(** If the errors of the stream below are interruptions they are retried, but the
    text already taken out for the interrupted call is lost: the stream is valid
    text, the copy reports success, and not all of it was copied. *)
Theorem C36_interrupted_refuted : exists sc t fuel j rest w n, stream_text sc = t /\ string_ok t /\ line_terminated t /\
  copy_text true fuel (new_input false false) sc (new_writer false false (mksink [] [] false)) 136 0 = Some (CopyOk n, j, rest, w) /\ emitted (inner w) <> t.
Proof.
  exists [Chunk (repeat 0x61 140 ++ [0xA]) Active; Fail; Chunk [] End], (repeat 0x61 140 ++ [0xA]), 10%nat. do 4 eexists.
  split; [reflexivity|]. split; [apply basic_text_spec; vm_compute; reflexivity|]. split; [right; now exists (repeat 0x61 140)|].
  split; [vm_compute; reflexivity|]. vm_compute. discriminate.
Qed.
Print Assumptions C36_interrupted_refuted.
(** The variant that also flushes at pushes, on streams without pushes … *)
Theorem C36_using_status : forall nel lsps sc blen cr p, no_fail sc -> no_push sc -> (136 <= blen)%nat ->
  exists n, forall fuel, (n <= fuel)%nat -> exists k rs j rest w,
    reads (new_input nel lsps) sc (repeat blen k) = (rs, j, rest) /\ reached_end rs /\
    copy_status fuel (new_input nel lsps) sc (new_writer cr false (mksink p [] false)) blen 0 = Some (CopyOk (str_len (received rs)), j, rest, w) /\
    emitted (inner w) = p ++ as_sent cr (received rs) /\ exists w', close w = (None, w') /\ emitted (inner w') = emitted (inner w).
Proof. exact copy_status_copies. Qed.
Print Assumptions C36_using_status.
Example C36_using_status_example : no_fail ex_copy /\ no_push ex_copy /\
  exists j rest w, copy_status 10 (new_input false false) ex_copy (new_writer true false (mksink [] [] false)) 136 0 = Some (CopyOk 5, j, rest, w) /\
    emitted (inner w) = [0x61; 0xD; 0xA; 0xE9; 0xD; 0xA].
Proof. split; [intros [H|[H|[]]]; discriminate|]. split; [intros cs [H|[H|[]]]; discriminate|]. do 3 eexists. split; vm_compute; reflexivity. Qed.
(** … and on streams without escape sequences that push after line ends. *)
Theorem C36_using_status_lines : forall nel lsps sc blen cr p, no_fail sc -> pushes_at_lines sc -> (136 <= blen)%nat ->
  exists n, forall fuel, (n <= fuel)%nat -> exists k rs j rest w,
    reads (new_input nel lsps) sc (repeat blen k) = (rs, j, rest) /\ reached_end rs /\
    copy_status fuel (new_input nel lsps) sc (new_writer cr false (mksink p [] false)) blen 0 = Some (CopyOk (str_len (received rs)), j, rest, w) /\
    emitted (inner w) = p ++ as_sent cr (received rs) /\ exists w', close w = (None, w') /\ emitted (inner w') = emitted (inner w).
Proof. exact copy_push_copies. Qed.
Print Assumptions C36_using_status_lines.
(** the line after the push begins with a combining character *)
Definition ex_push : list event := [Chunk [0x61; 0xA] Push; Chunk [0x301; 0x62; 0xD] Active; Chunk [0xA] Push; Chunk [0x62] End].
Example C36_using_status_lines_example : pushes_at_lines ex_push /\ exists j rest w,
  copy_status 10 (new_input false false) ex_push (new_writer false false (mksink [] [] false)) 136 0 = Some (CopyOk 10, j, rest, w)
  /\ emitted (inner w) = [0x61; 0xA; 0x34F; 0x301; 0x62; 0xA; 0x62; 0xA].
Proof.
  split.
  - intros cs s [H|[H|[H|[H|[]]]]]; injection H as <- <-; (split; [intro K; repeat destruct K as [K|K]; try discriminate; exact K|]); try discriminate; intros _; [now exists [0x61]|now exists []].
  - do 3 eexists. split; vm_compute; reflexivity.
Qed.
(** In general a push can break it: the reader may keep characters back at a
    push, and the writer expects a starter after the flush. *)
Theorem C36_using_status_refuted : exists sc fuel j rest w e, no_fail sc /\
  copy_status fuel (new_input false false) sc (new_writer false false (mksink [] [] false)) 136 0 = Some (CopyWrite e, j, rest, w).
Proof.
  exists [Chunk [0x65; 0x34F; 0x301] Push; Chunk [0xA] End], 10%nat. do 4 eexists. split; [intros [H|[H|[]]]; discriminate|]. vm_compute. reflexivity.
Qed.
Print Assumptions C36_using_status_refuted.
(** Whatever fails and wherever the pushes are: what is sent is a beginning of the
    text delivered; all of it if the copy succeeds or ends with a failed read. *)
Theorem C36_using_status_any : forall nel lsps sc blen cr p o fuel res j rest w,
  copy_status fuel (new_input nel lsps) sc (new_writer cr false (mksink p o false)) blen 0 = Some (res, j, rest, w) ->
  exists k rs, reads (new_input nel lsps) sc (repeat blen k) = (rs, j, rest) /\ prefix_of (emitted (inner w)) (p ++ as_sent cr (received rs)) /\
    match res with
    | CopyOk n => reached_end rs /\ n = str_len (received rs) /\ emitted (inner w) = p ++ as_sent cr (received rs)
    | CopyRead => emitted (inner w) = p ++ as_sent cr (received rs)
    | CopyWrite _ => True
    end.
Proof. exact copy_status_any. Qed.
Print Assumptions C36_using_status_any.
Example C36_using_status_any_example : exists j rest w e,
  copy_status 10 (new_input false false) [Chunk [0x61; 0xA] Push; Chunk [0x62; 0xA] End] (new_writer true false (mksink [0x2D] [WOk; WOk; WErr 1] false)) 136 0
    = Some (CopyWrite e, j, rest, w) /\ emitted (inner w) = [0x2D; 0x61; 0xD; 0xA; 0x62].
Proof. do 4 eexists. split; vm_compute; reflexivity. Qed.

(** ** C49 *)
(** A successful exact read gives exactly as many bytes as asked for, and they
    are text the reader delivered. *)
Theorem C49_exact_read : forall intr fuel nel lsps sc blen t j rest, read_exact intr fuel (new_input nel lsps) sc blen = Some (ExactOk, t, j, rest) ->
  str_len t = blen /\ exists sizes rs, reads (new_input nel lsps) sc sizes = (rs, j, rest) /\ t = concat (texts rs).
Proof.
  intros intr fuel nel lsps sc blen t j rest H. split; [exact (exact_length _ _ _ _ _ _ _ _ (wf_new nel lsps) H)|exact (exact_reads _ _ _ _ _ _ _ _ _ (wf_new nel lsps) H)].
Qed.
Print Assumptions C49_exact_read.
Definition ex_astral : list event := [Chunk (repeat 0x1F600 34 ++ [0xA]) End].
Example C49_example : exists j rest, read_exact false 10 (new_input false false) ex_astral 136 = Some (ExactOk, repeat 0x1F600 34, j, rest).
Proof. do 2 eexists. vm_compute. reflexivity. Qed.
(** But it succeeds only if the last character is one of four bytes: a reader
    stops when fewer than four bytes are left, and refuses a shorter buffer. *)
Theorem C49_four_bytes : forall intr fuel nel lsps sc blen t j rest, read_exact intr fuel (new_input nel lsps) sc blen = Some (ExactOk, t, j, rest) -> (0 < blen)%nat ->
  exists u c, t = u ++ [c] /\ 0x10000 <= c.
Proof. intros intr fuel nel lsps sc blen t j rest H B. exact (exact_astral _ _ _ _ _ _ _ _ (wf_new nel lsps) B H). Qed.
Print Assumptions C49_four_bytes.
(** So exact reads of plain ASCII text fail although there is enough of it. *)
Theorem C49_refuted : exists sc t blen fuel j rest u, stream_text sc = t /\ string_ok t /\ line_terminated t /\ no_fail sc /\ (136 <= blen)%nat /\ (blen <= str_len t)%nat /\
  read_exact false fuel (new_input false false) sc blen = Some (ExactErr, u, j, rest).
Proof.
  exists [Chunk (repeat 0x61 200 ++ [0xA]) End], (repeat 0x61 200 ++ [0xA]), 136%nat, 10%nat. do 3 eexists. split; [reflexivity|].
  split; [apply basic_text_spec; vm_compute; reflexivity|]. split; [right; now exists (repeat 0x61 200)|]. split; [intros [H|[]]; discriminate|]. split; [lia|]. split; [vm_compute; lia|].
  vm_compute. reflexivity.
Qed.
Print Assumptions C49_refuted.

(** The variant that also returns a status, on a reader after any reads. It
    succeeds exactly when the exact read without a status does, with the same text,
    and then never says that the stream has ended. It reports an unexpected end
    exactly when its last read reported the end; then some bytes are missing. Every
    other failure is that of the exact read without a status. *)
Theorem C49_status : forall nel lsps script sizes0 rs0 i sc fuel blen e t j sc', script_scalars script -> reads (new_input nel lsps) script sizes0 = (rs0, i, sc) ->
  read_exact_status fuel i sc blen = Some (e, t, j, sc') ->
  (exists sizes rs, reads i sc sizes = (rs, j, sc') /\ t = concat (texts rs) /\ (reached_end rs <-> e = StEof)) /\
  match e with
  | StOk s => s = Active /\ read_exact false fuel i sc blen = Some (ExactOk, t, j, sc')
  | StEof => (str_len t < blen)%nat
  | StErr => read_exact false fuel i sc blen = Some (ExactErr, t, j, sc')
  | StPanic => False
  end.
Proof. intros nel lsps script sizes0 rs0 i sc fuel blen e t j sc' SS R H. apply own_exact_status; auto. now exists nel, lsps, script, sizes0, rs0. Qed.
Print Assumptions C49_status.
Theorem C49_status_complete : forall nel lsps script sizes0 rs0 i sc fuel blen t j sc', script_scalars script -> reads (new_input nel lsps) script sizes0 = (rs0, i, sc) ->
  read_exact false fuel i sc blen = Some (ExactOk, t, j, sc') -> read_exact_status fuel i sc blen = Some (StOk Active, t, j, sc').
Proof. intros nel lsps script sizes0 rs0 i sc fuel blen t j sc' SS R H. apply own_exact_status_complete; auto. now exists nel, lsps, script, sizes0, rs0. Qed.
Print Assumptions C49_status_complete.
(** It always comes to an end. *)
Theorem C49_status_ends : forall nel lsps script blen, exists n, forall fuel, (n <= fuel)%nat -> read_exact_status fuel (new_input nel lsps) script blen <> None.
Proof. exact own_status_ends. Qed.
Print Assumptions C49_status_ends.
Example C49_status_example : script_scalars ex_astral /\
  (exists j rest, read_exact_status 10 (new_input false false) ex_astral 136 = Some (StOk Active, repeat 0x1F600 34, j, rest)) /\
  (exists j rest, read_exact_status 10 (new_input false false) [Chunk [0x61] Push; Chunk [0x62; 0xA] End] 136 = Some (StEof, [0x61; 0x62; 0xA], j, rest)) /\
  (exists j rest, read_exact_status 10 (new_input false false) [Chunk [0x61; 0xA] Push; Fail] 140 = Some (StErr, [0x61; 0xA], j, rest)).
Proof.
  split; [intros cs s [H|[]]; injection H as <- _; apply Forall_forall; rewrite <- forallb_forall; vm_compute; reflexivity|].
  split; [|split]; do 2 eexists; vm_compute; reflexivity.
Qed.

(** An exact read of nothing through a duplexer: arithmetic underflow with
    overflow checks. *)
Theorem C49_duplexer_empty_refuted : forall intr fuel d, duplex_exact intr true fuel d 0 = Some None.
Proof. intros intr fuel d. destruct fuel; reflexivity. Qed.
Print Assumptions C49_duplexer_empty_refuted.
(** With any other buffer an exact read through a duplexer fills the same bytes,
    ends in the same way and leaves the reader in the same state as an exact read
    by a plain reader, whatever was written; on the duplexer it amounts to some
    ordinary reads. *)
Theorem C49_duplexer_exact : forall intr debug fuel d blen, ~ (debug = true /\ blen = 0%nat) ->
  match duplex_exact intr debug fuel d blen with
  | Some (Some (e, t, d')) => read_exact intr fuel (din d) (dscript d) blen = Some (e, t, din d', dscript d') /\ exists sizes rs, do_dops d (map DRead sizes) = (rs, d')
  | Some None => False
  | None => read_exact intr fuel (din d) (dscript d) blen = None
  end.
Proof. exact duplex_exact_reader. Qed.
Print Assumptions C49_duplexer_exact.
Example C49_duplexer_example : ~ (true = true /\ 136%nat = 0%nat) /\
  exists d', duplex_exact false true 10 (new_duplexer false false true false (mksink [] [] false) ex_astral) 136 = Some (Some (ExactOk, repeat 0x1F600 34, d')).
Proof. split; [intros [_ K]; discriminate K|]. eexists. vm_compute. reflexivity. Qed.

(** ** C37 *)
(** The source is lines of bytes, each followed by 0xA.  Every line gives one
    item, in order: the line, if its bytes are the UTF-8 of a valid string; an
    error otherwise.  Nothing panics. *)
Theorem C37_text_lines : forall debug ps, Forall (fun p => ~ In 0xA p) ps ->
  exists its, text_lines debug (lines_of ps) = Some its /\
    Forall2 (fun p it => match it with
                         | Line l => scalars l /\ p = encode_all l /\ string_ok l
                         | LineErr => ~ exists l, scalars l /\ p = encode_all l /\ string_ok l
                         end) ps its.
Proof. exact lines_spec. Qed.
Print Assumptions C37_text_lines.
Example C37_example : text_lines true (lines_of [encode_all [0x61; 0xE9]; []; [0xFF]; encode_all [0x301]; encode_all [0x61; 0x200D]]) =
  Some [Line [0x61; 0xE9]; Line []; LineErr; LineErr; LineErr].
Proof. vm_compute. reflexivity. Qed.
(** Valid lines come back. *)
Theorem C37_lossless : forall debug ls, Forall (fun l => scalars l /\ string_ok l /\ ~ In 0xA l) ls ->
  text_lines debug (encode_all (concat (map (fun l => l ++ [0xA]) ls))) = Some (map Line ls).
Proof. exact lines_roundtrip. Qed.
Print Assumptions C37_lossless.
(** If every item is a line they make up the source again. *)
Theorem C37_complete : forall debug src ls, text_lines debug src = Some (map Line ls) -> debug = true \/ line_terminated src ->
  src = encode_all (concat (map (fun l => l ++ [0xA]) ls)).
Proof. exact lines_lossless. Qed.
Print Assumptions C37_complete.
(** Whatever the source, every line yielded is a valid string without U+A. *)
Theorem C37_lines_valid : forall debug src its l, text_lines debug src = Some its -> In (Line l) its -> string_ok l /\ ~ In 0xA l.
Proof. exact lines_valid. Qed.
Print Assumptions C37_lines_valid.
Example C37_valid_example : text_lines false (encode_all [0x61; 0xA; 0x62]) = Some [Line [0x61]; Line []].
Proof. vm_compute. reflexivity. Qed.
(** Not every valid stream can be read by lines: a line may begin with a
    combining character. *)
Theorem C37_stream_refuted : exists t, string_ok t /\ line_terminated t /\ text_lines true (encode_all t) = Some [Line [0x61]; LineErr].
Proof.
  exists [0x61; 0xA; 0x301; 0xA]. split; [apply basic_text_spec; vm_compute; reflexivity|]. split; [right; now exists [0x61; 0xA; 0x301]|]. vm_compute. reflexivity.
Qed.
Print Assumptions C37_stream_refuted.
(** A last line without line end: a panic with debug assertions, and a lost
    character without. *)
Theorem C37_unterminated_refuted : exists src l, string_ok l /\ src = encode_all l /\ text_lines true src = None /\ text_lines false src <> Some [Line l] /\
  text_lines false src <> Some [LineErr].
Proof.
  exists [0x61; 0x62], [0x61; 0x62]. split; [apply basic_text_spec; vm_compute; reflexivity|]. split; [reflexivity|]. split; [vm_compute; reflexivity|].
  split; vm_compute; discriminate.
Qed.
Print Assumptions C37_unterminated_refuted.

(** ** C50 *)
(** Lossy lines.  [conv] is the lossy conversion of strings ([lossy] in
    SpecString.v).  Each line of the source gives one item: an error if its bytes
    are not UTF-8, otherwise the lossy conversion of the line, with U+34F added
    after a non-ender; it is a valid string. *)
Theorem C50_lossy_lines : forall debug conv ps, (forall v, lossy v (conv v)) -> Forall (fun p => ~ In 0xA p) ps ->
  exists its, text_lines_lossy debug conv (lines_of ps) = Some its /\
    Forall2 (fun p it => match it with
      | Line l => string_ok l /\ exists v u, scalars v /\ p = encode_all v /\ lossy (v ++ [0xA]) (Some (u ++ [0xA])) /\ (l = u \/ (~ ends_ok u /\ l = u ++ [0x34F]))
      | LineErr => ~ exists v, scalars v /\ p = encode_all v
      end) ps its.
Proof. exact lossy_lines_spec. Qed.
Print Assumptions C50_lossy_lines.
(** The conversion when the bytes arrive at once: *)
Definition at_once (v : list N) : option (list N) :=
  let '(rs, _, _) := reads (new_input false false) [Chunk v End] (repeat 136%nat 8) in lossy_result v (received rs).
Example C50_example : text_lines_lossy true at_once (lines_of [encode_all [0x61; 0x200D]; [0xFF]; encode_all [0x301]; encode_all [0x61; 7]]) =
  Some [Line [0x61; 0x200D; 0x34F]; LineErr; Line [0x34F; 0x301]; Line [0x61; 0xFFFD]].
Proof. vm_compute. reflexivity. Qed.
(** Every line is valid, whatever the source. *)
Theorem C50_lines_valid : forall debug conv src its l, (forall v, lossy v (conv v)) -> text_lines_lossy debug conv src = Some its -> In (Line l) its -> string_ok l.
Proof. exact lossy_lines_valid. Qed.
Print Assumptions C50_lines_valid.
(** Valid lines of assigned characters are kept. *)
Theorem C50_valid_kept : forall debug conv ls, (forall v, lossy v (conv v)) ->
  Forall (fun l => scalars l /\ string_ok l /\ ~ In 0xA l /\ Forall (fun c => is_assigned c = true) l) ls ->
  text_lines_lossy debug conv (encode_all (concat (map (fun l => l ++ [0xA]) ls))) = Some (map Line ls).
Proof. exact lossy_lines_keep. Qed.
Print Assumptions C50_valid_kept.
(** A "line" can contain a line end: a carriage return becomes one after the
    source has been cut at 0xA. *)
Theorem C50_one_line_refuted : exists src l, text_lines_lossy true at_once src = Some [Line l] /\ In 0xA l.
Proof. exists [0x61; 0xD; 0x62; 0xA], [0x61; 0xA; 0x62]. split; [vm_compute; reflexivity|]. right. now left. Qed.
Print Assumptions C50_one_line_refuted.

(** ** C51 *)
(** The reads made through a duplexer, between any writes, are those of a reader
    on the same stream. *)
Theorem C51_duplex_reads : forall nel lsps cr an k sc os rs x, do_dops (new_duplexer nel lsps cr an k sc) os = (rs, x) ->
  Forall (fun o => o <> DOut OpAbandon) os ->
  reads (new_input nel lsps) sc (read_sizes os) = (read_results rs, din x, dscript x).
Proof. intros nel lsps cr an k sc os rs x H F. exact (duplex_reads os _ rs x H F). Qed.
Print Assumptions C51_duplex_reads.
Definition ex_duplex : list dop := [DOut (OpWriteStr [0x61]); DRead 136; DOut OpFlush; DRead 200; DOut (OpWriteText [0x62; 0xA])].
Example C51_example : fst (do_dops (new_duplexer false false true false (mksink [] [] false) ex_copy) ex_duplex) =
  [DWrote None; DGot (ROk 2 Active) [0x61; 0xA]; DWrote None; DGot (ROk 3 End) [0xE9; 0xA]; DWrote None].
Proof. vm_compute. reflexivity. Qed.

(** ** C44 *)
(** The written side is the writer of the specification (SpecWrite.v), where a
    read that delivers a line end forgets the text written so far. *)
Theorem C44_duplex_specification : forall nel lsps cr p o sc os rs x, do_dops (new_duplexer nel lsps cr false (mksink p o false) sc) os = (rs, x) -> Forall plain_dop os ->
  spec_results cr (new_doc p o) os rs /\
  emitted (inner (dout x)) = sent (spec_sides cr (new_doc p o) os rs) /\ abandoned (inner (dout x)) = failed (spec_sides cr (new_doc p o) os rs).
Proof. intros nel lsps cr p o sc os rs x H F. destruct (duplex_refines _ _ _ _ _ _ _ _ _ H F) as (S & _ & _ & _ & E & A & _). auto. Qed.
Print Assumptions C44_duplex_specification.
Example C44_specification_example : Forall plain_dop ex_duplex /\
  spec_sides true (new_doc [] []) ex_duplex (fst (do_dops (new_duplexer false false true false (mksink [] [] false) ex_copy) ex_duplex)) =
  mkdoc [0x62; 0xA] [0x61; 0x62; 0xD; 0xA] false false [].
Proof. split; [repeat constructor; discriminate|]. vm_compute. reflexivity. Qed.
(** Closing succeeds only if the text written since a line was read is empty or
    ends with a line end; then everything written, in order, has been sent and
    every write succeeded. *)
Theorem C44_duplex_close : forall nel lsps cr p o sc os rs x w', do_dops (new_duplexer nel lsps cr false (mksink p o false) sc) os = (rs, x) -> Forall plain_dop os ->
  close (dout x) = (None, w') ->
  line_terminated (written_since [] os rs) /\ emitted (inner w') = p ++ as_sent cr (written os) /\
  Forall2 (fun o r => match o, r with DOut o, DWrote e => is_write o = true -> e = None | _, _ => True end) os rs.
Proof. exact duplex_close. Qed.
Print Assumptions C44_duplex_close.
Example C44_close_example : let '(rs, x) := do_dops (new_duplexer false false true false (mksink [] [] false) ex_copy) ex_duplex in
  fst (close (dout x)) = None /\ written_since [] ex_duplex rs = [0x62; 0xA] /\ written ex_duplex = [0x61; 0x62; 0xA].
Proof. vm_compute. auto. Qed.
(** After a read that delivers a line end, closing succeeds. *)
Theorem C44_close_after_line : forall nel lsps cr p sc os b rs r x, do_dops (new_duplexer nel lsps cr false (mksink p [] false) sc) (os ++ [DRead b]) = (rs ++ [r], x) ->
  Forall plain_dop os -> Forall (fun r => match r with DWrote (Some _) => False | _ => True end) rs -> line_read r = true ->
  exists w', close (dout x) = (None, w') /\ emitted (inner w') = p ++ as_sent cr (written os).
Proof. exact duplex_close_after_line. Qed.
Print Assumptions C44_close_after_line.
Example C44_after_line_example : exists x, do_dops (new_duplexer false false true false (mksink [] [] false) ex_copy) ([DOut (OpWriteStr [0x61])] ++ [DRead 136]) =
  ([DWrote None] ++ [DGot (ROk 2 Active) [0x61; 0xA]], x).
Proof. eexists. vm_compute. reflexivity. Qed.

(** ** C42 *)
(** Abandoning a duplexer panics exactly when abandoning its reader would.
    Otherwise nothing more is ever sent, dropping it does not panic, and every
    later write, flush or close fails. *)
Theorem C42_duplexer_abandon : forall d os r rs d', do_dops d (DOut OpAbandon :: os) = (r :: rs, d') ->
  (r = DPanic <-> abandon_input (din d) = None) /\
  (r <> DPanic -> emitted (inner (dout d')) = emitted (inner (dout d)) /\ drop_panics (dout d') = false /\
    Forall2 (fun o r => match o with DOut OpAbandon | DRead _ => True | DOut _ => exists e, r = DWrote (Some e) end) os rs).
Proof. exact duplex_abandoned. Qed.
Print Assumptions C42_duplexer_abandon.
(** After a read that left room in its buffer, a reader that can be abandoned
    delivers nothing more at the end of its stream, not even the line end that is
    otherwise supplied. *)
Theorem C42_abandoned_ends : forall nel lsps script sizes rs i sc b n s cs j sc' k blen,
  reads (new_input nel lsps) script sizes = (rs, i, sc) -> read i sc b = (ROk n s, cs, j, sc') -> (n + 4 <= b)%nat ->
  abandon_input j = Some k -> (136 <= blen)%nat -> exists k', read k [] blen = (ROk 0 End, [], k', []).
Proof. exact abandoned_ends. Qed.
Print Assumptions C42_abandoned_ends.
Example C42_abandoned_ends_example : exists i sc j sc' k k2,
  reads (new_input false false) [Chunk [0x61; 0xA; 0x1B; 0x5B] Active] [] = ([], i, sc) /\ read i sc 136 = (ROk 2 Active, [0x61; 0xA], j, sc') /\ (2 + 4 <= 136)%nat /\
  abandon_input j = Some k /\ read j [] 136 = (ROk 1 End, [LF], k2, []).
Proof. do 6 eexists. split; [reflexivity|]. split; [vm_compute; reflexivity|]. split; [lia|]. split; vm_compute; reflexivity. Qed.
Example C42_duplexer_example : exists r rs d', do_dops (new_duplexer false false true false (mksink [] [] false) ex_copy) (DOut OpAbandon :: ex_duplex) = (r :: rs, d') /\ r <> DPanic.
Proof. do 3 eexists. split; [vm_compute; reflexivity|]. discriminate. Qed.

(** ** C52 *)
(** What is sent by a duplexer that is closed successfully need not be valid
    text, even if it is closed directly after reading a line: the end of the
    written text is not looked at. *)
Theorem C52_closed_refuted : exists sc os rs x w', Forall plain_dop os /\ do_dops (new_duplexer false false false false (mksink [] [] false) sc) os = (rs, x) /\
  close (dout x) = (None, w') /\ is_basic_text (emitted (inner w')) = false.
Proof.
  exists [Chunk [0xA] Active], [DOut (OpWriteStr [0x61; 0x200D]); DRead 136]. do 3 eexists. split; [repeat constructor; discriminate|]. split; [vm_compute; reflexivity|].
  split; [vm_compute; reflexivity|]. vm_compute. reflexivity.
Qed.
Print Assumptions C52_closed_refuted.
(** With colours, a line read in the middle of an escape sequence drops its
    beginning; the rest is sent as text. *)
Theorem C52_escape_refuted : exists sc os rs x, do_dops (new_duplexer false false false true (mksink [] [] false) sc) os = (rs, x) /\
  concat (map dop_text os) = [0x1B; 0x5B; 0x33; 0x31; 0x6D] /\ emitted (inner (dout x)) = [0x31; 0x6D] /\
  Forall (fun r => match r with DWrote (Some _) => False | _ => True end) rs.
Proof.
  exists [Chunk [0xA] Active], [DOut (OpWriteStr [0x1B; 0x5B; 0x33]); DRead 136; DOut (OpWriteStr [0x31; 0x6D])]. do 2 eexists. split; [vm_compute; reflexivity|].
  split; [vm_compute; reflexivity|]. split; [vm_compute; reflexivity|]. repeat constructor.
Qed.
Print Assumptions C52_escape_refuted.
(** What remains true: if whole lines are written, what a closed duplexer sent is
    valid text. *)
Theorem C52_closed_lines_partial : forall nel lsps cr p o sc os rs x w', do_dops (new_duplexer nel lsps cr false (mksink p o false) sc) os = (rs, x) -> Forall plain_dop os ->
  Forall line_op (outs os) -> close (dout x) = (None, w') ->
  string_ok (written os) /\ line_terminated (written os) /\ emitted (inner w') = p ++ as_sent cr (written os).
Proof. exact duplex_closed_lines. Qed.
Print Assumptions C52_closed_lines_partial.
Example C52_example : Forall line_op (outs [DOut (OpWriteStr [0x41; 0x30A; 0xA]); DRead 136; DOut (OpWriteText [0x62; 0xA]); DOut OpFlush]).
Proof. repeat constructor; intro K; try discriminate K; [exists [0xC5]|exists [0x62]]; vm_compute; reflexivity. Qed.

(** ** C53 *)
(** The part of the caller's TextSubstr that a read has filled is a valid
    TextSubstr: the text of every call, successful or not. *)
Theorem C53_part_read_valid : forall nel lsps sc sizes rs j rest r cs, reads (new_input nel lsps) sc sizes = (rs, j, rest) -> In (r, cs) rs -> substring_ok cs.
Proof.
  intros nel lsps sc sizes rs j rest r cs H K. destruct (session_allowed _ _ _ _ _ _ _ H) as (S & _ & _). apply in_split in K. destruct K as (a & b & ->).
  apply substr_spec. apply substr_spec in S. apply (substr_slice cs (delivered (a ++ (r, cs) :: b))); [|exact S]. unfold delivered. rewrite flat_map_app. cbn [flat_map snd].
  exists (flat_map snd a), (flat_map snd b). reflexivity.
Qed.
Print Assumptions C53_part_read_valid.
(** The rest is not: the remaining bytes of a character are overwritten with
    U+0. *)
Theorem C53_buffer_refuted : exists sc buf n s cs j rest, is_basic_text_substr buf = true /\ read (new_input false false) sc (str_len buf) = (ROk n s, cs, j, rest) /\
  exists buf', decode (buffer_after (ROk n s) cs (encode_all buf)) = (buf', []) /\ In 0 buf' /\ is_basic_text_substr buf' = false.
Proof.
  exists [Chunk [0x78; 0x79; 0x7A; 0xA] Active], ([0x61; 0x61; 0x61; 0xE9] ++ repeat 0x61 131). do 5 eexists. split; [vm_compute; reflexivity|]. split; [vm_compute; reflexivity|].
  eexists. split; [vm_compute; reflexivity|]. split; [do 4 right; now left|vm_compute; reflexivity].
Qed.
Print Assumptions C53_buffer_refuted.
(** So the provided exact read panics. *)
Theorem C53_default_exact_refuted : exists sc buf fuel j rest, is_basic_text_substr buf = true /\ (136 <= str_len buf)%nat /\ no_fail sc /\
  default_exact fuel (new_input false false) sc (encode_all buf) = Some (DefPanic, j, rest).
Proof.
  exists [Chunk [0x78; 0x79; 0x7A; 0xA] Active], ([0x61; 0x61; 0x61; 0xE9] ++ repeat 0x61 131), 5%nat. do 2 eexists. split; [vm_compute; reflexivity|]. split; [vm_compute; lia|].
  split; [intros [H|[]]; discriminate|]. vm_compute. reflexivity.
Qed.
Print Assumptions C53_default_exact_refuted.
(** When every character of the buffer is one byte the provided exact read does
    not panic, after any history of reads; when it succeeds, or reports the end of
    the stream, so does the reader's own exact read ([intr] false: nothing was
    interrupted), in the same final state. *)
Theorem C53_default_exact_ascii : forall nel lsps script sizes rs i sc fuel t e j sc', script_scalars script -> reads (new_input nel lsps) script sizes = (rs, i, sc) ->
  Forall plain_ascii t -> default_exact fuel i sc t = Some (e, j, sc') ->
  e <> DefPanic /\ (e = DefOk -> exists u, read_exact false fuel i sc (length t) = Some (ExactOk, u, j, sc')) /\
  (e = DefEof -> exists u, read_exact false fuel i sc (length t) = Some (ExactEof, u, j, sc')).
Proof. intros nel lsps script sizes rs i sc fuel t e j sc' SS R P H. apply ascii_exact; auto. now exists nel, lsps, script, sizes, rs. Qed.
Print Assumptions C53_default_exact_ascii.
Example C53_ascii_example : script_scalars ex_astral /\ Forall plain_ascii (repeat 0x61 136) /\
  exists j sc, default_exact 10 (new_input false false) ex_astral (repeat 0x61 136) = Some (DefOk, j, sc).
Proof.
  split; [intros cs s [H|[]]; injection H as <- _; apply Forall_forall; rewrite <- forallb_forall; vm_compute; reflexivity|].
  split; [apply Forall_forall; intros x K; apply repeat_spec in K; subst x; unfold plain_ascii; lia|]. do 2 eexists. vm_compute. reflexivity.
Qed.
(** The variant that also returns the status does not panic either.  When it
    succeeds its reads have delivered as many bytes as the buffer holds, the end of
    the stream has not been seen and the status does not say so: a read that
    reports the end never fills its buffer.  It reports an unexpected end only
    when the end was seen before the buffer was full. *)
Theorem C53_default_exact_status_ascii : forall nel lsps script sizes0 rs0 i sc fuel t e j sc', script_scalars script -> reads (new_input nel lsps) script sizes0 = (rs0, i, sc) ->
  Forall plain_ascii t -> default_exact_status fuel i sc t = Some (e, j, sc') ->
  e <> StPanic /\ exists sizes rs, reads i sc sizes = (rs, j, sc') /\
  match e with
  | StOk s => str_len (delivered rs) = length t /\ s = Active /\ ~ reached_end rs
  | StEof => (str_len (delivered rs) < length t)%nat /\ reached_end rs
  | _ => ~ reached_end rs
  end.
Proof. intros nel lsps script sizes0 rs0 i sc fuel t e j sc' SS R P H. apply (ascii_exact_status fuel); auto. now exists nel, lsps, script, sizes0, rs0. Qed.
Print Assumptions C53_default_exact_status_ascii.
Example C53_status_example : (exists j sc, default_exact_status 10 (new_input false false) ex_astral (repeat 0x61 136) = Some (StOk Active, j, sc)) /\
  exists j sc, default_exact_status 10 (new_input false false) [Chunk (repeat 0x79 131 ++ [0xA]) End] (repeat 0x61 136) = Some (StEof, j, sc).
Proof. split; do 2 eexists; vm_compute; reflexivity. Qed.
(** A chunk without text makes the provided exact read fail although the reader's
    own exact read goes on and fills the buffer. *)
Theorem C53_default_exact_retry_refuted : exists sc t fuel j rest j' rest' u, Forall plain_ascii t /\ no_fail sc /\
  default_exact fuel (new_input false false) sc t = Some (DefErr, j, rest) /\ read_exact false fuel (new_input false false) sc (length t) = Some (ExactOk, u, j', rest').
Proof.
  exists (Chunk [] Active :: ex_astral), (repeat 0x61 136), 10%nat. do 5 eexists. split; [apply Forall_forall; intros x K; apply repeat_spec in K; subst x; unfold plain_ascii; lia|].
  split; [intros [H|[H|[]]]; discriminate|]. split; vm_compute; reflexivity.
Qed.
Print Assumptions C53_default_exact_retry_refuted.
