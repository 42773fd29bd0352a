(** Properties of reading: C01, C02, C04-C11, C26, C27, C38, C39, C42, C43.
    A session is [reads (new_input nel lsps) script sizes]: a fresh reader with
    the two options, over an underlying stream that behaves as [script] says,
    read with buffers of the given sizes. *)
From Coq Require Import NArith List Bool.
From Verif Require Import Base Ucd Norm Chars TextUtils Utf8 Input SpecText SpecRead SpecEscape SpecConv DocTable NormFacts PipelineFacts IsoFacts Utf8Facts ReadFacts ReadSession ReadChunk ScalarFacts EscapeFacts EscapeRun ReadProps KeepFacts ReadPieces ConvFacts ReadMore EscapeCheck SpecGap GapProps.
Import ListNotations.
Local Open Scope N_scope.

(** "a CR" | "LF, combining acute, ESC [ m, b" | "ANGSTROM SIGN", read with two buffers *)
Definition ex_script : list event :=
  [Chunk [0x61; 0xD] Active; Chunk [0xA; 0x301; 0x1B; 0x5B; 0x6D; 0x62] Active; Chunk [0x212B] End].
Definition ex_session := reads (new_input false false) ex_script [136; 200; 136]%nat.
Definition ex_text : list N := [0x61; 0xA; 0x301; 0x62; 0xC5; 0xA].
Example ex_delivers : received (fst (fst ex_session)) = ex_text.
Proof. vm_compute. reflexivity. Qed.
Example ex_ends : reached_end (fst (fst ex_session)).
Proof. exists (firstn 2 (fst (fst ex_session))). do 2 eexists. vm_compute. reflexivity. Qed.

(** ** C01 *)
Theorem C01_stream_is_basic_text : forall nel lsps script sizes rs j rest,
  reads (new_input nel lsps) script sizes = (rs, j, rest) -> no_fail script -> reached_end rs ->
  string_ok (received rs) /\ line_terminated (received rs).
Proof. exact session_is_text. Qed.
Print Assumptions C01_stream_is_basic_text.
(** Also with failures, counting the text put in the buffers of failed calls. *)
Theorem C01_stream_is_basic_text_buffers : forall nel lsps script sizes rs j rest,
  reads (new_input nel lsps) script sizes = (rs, j, rest) -> reached_end rs ->
  string_ok (delivered rs) /\ line_terminated (delivered rs).
Proof. exact session_is_text_buffers. Qed.
Print Assumptions C01_stream_is_basic_text_buffers.
Example C01_example : no_fail ex_script /\ ex_text <> [].
Proof. split; [intros [H|[H|[H|[]]]]; discriminate H|discriminate]. Qed.

(** ** C02 *)
Theorem C02_nothing_forbidden : forall nel lsps script sizes rs j rest,
  reads (new_input nel lsps) script sizes = (rs, j, rest) -> substring_ok (delivered rs) /\ starts_ok (delivered rs) /\ Forall allowed (delivered rs).
Proof. exact session_allowed. Qed.
Print Assumptions C02_nothing_forbidden.
(** A stream full of forbidden characters, with a push and a failure: U+FFFE,
    U+F900, U+7, U+2028, BOM. *)
Example C02_example : delivered (fst (fst (reads (new_input false false)
  [Chunk [0xFFFE; 0xF900] Push; Fail; Chunk [0x7; 0x2028; 0xFEFF; 0xA] Active] [136; 136; 136]%nat)))
  = [0xFFFD; 0x8C48; 0xFE00; 0xFFFD; 0x20; 0x2060; 0xA].
Proof. vm_compute. reflexivity. Qed.

(** ** C04 *)
(** What a stream without pushes is converted to: the text is cut into the
    sequences of the table, leftmost and longest first, and each is replaced;
    U+34F guards the ends and a line end is added; then the result is isolated
    and normalized. *)
Theorem C04_conversion : forall nel lsps script sizes out j rest rs,
  reads (new_input nel lsps) script sizes = (out, j, rest) -> reached_end out ->
  no_push script -> bom_visible script ->
  replaced true (char_rep nel lsps) (without_bom (stream_text script)) rs -> unguarded_text (concat rs) ->
  delivered out = coded_form (guard_end (guard_start (concat rs)) ++ final_newline rs).
Proof.
  intros nel lsps script sizes out j rest rs H E NP BV HR U. rewrite final_newline_eq, <- coded_pipeline. exact (session_conversion nel lsps script sizes out j rest rs H E NP BV HR U).
Qed.
Print Assumptions C04_conversion.
(** Every text has exactly one such cut. *)
Theorem C04_cut_exists : forall nel lsps text, exists rs, replaced true (char_rep nel lsps) text rs.
Proof. exact replaced_total. Qed.
Print Assumptions C04_cut_exists.
Theorem C04_cut_unique : forall can rep text rs rs', replaced can rep text rs -> replaced can rep text rs' -> rs = rs'.
Proof. intros can rep text rs rs' H1 H2. exact (replaced_det can rep text rs H1 rs' H2). Qed.
Print Assumptions C04_cut_unique.
(** The grammar of the documentation and its replacements, in place of the
    code's, when CAN (U+18) does not occur. *)
Theorem C04_documented_sequences_partial : forall script sizes out j rest rs,
  reads (new_input false false) script sizes = (out, j, rest) -> reached_end out -> no_push script -> bom_visible script ->
  let text := without_bom (stream_text script) in
  ~ In 0x18 text -> Forall (fun c => odd_row c = false) text ->
  replaced false doc_rep text rs -> unguarded_text (concat rs) ->
  delivered out = nfc (stream_safe (isolated_form false (guard_end (guard_start (concat rs)) ++ final_newline rs))).
Proof.
  intros script sizes out j rest rs H E NP BV text NC NO HR U. rewrite final_newline_eq. destruct (session_end _ _ _ _ _ _ _ H E) as (-> & _).
  exact (converted_documented script rs NP BV NC NO HR U).
Qed.
Print Assumptions C04_documented_sequences_partial.
(** The whole documented conversion, for streams that end with a line end which
    is not part of an escape sequence and do not begin with an escape. *)
Theorem C04_documented_conversion_partial : forall script sizes rs0 j rest rs out,
  reads (new_input false false) script sizes = (rs0, j, rest) -> reached_end rs0 -> no_push script -> bom_visible script ->
  let text := without_bom (stream_text script) in
  documented_from (stream_text script) rs out ->
  ~ In 0x18 text -> Forall (fun c => odd_row c = false) text -> unguarded_text (concat rs) ->
  (forall c, last_opt text = Some c -> c = 0xA \/ c = 0xD) -> (text = [] \/ last_opt rs = Some [0xA]) ->
  (forall c t, text = c :: t -> c <> 0x1B /\ c <> 0x17B4 /\ c <> 0x17B5) ->
  delivered rs0 = out.
Proof.
  intros script sizes rs0 j rest rs out H E. destruct (session_end _ _ _ _ _ _ _ H E) as (-> & _). exact (reader_documented script rs out).
Qed.
Print Assumptions C04_documented_conversion_partial.
(** A cut: "a FF FF LF ESC [ 1 m b CR" becomes "a LF b LF". *)
Definition ex_raw : list N := [0x61; 0xC; 0xC; 0xA; 0x1B; 0x5B; 0x31; 0x6D; 0x62; 0xD].
Ltac cut_step m :=
  match goal with |- replaced _ _ ?s _ => let rest := eval vm_compute in (skipn (length m) s) in change s with (m ++ rest) end;
  apply replaced_cons; [|apply longest_check; vm_compute; reflexivity|].
Example C04_example : replaced false doc_rep ex_raw [[0x61]; [0xA]; []; [0x62]; [0xA]] /\
  unguarded_text (concat [[0x61]; [0xA]; []; [0x62]; [0xA]]) /\ ~ In 0x18 ex_raw /\ Forall (fun c => odd_row c = false) ex_raw.
Proof.
  assert (D : forall c, doc_lookup c = None -> doc_rep c = [c]) by (intros c H; unfold doc_rep; now rewrite H).
  split; [|split; [|split]].
  - unfold ex_raw. cut_step [0x61]; [rewrite <- (D 0x61) by (vm_compute; reflexivity); constructor; discriminate|].
    cut_step [0xC; 0xC; 0xA]; [apply (row_ff_lf _ _ [0xC; 0xC]); split; [discriminate|repeat constructor]|].
    cut_step [0x1B; 0x5B; 0x31; 0x6D];
      [apply (row_csi_final _ _ [0x1B] [0x31] 0x6D); [split; [discriminate|repeat constructor]|constructor; [split; discriminate|constructor]|left; split; discriminate]|].
    cut_step [0x62]; [rewrite <- (D 0x62) by (vm_compute; reflexivity); constructor; discriminate|].
    cut_step [0xD]; [constructor|]. constructor.
  - apply no_cgj_unguarded. reflexivity.
  - intro H. repeat (destruct H as [H|H]; [discriminate H|]). exact H.
  - repeat constructor.
Qed.
Example C04_example_session : delivered (fst (fst (reads (new_input false false) [Chunk (firstn 5 ex_raw) Active; Chunk (skipn 5 ex_raw) End] [136; 136]%nat)))
  = [0x61; 0xA; 0x62; 0xA].
Proof. vm_compute. reflexivity. Qed.
(** What the documentation does not say: CAN ends an escape sequence.  By the
    table "ESC CAN" is an escape and a control code. *)
Theorem C04_documented_sequences_refuted : exists script sizes out j rest rs,
  reads (new_input false false) script sizes = (out, j, rest) /\ reached_end out /\ no_push script /\ bom_visible script /\
  replaced false doc_rep (without_bom (stream_text script)) rs /\ unguarded_text (concat rs) /\
  delivered out <> nfc (stream_safe (isolated_form false (guard_end (guard_start (concat rs)) ++ final_newline rs))).
Proof.
  exists [Chunk [0x1B; 0x18; 0xA] End], [136%nat]. do 3 eexists. exists [[]; [0xFFFD]; [0xA]].
  split; [vm_compute; reflexivity|]. split; [exists []; do 2 eexists; reflexivity|]. split; [intros cs [H|[]]; discriminate H|].
  split; [right; do 4 eexists; reflexivity|]. split.
  - change (without_bom (stream_text [Chunk [0x1B; 0x18; 0xA] End])) with [0x1B; 0x18; 0xA].
    cut_step [0x1B]; [apply row_esc; split; [discriminate|repeat constructor]|].
    cut_step [0x18]; [change [0xFFFD] with (doc_rep 0x18); constructor; discriminate|].
    cut_step [0xA]; [change [0xA] with (doc_rep 0xA) at 2; constructor; discriminate|]. constructor.
  - split; [apply no_cgj_unguarded; reflexivity|]. vm_compute. discriminate.
Qed.
Print Assumptions C04_documented_sequences_refuted.

(** ** C05 *)
Theorem C05_chunks_do_not_matter : forall nel lsps script1 sizes1 rs1 j1 rest1 script2 sizes2 rs2 j2 rest2 seqs,
  reads (new_input nel lsps) script1 sizes1 = (rs1, j1, rest1) -> reads (new_input nel lsps) script2 sizes2 = (rs2, j2, rest2) ->
  stream_text script1 = stream_text script2 -> no_push script1 -> no_push script2 -> bom_visible script1 -> bom_visible script2 ->
  replaced true (char_rep nel lsps) (without_bom (stream_text script1)) seqs -> unguarded_text (concat seqs) ->
  reached_end rs1 -> reached_end rs2 -> delivered rs1 = delivered rs2.
Proof. exact chunks_do_not_matter. Qed.
Print Assumptions C05_chunks_do_not_matter.
(** In particular when all characters are assigned, or U+34F does not occur. *)
Theorem C05_chunks_do_not_matter_simple : forall nel lsps script1 sizes1 rs1 j1 rest1 script2 sizes2 rs2 j2 rest2,
  reads (new_input nel lsps) script1 sizes1 = (rs1, j1, rest1) -> reads (new_input nel lsps) script2 sizes2 = (rs2, j2, rest2) ->
  stream_text script1 = stream_text script2 -> no_push script1 -> no_push script2 -> bom_visible script1 -> bom_visible script2 ->
  Forall (fun c => is_assigned c = true) (stream_text script1) \/ ~ In 0x34F (stream_text script1) ->
  reached_end rs1 -> reached_end rs2 -> delivered rs1 = delivered rs2.
Proof. exact chunks_do_not_matter_simple. Qed.
Print Assumptions C05_chunks_do_not_matter_simple.
Example C05_example : stream_text ex_script = stream_text [Chunk [0x61; 0xD; 0xA; 0x301; 0x1B; 0x5B; 0x6D; 0x62; 0x212B] End] /\
  no_push ex_script /\ bom_visible ex_script /\ ~ In 0x34F (stream_text ex_script).
Proof.
  split; [reflexivity|]. split; [intros cs H; repeat (destruct H as [H|H]; [discriminate H|]); exact H|]. split; [left; discriminate|].
  intro H. vm_compute in H. repeat (destruct H as [H|H]; [discriminate H|]). exact H.
Qed.
(** With nothing assumed about unassigned characters: only where the reader cut
    the translated text into pieces can matter, and it cuts after U+A or U+34F. *)
Theorem C05_pieces : forall nel lsps script sizes out j rest rs,
  reads (new_input nel lsps) script sizes = (out, j, rest) -> reached_end out -> no_push script -> bom_visible script ->
  replaced true (char_rep nel lsps) (without_bom (stream_text script)) rs ->
  exists pieces, concat pieces = guard_end (guard_start (concat rs)) ++ final_newline rs /\
    Forall (fun p => exists a x, p = a ++ [x] /\ (x = 0xA \/ x = 0x34F)) pieces /\ delivered out = concat (map coded_form pieces).
Proof.
  intros nel lsps script sizes out j rest rs H E NP BV HR. destruct (session_end _ _ _ _ _ _ _ H E) as (-> & _).
  rewrite final_newline_eq, <- (translate_replaced _ _ _ _ HR). destruct (converted_pieces nel lsps script NP BV) as (ps & P). exists ps. rewrite <- coded_pieces. exact P.
Qed.
Print Assumptions C05_pieces.
(** A whole stream in one read is one piece. *)
Theorem C05_one_read : forall nel lsps text sizes out j rest rs,
  reads (new_input nel lsps) [Chunk text End] sizes = (out, j, rest) -> reached_end out ->
  replaced true (char_rep nel lsps) (without_bom text) rs ->
  delivered out = coded_form (guard_end (guard_start (concat rs)) ++ final_newline rs).
Proof.
  intros nel lsps text sizes out j rest rs H E HR. destruct (session_end _ _ _ _ _ _ _ H E) as (-> & _).
  rewrite final_newline_eq, <- coded_pipeline, <- (translate_replaced _ _ _ _ HR). apply converted_whole.
Qed.
Print Assumptions C05_one_read.
(** The property fails for U+34F followed by an unassigned character when the
    reads are cut between them. *)
Theorem C05_without_condition_refuted : exists script1 sizes1 rs1 j1 rest1 script2 sizes2 rs2 j2 rest2,
  reads (new_input false false) script1 sizes1 = (rs1, j1, rest1) /\ reads (new_input false false) script2 sizes2 = (rs2, j2, rest2) /\
  stream_text script1 = stream_text script2 /\ no_push script1 /\ no_push script2 /\ reached_end rs1 /\ reached_end rs2 /\
  delivered rs1 <> delivered rs2.
Proof.
  exists [Chunk [0x61; 0x34F; 0x378; 0xA] End], [136%nat]. do 3 eexists. exists [Chunk [0x61; 0x34F] Active; Chunk [0x378; 0xA] End], [136; 136]%nat. do 3 eexists.
  split; [vm_compute; reflexivity|]. split; [vm_compute; reflexivity|]. split; [reflexivity|].
  split; [intros cs H; repeat (destruct H as [H|H]; [discriminate H|]); exact H|]. split; [intros cs H; repeat (destruct H as [H|H]; [discriminate H|]); exact H|].
  split; [exists []; do 2 eexists; reflexivity|]. split; [eexists [_]; do 2 eexists; reflexivity|]. vm_compute. discriminate.
Qed.
Print Assumptions C05_without_condition_refuted.

(** ** C06 *)
Theorem C06_sizes_do_not_matter : forall nel lsps script sizes1 rs1 j1 rest1 sizes2 rs2 j2 rest2,
  reads (new_input nel lsps) script sizes1 = (rs1, j1, rest1) -> reads (new_input nel lsps) script sizes2 = (rs2, j2, rest2) ->
  no_fail script -> reached_end rs1 ->
  (exists more, received rs1 = received rs2 ++ more) /\ (reached_end rs2 -> received rs1 = received rs2).
Proof. exact sizes_do_not_matter_received. Qed.
Print Assumptions C06_sizes_do_not_matter.
Definition long_line : list N := repeat 0xE9 100 ++ [0xA].
Example C06_example : received (fst (fst (reads (new_input false false) [Chunk long_line End] [136; 140; 136]%nat))) = long_line /\
  map fst (fst (fst (reads (new_input false false) [Chunk long_line End] [136; 140; 136]%nat))) = [ROk 134 Active; ROk 67 Active; ROk 0 End] /\
  map fst (fst (fst (reads (new_input false false) [Chunk long_line End] [1000]%nat))) = [ROk 201 End].
Proof. repeat split; vm_compute; reflexivity. Qed.

(** ** C07 *)
Theorem C07_buffer_valid : forall nel lsps script sizes rs i script1 buf n s cs j script2,
  scalar_stream script -> reads (new_input nel lsps) script sizes = (rs, i, script1) ->
  read i script1 (length buf) = (ROk n s, cs, j, script2) -> valid_utf8 buf = true ->
  let buf' := buffer_after (ROk n s) cs buf in
  (n <= length buf)%nat /\ scalars cs /\ firstn n buf' = encode_all cs /\ length buf' = length buf /\ valid_utf8 buf' = true.
Proof. exact read_buffer. Qed.
Print Assumptions C07_buffer_valid.
(** Buffer full of two-byte characters; three bytes are written. *)
Example C07_example : let buf := encode_all (repeat 0xE9 70) in
  exists cs j rest, read (new_input false false) [Chunk [0x61; 0x62; 0xA] End] (length buf) = (ROk 3 End, cs, j, rest) /\ valid_utf8 buf = true /\
    firstn 6 (buffer_after (ROk 3 End) cs buf) = [0x61; 0x62; 0xA; 0; 0xC3; 0xA9].
Proof. do 3 eexists. split; [vm_compute; reflexivity|]. split; vm_compute; reflexivity. Qed.

(** ** C08 *)
Definition fail_script : list event := [Chunk (repeat 0x61 139 ++ [0xA]) Active; Fail; Chunk [] End].
Theorem C08_failed_read_buffer_refuted : exists script sizes rs i script1 buf cs j script2,
  scalar_stream script /\ reads (new_input false false) script sizes = (rs, i, script1) /\
  read i script1 (length buf) = (RErr, cs, j, script2) /\ valid_utf8 buf = true /\ valid_utf8 (buffer_after RErr cs buf) = false.
Proof.
  exists fail_script, [136%nat]. do 3 eexists. exists (encode_all (repeat 0xE9 70)). do 3 eexists.
  split. { intros cs s H. destruct H as [H|[H|[H|[]]]]; [injection H as <- <-|discriminate H|injection H as <- <-; constructor].
    repeat constructor. }
  split; [vm_compute; reflexivity|]. split; [vm_compute; reflexivity|]. split; vm_compute; reflexivity.
Qed.
Print Assumptions C08_failed_read_buffer_refuted.
(** Text that was ready when the failure happened never reaches the caller. *)
Theorem C08_text_lost_refuted : exists script sizes rs j rest, reads (new_input false false) script sizes = (rs, j, rest) /\ reached_end rs /\
  received rs <> received (fst (fst (reads (new_input false false) (without_failures script) sizes))) /\
  reached_end (fst (fst (reads (new_input false false) (without_failures script) sizes))).
Proof.
  exists fail_script, [136; 136; 136]%nat. do 3 eexists. split; [vm_compute; reflexivity|]. split; [eexists [_; _]; do 2 eexists; reflexivity|].
  split; [vm_compute; discriminate|]. eexists [_; _]; do 2 eexists. vm_compute. reflexivity.
Qed.
Print Assumptions C08_text_lost_refuted.
(** What holds: a failure right after a call that left at least four bytes of
    its buffer unused leaves the buffer alone and loses nothing. *)
Theorem C08_failed_read_buffer_partial : forall nel lsps script sizes rs i script1 b n s cs j script2 b' cs' k script3,
  reads (new_input nel lsps) script sizes = (rs, i, script1) ->
  read i script1 b = (ROk n s, cs, j, script2) -> (n + 4 <= b)%nat ->
  read j script2 b' = (RErr, cs', k, script3) -> cs' = [] /\ forall buf, buffer_after RErr cs' buf = buf.
Proof. exact failure_after_room. Qed.
Print Assumptions C08_failed_read_buffer_partial.
(** And the reader itself is not confused: with the bytes written by failed
    calls, the text is that of the stream without failures. *)
Theorem C08_failures_harmless_partial : forall nel lsps script sizes1 rs1 j1 rest1 sizes2 rs2 j2 rest2,
  reads (new_input nel lsps) script sizes1 = (rs1, j1, rest1) -> reached_end rs1 ->
  reads (new_input nel lsps) (filter (fun e => match e with Fail => false | _ => true end) script) sizes2 = (rs2, j2, rest2) -> reached_end rs2 ->
  delivered rs1 = delivered rs2.
Proof. exact failures_harmless. Qed.
Print Assumptions C08_failures_harmless_partial.
Example C08_example : map fst (fst (fst (reads (new_input false false) [Chunk [0x61; 0xA] Active; Fail; Chunk [0x62] End] [136; 136; 136]%nat))) = [ROk 2 Active; RErr; ROk 2 End].
Proof. vm_compute. reflexivity. Qed.

(** ** C09 *)
Theorem C09_end_is_complete : forall nel lsps script sizes rs j rest sizes2 rs2 j2 rest2,
  reads (new_input nel lsps) script sizes = (rs, j, rest) -> reached_end rs ->
  reads (new_input nel lsps) script sizes2 = (rs2, j2, rest2) -> exists more, delivered rs = delivered rs2 ++ more.
Proof.
  intros nel lsps script sizes rs j rest sizes2 rs2 j2 rest2 H E H2.
  exact (proj1 (sizes_do_not_matter nel lsps script sizes rs j rest sizes2 rs2 j2 rest2 H H2 E)).
Qed.
Print Assumptions C09_end_is_complete.
Theorem C09_end_is_reached : forall nel lsps script, exists n, forall sizes, legal_sizes sizes -> (n <= length sizes)%nat ->
  exists k rs j rest, reads (new_input nel lsps) script (firstn k sizes) = (rs, j, rest) /\ reached_end rs.
Proof. exact session_terminates. Qed.
Print Assumptions C09_end_is_reached.
Example C09_example : legal_sizes (repeat 136%nat 1000).
Proof. apply Forall_forall. intros b H. apply repeat_spec in H. subst. auto. Qed.

(** ** C10 *)
(** A push that comes with more text than fits in the buffer is never reported. *)
Theorem C10_push_reported_refuted : exists script sizes rs j rest, reads (new_input false false) script sizes = (rs, j, rest) /\ reached_end rs /\
  In (Chunk (repeat 0x61 199 ++ [0xA]) Push) script /\ forall n cs, ~ In (ROk n Push, cs) rs.
Proof.
  exists [Chunk (repeat 0x61 199 ++ [0xA]) Push], [136; 136; 136]%nat. do 3 eexists. split; [vm_compute; reflexivity|].
  split; [eexists [_; _]; do 2 eexists; reflexivity|]. split; [now left|].
  intros n cs H. destruct H as [H|[H|[H|[]]]]; discriminate H.
Qed.
Print Assumptions C10_push_reported_refuted.
(** A push is reported before the text it was meant to push: a prompt "ab: "
    without a line end is held back. *)
Theorem C10_push_delivers_refuted : exists cs n out j rest, cs = [0x61; 0x62; 0x3A; 0x20] /\
  read (new_input false false) [Chunk cs Push] 136 = (ROk n Push, out, j, rest) /\ out = [] .
Proof. do 5 eexists. split; [reflexivity|]. split; [vm_compute; reflexivity|reflexivity]. Qed.
Print Assumptions C10_push_delivers_refuted.
Theorem C10_push_reported_partial : forall i cs t blen n s out j,
  read i (Chunk cs Push :: t) blen = (ROk n s, out, j, t) -> (n + 4 <= blen)%nat -> s = Push.
Proof. exact push_reported. Qed.
Print Assumptions C10_push_reported_partial.
Theorem C10_push_genuine : forall i script blen n out j rest,
  read i script blen = (ROk n Push, out, j, rest) -> exists cs, script = Chunk cs Push :: rest.
Proof. exact push_genuine. Qed.
Print Assumptions C10_push_genuine.
Example C10_example : exists j, read (new_input false false) [Chunk [0x61; 0xA] Push; Chunk [] End] 136 = (ROk 2 Push, [0x61; 0xA], j, [Chunk [] End]).
Proof. eexists. vm_compute. reflexivity. Qed.

(** ** C11 *)
Theorem C11_quick_path : forall s, is_nfc_stream_safe_quick s = Yes -> forallb is_public_assigned s = true -> pipeline s = s.
Proof. exact pipeline_quick. Qed.
Print Assumptions C11_quick_path.
Example C11_example : is_nfc_stream_safe_quick [0xE9; 0x6C; 0xE8; 0x76; 0x65; 0xA] = Yes /\ forallb is_public_assigned [0xE9; 0x6C; 0xE8; 0x76; 0x65; 0xA] = true.
Proof. split; vm_compute; reflexivity. Qed.

(** ** C26 *)
Theorem C26_isolated_partial : forall s, unguarded_text s -> isolated (isolate_unassigned s) /\ isolated (pipeline s).
Proof. intros s H. exact (conj (iso_isolated s H) (pipeline_isolated s H)). Qed.
Print Assumptions C26_isolated_partial.
(** Where U+34F is inserted, for every text: at the documented places, except
    after an unassigned character that itself follows U+34F. *)
Theorem C26_isolation_exact : forall s, isolate_unassigned s = coded_isolation s.
Proof. exact coded_isolated. Qed.
Print Assumptions C26_isolation_exact.
Theorem C26_documented_places : forall s, isolated_form false s = documented_isolation s.
Proof. exact documented_isolated. Qed.
Print Assumptions C26_documented_places.
Theorem C26_places_differ : forall pp p c, documented_place pp p c <> coded_place pp p c <->
  at_cgj pp = true /\ at_unassigned p = true /\ at_cgj c = false /\ at_unassigned c = false.
Proof. exact places_differ. Qed.
Print Assumptions C26_places_differ.
Example C26_places_example : coded_isolation [0x61; 0x378; 0x34F; 0x379; 0x62; 0x378] = [0x61; 0x34F; 0x378; 0x34F; 0x379; 0x62; 0x34F; 0x378; 0x34F]
  /\ documented_isolation [0x61; 0x378; 0x34F; 0x379; 0x62; 0x378] = [0x61; 0x34F; 0x378; 0x34F; 0x379; 0x34F; 0x62; 0x34F; 0x378; 0x34F].
Proof. split; vm_compute; reflexivity. Qed.
(** The function is the documented insertion of U+34F. *)
Theorem C26_isolation_as_documented_partial : forall s, unguarded_text s -> isolate_unassigned s = isolated_form false s.
Proof. exact iso_documented. Qed.
Print Assumptions C26_isolation_as_documented_partial.
Theorem C26_isolated_refuted : exists s, ~ isolated (isolate_unassigned s) /\ ~ isolated (pipeline s).
Proof. exact iso_isolated_refuted. Qed.
Print Assumptions C26_isolated_refuted.
Theorem C26_preceded_partial : forall nel lsps script sizes rs j rest,
  reads (new_input nel lsps) script sizes = (rs, j, rest) -> preceded (delivered rs).
Proof.
  intros nel lsps script sizes rs j rest H. destruct (delivered_prefix _ _ _ _ _ _ _ H) as [more E].
  apply (preceded_prefix _ more). rewrite <- E. apply converted_preceded.
Qed.
Print Assumptions C26_preceded_partial.
Example C26_example : unguarded_text [0x61; 0x378; 0x62] /\ isolate_unassigned [0x61; 0x378; 0x62] = [0x61; 0x34F; 0x378; 0x34F; 0x62].
Proof. split; [apply no_cgj_unguarded; reflexivity|vm_compute; reflexivity]. Qed.

(** ** C27 *)
Theorem C27_isolate_idempotent : forall s, isolate_unassigned (isolate_unassigned s) = isolate_unassigned s.
Proof. exact iso_idem. Qed.
Print Assumptions C27_isolate_idempotent.
Theorem C27_isolate_only_adds : forall s, inserts 0x34F s (isolate_unassigned s).
Proof. exact iso_only_adds. Qed.
Print Assumptions C27_isolate_only_adds.
Example C27_example : isolate_unassigned [0x378; 0x379] = [0x34F; 0x378; 0x34F; 0x379; 0x34F].
Proof. vm_compute. reflexivity. Qed.

(** ** C38 *)
Theorem C38_decode_encode : forall s rest, scalars s -> decode1 rest = None -> decode (encode_all s ++ rest) = (s, rest).
Proof. exact decode_encode. Qed.
Print Assumptions C38_decode_encode.
Theorem C38_only_canonical : forall bs, valid_utf8 bs = true <-> exists s, scalars s /\ bs = encode_all s.
Proof. exact valid_utf8_spec. Qed.
Print Assumptions C38_only_canonical.
Theorem C38_injective : forall a b, scalars a -> scalars b -> encode_all a = encode_all b -> a = b.
Proof. exact encode_all_inj. Qed.
Print Assumptions C38_injective.
(** Overlong, surrogate and truncated forms are refused. *)
Example C38_example : valid_utf8 [0xC0; 0x80] = false /\ valid_utf8 [0xED; 0xA0; 0x80] = false /\ valid_utf8 [0xF0; 0x9F; 0x98] = false
  /\ decode (encode_all [0x1F600; 0x41] ++ [0xFF]) = ([0x1F600; 0x41], [0xFF]).
Proof. repeat split; vm_compute; reflexivity. Qed.

(** ** C39 *)
(** Removing a byte order mark at the start of the first read and writing U+2060
    for every other one does not change the text. *)
Theorem C39_bom : forall nel lsps script sizes1 rs1 j1 rest1 sizes2 rs2 j2 rest2,
  reads (new_input nel lsps) script sizes1 = (rs1, j1, rest1) -> reads (new_input nel lsps) (relabel true script) sizes2 = (rs2, j2, rest2) ->
  reached_end rs1 -> reached_end rs2 -> delivered rs1 = delivered rs2.
Proof. exact session_relabel. Qed.
Print Assumptions C39_bom.
(** Every U+2060 that is not part of an escape sequence is delivered. *)
Theorem C39_word_joiners_delivered : forall nel lsps script sizes out j rest rs,
  reads (new_input nel lsps) script sizes = (out, j, rest) -> reached_end out ->
  no_push script -> bom_visible script -> replaced true (char_rep nel lsps) (without_bom (stream_text script)) rs ->
  count_occ N.eq_dec (delivered out) 0x2060 = count_occ N.eq_dec (concat rs) 0x2060.
Proof.
  intros nel lsps script sizes out j rest rs H E NP BV HR.
  rewrite (session_count nel lsps script sizes out j rest rs 0x2060 H E NP BV HR (or_intror eq_refl)).
  rewrite count_occ_app. destruct (needs_newline rs); simpl; now rewrite <- plus_n_O.
Qed.
Print Assumptions C39_word_joiners_delivered.
Example C39_example : relabel true [Fail; Chunk [0xFEFF; 0x61; 0xFEFF] Active; Chunk [0xFEFF] End] = [Fail; Chunk [0x61; 0x2060] Active; Chunk [0x2060] End].
Proof. reflexivity. Qed.
(** A byte order mark at the start of the stream that arrives after an empty
    read is delivered. *)
Theorem C39_leading_bom_refuted : exists script sizes rs j rest t, reads (new_input false false) script sizes = (rs, j, rest) /\ reached_end rs /\
  stream_text script = 0xFEFF :: t /\ In 0x2060 (delivered rs).
Proof.
  exists [Chunk [] Active; Chunk [0xFEFF; 0x61; 0xA] End], [136; 136]%nat. do 3 eexists. exists [0x61; 0xA].
  split; [vm_compute; reflexivity|]. split; [eexists [_]; do 2 eexists; reflexivity|]. split; [reflexivity|]. left. reflexivity.
Qed.
Print Assumptions C39_leading_bom_refuted.

(** ** C42 *)
Theorem C42_abandon_refuted : exists script sizes rs j rest, reads (new_input false false) script sizes = (rs, j, rest) /\ abandon_input j = None.
Proof. exists [Chunk [0x61] Active], [136%nat]. do 3 eexists. split; vm_compute; reflexivity. Qed.
Print Assumptions C42_abandon_refuted.
Theorem C42_abandon_after_end_partial : forall nel lsps script sizes rs j rest,
  reads (new_input nel lsps) script sizes = (rs, j, rest) -> reached_end rs -> abandon_input j <> None.
Proof. exact abandon_after_end. Qed.
Print Assumptions C42_abandon_after_end_partial.
Theorem C42_abandon_unread_partial : forall nel lsps, abandon_input (new_input nel lsps) <> None.
Proof. exact abandon_unread. Qed.
Print Assumptions C42_abandon_unread_partial.

(** ** C43 *)
(** In the cut of C04, a line separator that belongs to no escape sequence is
    replaced by a line end or a space, according to the options, and the line
    ends delivered are exactly those of the replaced text and the final one. *)
Theorem C43_separators : forall can nel lsps c r, row can (char_rep nel lsps) [c] r ->
  (c = 0x85 -> r = if nel then [0xA] else [0x20]) /\ (c = 0x2028 \/ c = 0x2029 -> r = if lsps then [0xA] else [0x20]).
Proof.
  intros can nel lsps c r H. split; intro E.
  - subst c. rewrite (row_single _ _ _ _ H) by discriminate. destruct nel, lsps; reflexivity.
  - destruct E; subst c; rewrite (row_single _ _ _ _ H) by discriminate; destruct nel, lsps; reflexivity.
Qed.
Print Assumptions C43_separators.
Theorem C43_line_ends : forall nel lsps script sizes out j rest rs,
  reads (new_input nel lsps) script sizes = (out, j, rest) -> reached_end out ->
  no_push script -> bom_visible script -> replaced true (char_rep nel lsps) (without_bom (stream_text script)) rs ->
  count_occ N.eq_dec (delivered out) 0xA = count_occ N.eq_dec (concat rs ++ final_newline rs) 0xA.
Proof.
  intros nel lsps script sizes out j rest rs H E NP BV HR. rewrite final_newline_eq.
  exact (session_count nel lsps script sizes out j rest rs 0xA H E NP BV HR (or_introl eq_refl)).
Qed.
Print Assumptions C43_line_ends.
Example C43_example : map (fun o : bool * bool => delivered (fst (fst (reads (new_input (fst o) (snd o)) [Chunk [0x61; 0x85; 0x62; 0x2028; 0x63; 0xA] End] [136%nat]))))
    [(false, false); (true, false); (false, true); (true, true)]
  = [[0x61; 0x20; 0x62; 0x20; 0x63; 0xA]; [0x61; 0xA; 0x62; 0x20; 0x63; 0xA]; [0x61; 0x20; 0x62; 0xA; 0x63; 0xA]; [0x61; 0xA; 0x62; 0xA; 0x63; 0xA]].
Proof. vm_compute. reflexivity. Qed.
(** The documentation has U+85 replaced by U+A before the table is applied.
    Then "FF NEL" would be "FF LF", one line end; the code delivers a space. *)
Theorem C43_replaced_first_refuted : exists text rs1 j1 rest1 rs2 j2 rest2,
  reads (new_input true false) [Chunk text End] [136%nat] = (rs1, j1, rest1) /\ reached_end rs1 /\
  reads (new_input false false) [Chunk (map (fun c => if c =? 0x85 then 0xA else c) text) End] [136%nat] = (rs2, j2, rest2) /\ reached_end rs2 /\
  delivered rs1 <> delivered rs2.
Proof.
  exists [0xC; 0x85]. do 6 eexists. split; [vm_compute; reflexivity|]. split; [exists []; do 2 eexists; reflexivity|].
  split; [vm_compute; reflexivity|]. split; [exists []; do 2 eexists; reflexivity|]. vm_compute. discriminate.
Qed.
Print Assumptions C43_replaced_first_refuted.
