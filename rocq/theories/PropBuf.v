(** C95: a BufReader over a TextReader.  C96: a BufWriter or a LineWriter over a
    TextWriter. *)
From Coq Require Import NArith Arith List Bool Lia.
From Verif Require Import Base Ucd Norm Chars TextUtils SpecText TextFacts SpecConv Utf8 Utf8Facts Input Output SpecRead SpecCat SpecString StringProps SpecWrite SpecMore GuardFacts SpecGap GapProps SpecStream StreamProps
  Strings Lines LineIo StdIo StdBuf SpecBuf BufProps BufWrite.
Import ListNotations.
Local Open Scope N_scope.

(** ** C95 *)
(** Whatever is asked for and whatever fails, what a BufReader has given, with what it
    still holds, are the bytes of the text that some reads of the reader gave; it fails as
    often as they do. *)
Theorem C95_buffered : forall nel lsps script cap sizes rs b', (136 <= cap)%nat -> buf_reads (new_bufreader nel lsps script cap) sizes = (rs, b') ->
  exists ns xs, legal_sizes ns /\ reads (new_input nel lsps) script ns = (xs, under b', stream b') /\ bytes_given rs ++ unread b' = encode_all (received xs) /\ errors_given rs = reads_failed xs.
Proof. exact buffered_reads. Qed.
Print Assumptions C95_buffered.
(** No size is refused. *)
Theorem C95_no_error : forall nel lsps script cap sizes rs b', (136 <= cap)%nat -> no_fail script -> buf_reads (new_bufreader nel lsps script cap) sizes = (rs, b') -> ~ In BErr rs.
Proof. exact buffered_no_error. Qed.
Print Assumptions C95_no_error.
(** Ok(0) is the end: all the text was given before. *)
Theorem C95_end : forall nel lsps script cap sizes n rs b', (136 <= cap)%nat -> (0 < n)%nat -> buf_reads (new_bufreader nel lsps script cap) (sizes ++ [n]) = (rs ++ [BOk []], b') ->
  exists ns xs j rest, legal_sizes ns /\ reads (new_input nel lsps) script ns = (xs, j, rest) /\ reached_end xs /\ bytes_given rs = encode_all (received xs).
Proof. exact buffered_end. Qed.
Print Assumptions C95_end.
(** It comes after a number of calls that does not depend on what they ask for. *)
Theorem C95_ends : forall nel lsps script cap, (136 <= cap)%nat -> exists k, forall sizes rs b', (k <= length sizes)%nat -> Forall (fun n => 0 < n)%nat sizes ->
  buf_reads (new_bufreader nel lsps script cap) sizes = (rs, b') -> In (BOk []) rs.
Proof. exact buffered_ends. Qed.
Print Assumptions C95_ends.
(** The lines of a BufReader are the lines of the text; none panics. *)
Theorem C95_lines : forall nel lsps script cap t debug, (136 <= cap)%nat -> no_fail script -> gives nel lsps script t ->
  exists n its, text_lines debug (encode_all t) = Some its /\ forall m fuel, (n <= m)%nat -> (n <= fuel)%nat -> buf_text_lines m fuel debug (new_bufreader nel lsps script cap) = Some its.
Proof. exact buffered_lines. Qed.
Print Assumptions C95_lines.
(** If reads fail, the lines up to each failure and an error for it are given; a line that a
    failure cuts is left out.  Still none panics, and the end is reached. *)
Theorem C95_lines_any : forall nel lsps script cap debug, (136 <= cap)%nat ->
  exists k xs j rest n its, reads (new_input nel lsps) script (repeat cap k) = (xs, j, rest) /\ reached_end xs /\
  (exists ls last, Forall2 (items_for debug) (segments xs) (ls ++ [last]) /\ its = concat (map (fun l => l ++ [LineErr]) ls) ++ last) /\
  forall m fuel, (n <= m)%nat -> (n <= fuel)%nat -> buf_text_lines m fuel debug (new_bufreader nel lsps script cap) = Some its.
Proof. exact buffered_lines_any. Qed.
Print Assumptions C95_lines_any.
(** "a" LF "b" CGJ is given, then reading fails: "b" CGJ is left out. *)
Example C95_example_any :
  segments (fst (fst (reads (new_input false false) [Chunk [0x61; 0xA; 0x62; 0x34F; 0x63] Active; Fail; Chunk [0x64] End] [136; 136; 136]%nat))) = [[0x61; 0xA; 0x62; 0x34F]; [0x63; 0x64; 0xA]] /\
  buf_text_lines 9 9 true (new_bufreader false false [Chunk [0x61; 0xA; 0x62; 0x34F; 0x63] Active; Fail; Chunk [0x64] End] 136) = Some [Line [0x61]; LineErr; Line [0x63; 0x64]].
Proof. split; vm_compute; reflexivity. Qed.
(** With a shorter buffer, nothing can be read. *)
Theorem C95_short : forall nel lsps script cap sizes, (cap < 136)%nat -> Forall (fun n => n < 136)%nat sizes ->
  buf_reads (new_bufreader nel lsps script cap) sizes = (map (fun _ => BErr) sizes, new_bufreader nel lsps script cap).
Proof. exact buffered_short. Qed.
Print Assumptions C95_short.
(** "e" U+301 LF "é", without a line end, read two bytes, one byte, … at a time *)
Definition ex95 : list event := [Chunk [0x65; 0x301; 0xA; 0xE9] End].
Example C95_example : no_fail ex95 /\ fst (buf_reads (new_bufreader false false ex95 136) [2; 1; 100; 200]%nat) = [BOk [0xC3; 0xA9]; BOk [0xA]; BOk [0xC3; 0xA9; 0xA]; BOk []] /\
  gives false false ex95 [0xE9; 0xA; 0xE9; 0xA] /\ buf_text_lines 9 9 true (new_bufreader false false ex95 136) = Some [Line [0xE9]; Line [0xE9]] /\
  buf_reads (new_bufreader false false ex95 100) [2; 100]%nat = ([BErr; BErr], new_bufreader false false ex95 100).
Proof.
  split; [intros [H|[]]; discriminate|]. split; [vm_compute; reflexivity|]. split.
  { exists [136]%nat. do 3 eexists. split; [vm_compute; reflexivity|]. split; [eexists []; do 2 eexists; reflexivity|vm_compute; reflexivity]. }
  split; [vm_compute; reflexivity|]. vm_compute. reflexivity.
Qed.

(** ** C96 *)
(** What is sent for a text [s]: SpecGap.v. *)
Definition sent_text (bom cr : bool) (s : list N) : list N := (if bom then [0xFEFF] else []) ++ as_sent cr (nfc (stream_safe (coded_isolation s))).
Lemma sent_pipeline : forall (bom cr : bool) s, strict_stream s -> (if bom then [0xFEFF] else []) ++ as_sent cr (pipeline s) = sent_text bom cr s.
Proof. intros bom cr s A. unfold sent_text. do 2 f_equal. rewrite <- coded_isolated. apply pipeline_iso. apply accepted_clean, accepted_iff. apply A. Qed.
(** A text written through a BufWriter in pieces that end with line ends is accepted
    exactly if the documentation says so, and the documented text is sent, whatever
    the capacity. *)
Theorem C96_bufwriter : forall (bom cr : bool) cap ps rs b r w, Forall scalars ps -> line_pieces ps ->
  each_write bw_write_all (mkbw (new_writer cr false (below bom)) cap []) (map encode_all ps) = Some (rs, b) -> bw_finish b = Some (r, w) ->
  (Forall (fun r => r = None) (rs ++ [r]) <-> strict_stream (concat ps)) /\ (strict_stream (concat ps) -> emitted (inner w) = sent_text bom cr (concat ps)).
Proof. intros bom cr cap ps rs b r w S L E F. destruct (bufwriter_stream bom cr cap ps rs b r w S L E F) as [H1 H2]. split; [exact H1|]. intro A. rewrite <- sent_pipeline by exact A. now apply H2. Qed.
Print Assumptions C96_bufwriter.
(** The same through a LineWriter … *)
Theorem C96_linewriter_lines : forall (bom cr : bool) cap ps rs b r w, Forall scalars ps -> line_pieces ps ->
  each_write lw_write_all (mkbw (new_writer cr false (below bom)) cap []) (map encode_all ps) = Some (rs, b) -> bw_finish b = Some (r, w) ->
  (Forall (fun r => r = None) (rs ++ [r]) <-> strict_stream (concat ps)) /\ (strict_stream (concat ps) -> emitted (inner w) = sent_text bom cr (concat ps)).
Proof. intros bom cr cap ps rs b r w S L E F. destruct (linewriter_pieces bom cr cap ps rs b r w S L E F) as [H1 H2]. split; [exact H1|]. intro A. rewrite <- sent_pipeline by exact A. now apply H2. Qed.
Print Assumptions C96_linewriter_lines.
(** … and there, for pieces cut anywhere, if the lines fit. *)
Theorem C96_linewriter : forall (bom cr : bool) cap ps rs b r w, Forall scalars ps -> concat ps <> [] -> fits cap ps ->
  each_write lw_write_all (mkbw (new_writer cr false (below bom)) cap []) (map encode_all ps) = Some (rs, b) -> bw_finish b = Some (r, w) ->
  (Forall (fun r => r = None) (rs ++ [r]) <-> strict_stream (concat ps)) /\ (strict_stream (concat ps) -> emitted (inner w) = sent_text bom cr (concat ps)).
Proof. intros bom cr cap ps rs b r w S NE L E F. destruct (linewriter_stream bom cr cap ps rs b r w S NE L E F) as [H1 H2]. split; [exact H1|]. intro A. rewrite <- sent_pipeline by exact A. now apply H2. Qed.
Print Assumptions C96_linewriter.
(** Nothing gets stuck, for any bytes. *)
Theorem C96_total : forall (b : bufwriter) (ps : list (list N)), each_write bw_write_all b ps <> None /\ each_write lw_write_all b ps <> None /\ bw_finish b <> None.
Proof. intros b ps. exact (conj (each_total _ bw_total ps b) (conj (each_total _ lw_total ps b) (finish_total b))). Qed.
Print Assumptions C96_total.
(** Everything that happens: the results and what was sent. *)
Definition buffered_run (f : bufwriter -> list N -> option (wresult * bufwriter)) (cap : nat) (ps : list (list N)) : option (list wresult * list N) :=
  match each_write f (mkbw (new_writer false false (below false)) cap []) (map encode_all ps) with
  | Some (rs, b) => match bw_finish b with Some (r, w) => Some (rs ++ [r], emitted (inner w)) | None => None end
  | None => None
  end.
(** "e", then U+301 LF: a BufWriter for four bytes sends "é" LF, one for three sends
    "e" U+301 LF, which is not Basic Text, and reports success. *)
Theorem C96_cut_refuted : exists ps a b, Forall scalars ps /\ strict_stream (concat ps) /\
  buffered_run bw_write_all 4 ps = Some ([None; None; None], a) /\ buffered_run bw_write_all 3 ps = Some ([None; None; None], b) /\ string_ok a /\ ~ string_ok b.
Proof.
  exists [[0x65]; [0x301; 0xA]], [0xE9; 0xA], [0x65; 0x301; 0xA]. split; [repeat constructor|]. split.
  { split; [apply accepted_iff; vm_compute; reflexivity|]. right. now exists [0x65; 0x301]. }
  split; [vm_compute; reflexivity|]. split; [vm_compute; reflexivity|]. split; [apply basic_text_spec; vm_compute; reflexivity|]. intro H. apply basic_text_spec in H. vm_compute in H. discriminate.
Qed.
Print Assumptions C96_cut_refuted.
Example C96_example : let ps := [[0x65]; [0x301; 0xA; 0x66]; [0xA]] in
  Forall scalars ps /\ concat ps <> [] /\ fits 8 ps /\ strict_stream (concat ps) /\ buffered_run lw_write_all 8 ps = Some ([None; None; None; None], [0xE9; 0xA; 0x66; 0xA]) /\
  line_pieces [[0x65; 0x301; 0xA]; [0x66; 0xA]] /\ buffered_run bw_write_all 2 [[0x65; 0x301; 0xA]; [0x66; 0xA]] = Some ([None; None; None], [0xE9; 0xA; 0x66; 0xA]) /\
  buffered_run bw_write_all 9 [[0x65; 0x301; 0xA]; [0x7; 0xA]] = Some ([None; None; Some EWCheck], []).
Proof.
  cbv zeta. split; [repeat constructor|]. split; [discriminate|]. split.
  { assert (L : str_len (concat [[0x65]; [0x301; 0xA; 0x66]; [0xA]]) = 6%nat) by reflexivity.
    intros a p b l E (_ & u & E2 & _). rewrite E, concat_app, E2 in L. cbn [concat] in L. rewrite !str_len_app in L. lia. }
  split; [split; [apply accepted_iff; vm_compute; reflexivity|right; now exists [0x65; 0x301; 0xA; 0x66]]|]. split; [vm_compute; reflexivity|].
  split; [exact (lp_more [0x65; 0x301] _ (lp_one [0x66; 0xA] ltac:(discriminate)))|]. split; vm_compute; reflexivity.
Qed.
