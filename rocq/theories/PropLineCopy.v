(** C100: std::io::copy from a BufReader over a TextReader to a LineWriter over a
    TextWriter.  C96: bytes cut anywhere, through a LineWriter. *)
From Coq Require Import NArith Arith List Bool Lia.
From Verif Require Import Base Ucd Norm Chars TextUtils SpecText TextFacts SpecConv Utf8 Utf8Facts Input Output SpecRead SpecCat SpecString StringProps SpecWrite SpecGap SpecStream StreamProps
  Strings Lines LineIo Copy StdIo StdBuf SpecBuf BufProps BufWrite PropBuf SpecLineBuf LineBytes StdCopy LineCopy.
Import ListNotations.
Local Open Scope N_scope.

(** ** C96, bytes *)
(** The bytes of a text, cut anywhere, also within characters, through a LineWriter in
    which the lines fit: accepted exactly if the documentation says so, and then the
    documented text is sent. *)
Theorem C96_linewriter_bytes : forall (bom cr : bool) cap ps s rs b r w, scalars s -> concat ps = encode_all s -> s <> [] -> bytes_fit cap ps ->
  each_write lw_write_all (mkbw (new_writer cr false (below bom)) cap []) ps = Some (rs, b) -> bw_finish b = Some (r, w) ->
  (Forall (fun r => r = None) (rs ++ [r]) <-> strict_stream s) /\ (strict_stream s -> emitted (inner w) = sent_text bom cr s).
Proof. intros bom cr cap ps s rs b r w S E N L EW F. destruct (linewriter_bytes bom cr cap ps s rs b r w S E N L EW F) as [H1 H2]. split; [exact H1|]. intro A. rewrite <- sent_pipeline by exact A. now apply H2. Qed.
Print Assumptions C96_linewriter_bytes.
(** "e" U+301 LF, with U+301 (CC 81) cut in two. *)
Example C96_example_bytes : let ps := [[0x65; 0xCC]; [0x81]; [0xA]] in concat ps = encode_all [0x65; 0x301; 0xA] /\ bytes_fit 5 ps /\ strict_stream [0x65; 0x301; 0xA] /\
  exists b w, each_write lw_write_all (mkbw (new_writer true false (below true)) 5 []) ps = Some ([None; None; None], b) /\ bw_finish b = Some (None, w) /\ emitted (inner w) = [0xFEFF; 0xE9; 0xD; 0xA].
Proof.
  cbv zeta. split; [reflexivity|]. split.
  { assert (L : length (concat [[0x65; 0xCC]; [0x81]; [0xA]]) = 4%nat) by reflexivity. intros a p b l E (_ & u & E2 & _). rewrite E, concat_app, E2 in L. cbn [concat] in L. rewrite !app_length in L. lia. }
  split; [split; [apply accepted_iff; vm_compute; reflexivity|right; now exists [0x65; 0x301]]|]. do 2 eexists. do 2 (split; [vm_compute; reflexivity|]). reflexivity.
Qed.

(** ** C100 *)
(** Copying ends, for every stream and every writer. *)
Theorem C100_total : forall nel lsps script cap n, (136 <= cap)%nat -> (0 < n)%nat -> exists k, forall o count fuel, (k <= fuel)%nat ->
  buf_copy fuel n (new_bufreader nel lsps script cap) o count <> None.
Proof. exact buf_copy_total. Qed.
Print Assumptions C100_total.
(** What happened, for every stream, writer and outcome: pieces were read and written
    until the first Ok(0), the first error of a read or the first error of a write, which
    is then the result. *)
Theorem C100_any : forall fuel n b o c res b' o', buf_copy fuel n b o c = Some (res, b', o') ->
  exists k r1 last oks o1, buf_reads b (repeat n k) = (r1 ++ [last], b') /\ running r1 /\ each_write lw_write_all o (pieces_of r1) = Some (oks, o1) /\ Forall (fun r => r = None) oks /\
  match res with
  | CopyOk m => last = BOk [] /\ o' = o1 /\ m = (c + length (bytes_given r1))%nat
  | CopyRead => last = BErr /\ o' = o1
  | CopyWrite e => exists p, last = BOk p /\ p <> [] /\ lw_write_all o1 p = Some (Some e, o')
  end.
Proof. exact buf_copy_any. Qed.
Print Assumptions C100_any.
(** A read fails after the line "é" was read and passed on. *)
Example C100_any_example : exists b o, buf_copy 9 1 (new_bufreader false false [Chunk [0xE9; 0xA] Active; Fail] 136) (mkbw (new_writer false false (below false)) 8 []) 0 = Some (CopyRead, b, o) /\
  emitted (inner (passed_to o)) = [0xE9; 0xA].
Proof. do 2 eexists. split; [vm_compute; reflexivity|reflexivity]. Qed.
(** If the lines of the text [t] that the stream gives, with one piece more, fit in the
    LineWriter, then all of [t] is copied unchanged, whatever the size of the pieces. *)
Theorem C100_copied_partial : forall nel lsps script cap n lc (bom cr : bool) t, (136 <= cap)%nat -> (0 < n)%nat -> no_fail script -> scalar_stream script -> gives nel lsps script t ->
  lines_within lc n (encode_all t) ->
  exists k, forall fuel, (k <= fuel)%nat -> exists b o w,
    buf_copy fuel n (new_bufreader nel lsps script cap) (mkbw (new_writer cr false (below bom)) lc []) 0 = Some (CopyOk (str_len t), b, o) /\
    bw_finish o = Some (None, w) /\ emitted (inner w) = (if bom then [0xFEFF] else []) ++ as_sent cr t.
Proof. exact buf_copied. Qed.
Print Assumptions C100_copied_partial.
(** Else it can fail: a valid text whose line does not fit is refused as invalid UTF-8
    where the LineWriter cuts a character. *)
Theorem C100_copied_refuted : exists script t n lc b o w, no_fail script /\ scalar_stream script /\ gives false false script t /\ (0 < n)%nat /\ string_ok t /\
  buf_copy 9 n (new_bufreader false false script 136) (mkbw (new_writer false false (below false)) lc []) 0 = Some (CopyWrite EWUtf8, b, o) /\
  bw_finish o = Some (Some EWUtf8, w) /\ emitted (inner w) = [0x61; 0x62; 0x71] /\ t = [0x61; 0x62; 0x71; 0x301; 0xA].
Proof.
  exists [Chunk [0x61; 0x62; 0x71; 0x301; 0xA] End], [0x61; 0x62; 0x71; 0x301; 0xA], 1%nat, 4%nat. do 3 eexists.
  split; [intros [H|[]]; discriminate|]. split; [intros cs s [H|[]]; injection H as <- _; repeat constructor|].
  split; [exists [136]%nat; do 3 eexists; split; [vm_compute; reflexivity|]; split; [eexists []; do 2 eexists; reflexivity|vm_compute; reflexivity]|].
  split; [lia|]. split; [apply basic_text_spec; vm_compute; reflexivity|]. do 3 (split; [vm_compute; reflexivity|]). reflexivity.
Qed.
Print Assumptions C100_copied_refuted.
(** "e" U+301 LF "가" LF, one byte at a time. *)
Definition ex100 : list event := [Chunk [0x65; 0x301; 0xA; 0x1100; 0x1161] End].
Example C100_example : no_fail ex100 /\ scalar_stream ex100 /\ gives false false ex100 [0xE9; 0xA; 0xAC00; 0xA] /\ lines_within 9 1 (encode_all [0xE9; 0xA; 0xAC00; 0xA]) /\
  exists b o w, buf_copy 9 1 (new_bufreader false false ex100 136) (mkbw (new_writer true false (below true)) 9 []) 0 = Some (CopyOk 7, b, o) /\ bw_finish o = Some (None, w) /\
  emitted (inner w) = [0xFEFF; 0xE9; 0xD; 0xA; 0xAC00; 0xD; 0xA].
Proof.
  split; [intros [H|[]]; discriminate|]. split; [intros cs s [H|[]]; injection H as <- _; repeat constructor|].
  split; [exists [136]%nat; do 3 eexists; split; [vm_compute; reflexivity|]; split; [eexists []; do 2 eexists; reflexivity|vm_compute; reflexivity]|].
  split.
  { assert (L : length (encode_all [0xE9; 0xA; 0xAC00; 0xA]) = 7%nat) by reflexivity. intros u l v E _ _. rewrite E in L. rewrite !app_length in L. lia. }
  do 3 eexists. do 2 (split; [vm_compute; reflexivity|]). reflexivity.
Qed.
