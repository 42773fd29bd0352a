(** Writing bytes with std::io, std::io::copy, and the stream given back by
    close_into_inner: C67, C68, C86. *)
From Coq Require Import NArith List Bool Lia.
From Verif Require Import Base Ucd Norm Chars TextUtils SpecText Utf8 Utf8Facts Input Output SpecRead ScalarFacts ReadProps SpecWrite Copy CopyProps StdIo SpecStd StdProps StdAny WriteFacts WriteProps WriteInner.
Import ListNotations.
Local Open Scope N_scope.

(** ** C67 *)
Theorem C67_write_all : forall w bs r w', write_all w bs = Some (r, w') <-> wrote w bs r w'.
Proof. exact write_all_iff. Qed.
Print Assumptions C67_write_all.
Theorem C67_vectored : forall w bufs r w', write_all_vectored w bufs = Some (r, w') <-> wrote_each w bufs r w'.
Proof. exact write_all_vectored_iff. Qed.
Print Assumptions C67_vectored.
(** One call of write takes the longest valid part, and fails if there is none; *)
Theorem C67_write : forall w s rest, scalars s -> decode1 rest = None \/ rest = [] ->
  write_bytes w (encode_all s ++ rest) =
    match s, rest with
    | [], _ :: _ => (None, Some EWUtf8, prepare_failure w)
    | _, _ => let '(r, w') := write_str w s in (match r with None => Some (length (encode_all s)) | Some _ => None end, r, w')
    end.
Proof. exact write_one. Qed.
Print Assumptions C67_write.
(** one call of write_vectored is a write of the first buffer that is not empty. *)
Theorem C67_write_vectored : forall w pre b post, Forall (fun x => x = []) pre ->
  (b <> [] -> write_vectored w (pre ++ b :: post) = write_bytes w b) /\ write_vectored w pre = write_bytes w [].
Proof. intros w pre b post F. split; [now apply write_vectored_first|now apply write_vectored_empty]. Qed.
Print Assumptions C67_write_vectored.
Example C67_write_example : let w := new_writer false false (mksink [] [] false) in
  let '(n, r, w') := write_vectored w [[]; []; [0x61; 0xC3; 0xA9; 0xFF; 0x62]; [0x63]] in n = Some 3%nat /\ r = None /\ emitted (inner w') = [0x61; 0xE9].
Proof. vm_compute. auto. Qed.
(** Neither ends with a WriteZero error or loops. *)
Theorem C67_total : forall w bs bufs, write_all w bs <> None /\ write_all_vectored w bufs <> None.
Proof. intros w bs bufs. split; [apply write_all_total|apply write_all_vectored_total]. Qed.
Print Assumptions C67_total.
(** A character cut between two buffers is refused, though the bytes together are valid. *)
Theorem C67_whole_refuted : exists w bufs w1 w2, write_all w (concat bufs) = Some (None, w1) /\ write_all_vectored w bufs = Some (Some EWUtf8, w2).
Proof.
  exists (new_writer false false (mksink [] [] false)), [[0x61; 0xC3]; [0xA9; 0xA]]. eexists. eexists.
  split; [vm_compute; reflexivity|]. vm_compute. reflexivity.
Qed.
Print Assumptions C67_whole_refuted.
Example C67_example : exists w1 w2, write_all_vectored (new_writer false false (mksink [] [] false)) [[]; [0x61]; []; [0xC3; 0xA9]; [0xA]] = Some (None, w1) /\
  emitted (inner w1) = [0x61; 0xE9; 0xA] /\ write_all (new_writer false false (mksink [] [] false)) [0x61; 0xFF] = Some (Some EWUtf8, w2) /\ emitted (inner w2) = [0x61] /\ abandoned (inner w2) = true.
Proof. eexists. eexists. split; [vm_compute; reflexivity|]. split; [reflexivity|]. split; [vm_compute; reflexivity|]. split; reflexivity. Qed.

(** ** C68 *)
(** std::io::copy from a TextReader to a TextWriter ends; the writer has sent the texts
    read, each converted again, and can be closed. *)
Theorem C68_copied : forall nel lsps script blen cr p, no_fail script -> scalar_stream script -> (136 <= blen)%nat ->
  exists n, forall fuel, (n <= fuel)%nat -> exists k rs j rest w,
    reads (new_input nel lsps) script (repeat blen k) = (rs, j, rest) /\ reached_end rs /\
    std_copy fuel (new_input nel lsps) script (new_writer cr false (mksink p [] false)) blen 0 = Some (CopyOk (str_len (received rs)), j, rest, w) /\
    emitted (inner w) = p ++ as_sent cr (flat_map recopied (texts_read rs)) /\ (exists w', close w = (None, w') /\ emitted (inner w') = emitted (inner w)) /\
    (emitted (inner w) = p ++ as_sent cr (received rs) <-> Forall begins_assigned (texts_read rs)).
Proof. exact std_copy_copies. Qed.
Print Assumptions C68_copied.
(** So text of assigned characters is copied unchanged. *)
Theorem C68_unchanged_partial : forall nel lsps script blen cr p, no_fail script -> scalar_stream script -> (136 <= blen)%nat ->
  exists n, forall fuel, (n <= fuel)%nat -> exists k rs j rest w,
    reads (new_input nel lsps) script (repeat blen k) = (rs, j, rest) /\ reached_end rs /\
    std_copy fuel (new_input nel lsps) script (new_writer cr false (mksink p [] false)) blen 0 = Some (CopyOk (str_len (received rs)), j, rest, w) /\
    (Forall (fun c => is_assigned c = true) (received rs) -> emitted (inner w) = p ++ as_sent cr (received rs)).
Proof.
  intros nel lsps script blen cr p NF SS B. destruct (std_copy_copies nel lsps script blen cr p NF SS B) as [n H]. exists n. intros fuel HF.
  destruct (H fuel HF) as (k & rs & j & rest & w & R & RE & C & _ & _ & X). exists k, rs, j, rest, w. split; [exact R|]. split; [exact RE|]. split; [exact C|].
  intro A. apply X. clear -A. induction rs as [|[[m s| |] t] rs IH]; cbn [texts_read received flat_map fst snd app] in *; try (apply IH; exact A); [constructor|].
  apply Forall_app in A. destruct A as [A1 A2]. constructor; [|exact (IH A2)]. intros c u ->. now inversion A1.
Qed.
Print Assumptions C68_unchanged_partial.
(** With unassigned characters it depends on where the buffer ends. *)
Theorem C68_unchanged_refuted : exists script blen fuel n j rest w, no_fail script /\ scalar_stream script /\ (136 <= blen)%nat /\
  std_copy fuel (new_input false false) script (new_writer false false (mksink [] [] false)) blen 0 = Some (CopyOk n, j, rest, w) /\
  stream_text script = repeat 0x61 131 ++ [0x34F; 0x378; 0x34F; 0xA] /\ emitted (inner w) = repeat 0x61 131 ++ [0x34F; 0x34F; 0x378; 0x34F; 0xA].
Proof.
  exists [Chunk (repeat 0x61 131 ++ [0x34F; 0x378; 0x34F; 0xA]) Active], 136%nat, 9%nat. eexists. eexists. eexists. eexists.
  split; [intros [E|[]]; discriminate|]. split.
  { intros cs s [E|[]]. injection E as <- _. apply Forall_forall.
    assert (K : forallb is_scalar (repeat 0x61 131 ++ [0x34F; 0x378; 0x34F; 0xA]) = true) by (vm_compute; reflexivity). rewrite forallb_forall in K. exact K. }
  split; [lia|]. split; [vm_compute; reflexivity|]. split; [reflexivity|vm_compute; reflexivity].
Qed.
Print Assumptions C68_unchanged_refuted.
Example C68_example : exists j rest w, std_copy 9 (new_input false false) [Chunk [0x61; 0x301; 0xD] Active; Chunk [0xA; 0x62] Active] (new_writer true false (mksink [] [] false)) (64 * 128) 0 = Some (CopyOk 5, j, rest, w) /\
  emitted (inner w) = [0xE1; 0xD; 0xA; 0x62; 0xD; 0xA].
Proof. eexists. eexists. eexists. split; [vm_compute; reflexivity|reflexivity]. Qed.
(** Whatever fails: what is sent is a beginning of the converted texts; all of them
    if the copy succeeds or ends with a failed read. *)
Theorem C68_any : forall nel lsps script blen cr p o fuel res j rest w, scalar_stream script ->
  std_copy fuel (new_input nel lsps) script (new_writer cr false (mksink p o false)) blen 0 = Some (res, j, rest, w) ->
  exists k rs, reads (new_input nel lsps) script (repeat blen k) = (rs, j, rest) /\
    prefix_of (emitted (inner w)) (p ++ as_sent cr (flat_map recopied (texts_read rs))) /\
    match res with
    | CopyOk n => reached_end rs /\ n = str_len (received rs) /\ emitted (inner w) = p ++ as_sent cr (flat_map recopied (texts_read rs))
    | CopyRead => emitted (inner w) = p ++ as_sent cr (flat_map recopied (texts_read rs))
    | CopyWrite _ => True
    end.
Proof. exact std_copy_any. Qed.
Print Assumptions C68_any.
Example C68_any_example : exists j rest w e,
  std_copy 9 (new_input false false) [Chunk [0x61; 0xA] Active; Chunk [0x378; 0xA] Active; Fail] (new_writer true false (mksink [0x2D] [WOk; WErr 2] false)) 136 0
    = Some (CopyWrite e, j, rest, w) /\ emitted (inner w) = [0x2D; 0x61; 0xD; 0xA; 0x34F; 0x378].
Proof. do 4 eexists. split; [vm_compute; reflexivity|reflexivity]. Qed.

(** ** C86 *)
(** If close_into_inner gives the stream back and the writer has not given it up, the
    stream has received all that was written, in whole lines of allowed characters. *)
Theorem C86_complete_partial : forall cr p o ops rs w w', do_ops (new_writer cr false (mksink p o false)) ops = (rs, w) -> Forall plain_op ops ->
  close_into_inner w = (None, w') -> abandoned (inner w') = false ->
  let t := concat (map op_text ops) in
  emitted (inner w') = p ++ as_sent cr t /\ line_terminated t /\ Forall allowed t /\ Forall2 (fun o r => is_write o = true -> r = None) ops rs.
Proof. exact into_inner_complete. Qed.
Print Assumptions C86_complete_partial.
(** When it does give the stream back: after a failure, or at the start of a line. It
    does nothing more to the stream. *)
Theorem C86_exact : forall cr p o ops rs w, do_ops (new_writer cr false (mksink p o false)) ops = (rs, w) -> Forall plain_op ops ->
  let d := snd (spec_ops cr (new_doc p o) ops) in
  (fst (close_into_inner w) = None <-> failed d = true \/ line_terminated (text d)) /\
  (fst (close_into_inner w) = None -> inner (snd (close_into_inner w)) = inner w).
Proof. exact into_inner_iff. Qed.
Print Assumptions C86_exact.
Example C86_example : exists rs w w', do_ops (new_writer true false (mksink [] [] false)) [OpWriteStr [0x61; 0xA; 0x65; 0x301]; OpFlush; OpWrite [0xA]] = (rs, w) /\
  close_into_inner w = (None, w') /\ abandoned (inner w') = false /\ emitted (inner w') = [0x61; 0xD; 0xA; 0xE9; 0xD; 0xA].
Proof. do 3 eexists. split; [vm_compute; reflexivity|]. split; [vm_compute; reflexivity|]. split; reflexivity. Qed.
(** A write that fails leaves the writer as at the start of a line: close_into_inner
    then succeeds, though the text is not complete; close fails. *)
Theorem C86_after_failure_refuted : exists ops rs w w', do_ops (new_writer false false (mksink [] [] false)) ops = (rs, w) /\ Forall plain_op ops /\
  close_into_inner w = (None, w') /\ ~ line_terminated (emitted (inner w')) /\ fst (close w) <> None.
Proof.
  exists [OpWriteStr [0x61]; OpWriteStr [0x7; 0xA]]. do 3 eexists. split; [vm_compute; reflexivity|]. split; [repeat constructor|]. split; [vm_compute; reflexivity|].
  split; [|vm_compute; discriminate]. intros [E|[t E]]; [discriminate E|]. cbn in E. apply (app_inj_tail [] t) in E. destruct E as [_ E]. discriminate E.
Qed.
Print Assumptions C86_after_failure_refuted.
