(** C84: writing a stream is the documented strict conversion. *)
From Coq Require Import NArith List Bool.
From Verif Require Import Base Ucd Norm Chars TextUtils SpecText TextFacts SpecConv Utf8 Input Output SpecString StringProps SpecWrite SpecMore GuardFacts SpecStream StreamProps SpecGap GapProps.
Import ListNotations.
Local Open Scope N_scope.

(** A text written in any number of pieces cut after line ends, and closed, is
    accepted exactly if the documentation says so … *)
Theorem C84_accepted : forall bom cr ps rs w, line_pieces ps -> do_ops (new_writer cr false (below bom)) (map OpWriteStr ps ++ [OpClose]) = (rs, w) ->
  Forall (fun r => r = None) rs <-> strict_stream (concat ps).
Proof. intros bom cr ps rs w H E. exact (proj1 (stream_written bom cr ps rs w H E)). Qed.
Print Assumptions C84_accepted.
(** … and the documented text is sent, if and only if every unassigned character
    that follows U+34F is followed by U+34F or another one. *)
Theorem C84_documented_partial : forall bom cr ps rs w, line_pieces ps -> do_ops (new_writer cr false (below bom)) (map OpWriteStr ps ++ [OpClose]) = (rs, w) ->
  strict_stream (concat ps) -> emitted (inner w) = strict_stream_result bom cr (concat ps) <-> closed_guards (concat ps).
Proof.
  intros bom cr ps rs w H E A. destruct (stream_written bom cr ps rs w H E) as [H1 H2]. rewrite (H2 (proj2 H1 A)). apply documented_iff. apply A.
Qed.
Print Assumptions C84_documented_partial.
(** What is sent in every case: as documented, with U+34F where the code puts it
    (SpecGap.v). *)
Theorem C84_exact : forall bom cr ps rs w, line_pieces ps -> do_ops (new_writer cr false (below bom)) (map OpWriteStr ps ++ [OpClose]) = (rs, w) ->
  strict_stream (concat ps) -> emitted (inner w) = (if bom then [0xFEFF] else []) ++ as_sent cr (nfc (stream_safe (coded_isolation (concat ps)))).
Proof.
  intros bom cr ps rs w H E A. destruct (stream_written bom cr ps rs w H E) as [H1 H2]. rewrite (H2 (proj2 H1 A)). do 2 f_equal.
  rewrite <- coded_isolated. apply pipeline_iso. apply accepted_clean, accepted_iff. apply A.
Qed.
Print Assumptions C84_exact.
(** The constructor for byte order marks gives such a writer. *)
Theorem C84_bom : new_bom_writer (below false) = Some (new_writer false false (below true)).
Proof. exact bom_written. Qed.
Print Assumptions C84_bom.

(** "e" with an accent, a line end, an unassigned character *)
Example C84_example : let ps := [[0x65; 0x301; 0xA]; [0x378; 0xA]] in
  line_pieces ps /\ strict_stream (concat ps) /\ closed_guards (concat ps) /\
  emitted (inner (snd (do_ops (new_writer true false (below true)) (map OpWriteStr ps ++ [OpClose])))) = [0xFEFF; 0xE9; 0xD; 0xA; 0x34F; 0x378; 0x34F; 0xD; 0xA].
Proof.
  cbv zeta. split; [|split; [|split]].
  - exact (lp_more [0x65; 0x301] _ (lp_one [0x378; 0xA] ltac:(discriminate))).
  - split; [apply accepted_iff; vm_compute; reflexivity|]. right. now exists [0x65; 0x301; 0xA; 0x378].
  - apply guards_check. vm_compute. reflexivity.
  - vm_compute. reflexivity.
Qed.
Theorem C84_guards_refuted : exists ps w, line_pieces ps /\ strict_stream (concat ps) /\
  do_ops (new_writer false false (below false)) (map OpWriteStr ps ++ [OpClose]) = ([None; None], w) /\ emitted (inner w) <> strict_stream_result false false (concat ps).
Proof.
  exists [[0x34F; 0x378; 0xA]]. eexists. split; [apply lp_one; discriminate|]. split; [|split; [vm_compute; reflexivity|vm_compute; discriminate]].
  split; [apply accepted_iff; vm_compute; reflexivity|]. right. now exists [0x34F; 0x378].
Qed.
Print Assumptions C84_guards_refuted.
