(** C96, C100: buffers of any size, bytes cut anywhere: exactly what happens. *)
From Coq Require Import NArith Arith List Bool Lia.
From Verif Require Import Base Ucd Norm Chars TextUtils SpecText TextFacts PipelineFacts SpecConv Utf8 Utf8Facts Input Output SpecRead SpecCat SpecString StringProps SpecWrite SpecGap SpecStream StreamProps
  Strings Lines LineIo Copy StdIo SpecStd StdBuf SpecBuf BufProps BufWrite SpecLineBuf LineBytes StdCopy LineCopy SpecGroup Group.
Import ListNotations.
Local Open Scope N_scope.

(** ** C96 *)
(** The groups are determined, and together they are the bytes written. *)
Theorem C96_groups_are_the_bytes : forall lines cap ps, exists gs, passed_on lines cap [] ps gs /\ concat gs = concat ps /\ forall gs', passed_on lines cap [] ps gs' -> gs' = gs.
Proof.
  intros lines cap ps. destruct (passed_exists lines cap ps []) as [gs P]. exists gs. split; [exact P|]. split; [exact (passed_concat _ _ _ _ _ P)|]. intros gs' P'. exact (passed_unique _ _ _ _ _ P' _ P).
Qed.
Print Assumptions C96_groups_are_the_bytes.
(** Any bytes, in any pieces, through a BufWriter of any size to any TextWriter: all
    succeeds exactly if writing the groups one after the other and closing succeeds, and
    then the writer is left as by that. *)
Theorem C96_bufwriter_groups : forall cap ps gs w rs b r w', passed_on false cap [] ps gs ->
  each_write bw_write_all (mkbw w cap []) ps = Some (rs, b) -> bw_finish b = Some (r, w') ->
  (Forall (fun r => r = None) (rs ++ [r]) <-> exists w1, wrote_each w gs None w1 /\ fst (close w1) = None) /\
  (Forall (fun r => r = None) (rs ++ [r]) -> forall w1, wrote_each w gs None w1 -> w' = snd (close w1)).
Proof. exact (groups_written false). Qed.
Print Assumptions C96_bufwriter_groups.
(** The same for a LineWriter. *)
Theorem C96_linewriter_groups : forall cap ps gs w rs b r w', passed_on true cap [] ps gs ->
  each_write lw_write_all (mkbw w cap []) ps = Some (rs, b) -> bw_finish b = Some (r, w') ->
  (Forall (fun r => r = None) (rs ++ [r]) <-> exists w1, wrote_each w gs None w1 /\ fst (close w1) = None) /\
  (Forall (fun r => r = None) (rs ++ [r]) -> forall w1, wrote_each w gs None w1 -> w' = snd (close w1)).
Proof. exact (groups_written true). Qed.
Print Assumptions C96_linewriter_groups.
(** "aé" LF "b" with "é" (C3 A9) cut in two, through a buffer of 3 bytes: a BufWriter cuts
    "aé" | LF "b", a LineWriter "aé" | LF | "b". *)
Example C96_groups_example : let ps := [[0x61; 0xC3]; [0xA9]; [0xA; 0x62]] in
  passed_on false 3 [] ps [[0x61; 0xC3; 0xA9]; [0xA; 0x62]] /\ passed_on true 3 [] ps [[0x61; 0xC3; 0xA9]; [0xA]; [0x62]] /\
  exists b w, each_write lw_write_all (mkbw (new_writer false false (below false)) 3 []) (ps ++ [[0xA]]) = Some ([None; None; None; None], b) /\ bw_finish b = Some (None, w) /\
    emitted (inner w) = [0x61; 0xE9; 0xA; 0x62; 0xA].
Proof.
  cbv zeta. split; [|split].
  - apply (passed_plain false 3 [] [0x61; 0xC3] _ [[0x61; 0xC3; 0xA9]; [0xA; 0x62]] (or_introl eq_refl)). apply (passed_plain false 3 [0x61; 0xC3] [0xA9] _ [[0x61; 0xC3; 0xA9]; [0xA; 0x62]] (or_introl eq_refl)).
    apply (passed_plain false 3 [0x61; 0xC3; 0xA9] [0xA; 0x62] [] [[0xA; 0x62]] (or_introl eq_refl)). apply passed_end.
  - apply (passed_plain true 3 [] [0x61; 0xC3] _ [[0x61; 0xC3; 0xA9]; [0xA]; [0x62]]); [right; cbn; intuition discriminate|]. apply (passed_plain true 3 [0x61; 0xC3] [0xA9] _ [[0x61; 0xC3; 0xA9]; [0xA]; [0x62]]); [right; cbn; intuition discriminate|].
    apply (passed_lines true 3 [0x61; 0xC3; 0xA9] [] [0x62] [] [[0x62]] eq_refl); [cbn; intuition discriminate|]. apply passed_end.
  - do 2 eexists. do 2 (split; [vm_compute; reflexivity|]). reflexivity.
Qed.
(** A Basic Text stream that needs no conversion, its bytes cut anywhere, through a buffer
    of any size: accepted exactly if no group ends within a character; then U+34F is
    inserted at groups that begin with an unassigned scalar value, and nothing else is
    changed. *)
Theorem C96_any_size : forall (lines : bool) cap (bom cr : bool) ps gs t rs b r w, string_ok t -> line_terminated t -> preceded t -> scalars t -> concat ps = encode_all t ->
  passed_on lines cap [] ps gs -> each_write (if lines then lw_write_all else bw_write_all) (mkbw (new_writer cr false (below bom)) cap []) ps = Some (rs, b) -> bw_finish b = Some (r, w) ->
  (Forall (fun r => r = None) (rs ++ [r]) <-> Forall whole_characters gs) /\
  (forall qs, Forall scalars qs -> gs = map encode_all qs ->
    emitted (inner w) = (if bom then [0xFEFF] else []) ++ as_sent cr (flat_map recopied qs) /\
    (emitted (inner w) = (if bom then [0xFEFF] else []) ++ as_sent cr t <-> Forall begins_assigned qs)).
Proof. exact grouped_text. Qed.
Print Assumptions C96_any_size.
(** "é" LF in two pieces: with no buffer, "é" is cut and refused; with room for 4 bytes
    not. *)
Example C96_any_size_example : let t := [0xE9; 0xA] in let ps := [[0xC3]; [0xA9; 0xA]] in string_ok t /\ line_terminated t /\ preceded t /\ scalars t /\ concat ps = encode_all t /\
  passed_on false 4 [] ps [[0xC3; 0xA9; 0xA]] /\ whole_characters [0xC3; 0xA9; 0xA] /\ passed_on false 0 [] ps [[]; [0xC3]; []; [0xA9; 0xA]; []] /\
  (exists b r w, each_write bw_write_all (mkbw (new_writer false false (below false)) 0 []) ps = Some ([Some EWUtf8; Some EWUtf8], b) /\ bw_finish b = Some (r, w)) /\
  exists b w, each_write bw_write_all (mkbw (new_writer false false (below false)) 4 []) ps = Some ([None; None], b) /\ bw_finish b = Some (None, w) /\ emitted (inner w) = t.
Proof.
  cbv zeta. split; [apply basic_text_spec; vm_compute; reflexivity|]. split; [right; now exists [0xE9]|]. split; [apply prec_ok_spec; vm_compute; reflexivity|].
  split; [repeat constructor|]. split; [reflexivity|]. split.
  { apply (passed_plain false 4 [] [0xC3] _ [[0xC3; 0xA9; 0xA]] (or_introl eq_refl)). apply (passed_plain false 4 [0xC3] [0xA9; 0xA] _ [[0xC3; 0xA9; 0xA]] (or_introl eq_refl)). apply passed_end. }
  split; [exists [0xE9; 0xA]; split; [repeat constructor|reflexivity]|]. split.
  { apply (passed_plain false 0 [] [0xC3] _ [[]; [0xA9; 0xA]; []] (or_introl eq_refl)). apply (passed_plain false 0 [] [0xA9; 0xA] _ [[]] (or_introl eq_refl)). apply passed_end. }
  split; [do 3 eexists; split; [vm_compute; reflexivity|vm_compute; reflexivity]|]. do 2 eexists. do 2 (split; [vm_compute; reflexivity|]). reflexivity.
Qed.

(** ** C100 *)
(** Copying the text [t] that the stream gives in pieces of at most [n] bytes to a
    LineWriter of any size.  It is all copied exactly if no group of bytes the LineWriter
    passes on ends within a character, and then it is unchanged exactly if no group begins
    with an unassigned scalar value. *)
Theorem C100_exact : forall nel lsps script cap n lc (bom cr : bool) t, (136 <= cap)%nat -> (0 < n)%nat -> no_fail script -> scalar_stream script -> gives nel lsps script t ->
  exists m ps gs, ps = pieces_of (fst (buf_reads (new_bufreader nel lsps script cap) (repeat n m))) /\
  concat ps = encode_all t /\ Forall (fun p => 0 < length p <= n)%nat ps /\ passed_on true lc [] ps gs /\
  exists k, forall fuel, (k <= fuel)%nat -> exists res b o r w,
    buf_copy fuel n (new_bufreader nel lsps script cap) (mkbw (new_writer cr false (below bom)) lc []) 0 = Some (res, b, o) /\ bw_finish o = Some (r, w) /\
    (res = CopyOk (str_len t) /\ r = None <-> Forall whole_characters gs) /\
    (forall qs, Forall scalars qs -> gs = map encode_all qs ->
      emitted (inner w) = (if bom then [0xFEFF] else []) ++ as_sent cr (flat_map recopied qs) /\
      (emitted (inner w) = (if bom then [0xFEFF] else []) ++ as_sent cr t <-> Forall begins_assigned qs)).
Proof. exact copy_groups. Qed.
Print Assumptions C100_exact.
(** A valid text that is copied, but not unchanged: the LineWriter cuts before the
    unassigned U+378, and U+34F is sent twice. *)
Theorem C100_changed_refuted : exists script t n lc b o w, no_fail script /\ scalar_stream script /\ gives false false script t /\ (0 < n)%nat /\ string_ok t /\
  buf_copy 9 n (new_bufreader false false script 136) (mkbw (new_writer false false (below false)) lc []) 0 = Some (CopyOk (str_len t), b, o) /\
  bw_finish o = Some (None, w) /\ t = [0x61; 0x62; 0x34F; 0x378; 0x34F; 0xA] /\ emitted (inner w) = [0x61; 0x62; 0x34F; 0x34F; 0x378; 0x34F; 0xA].
Proof.
  exists [Chunk [0x61; 0x62; 0x34F; 0x378; 0x34F; 0xA] End], [0x61; 0x62; 0x34F; 0x378; 0x34F; 0xA], 2%nat, 4%nat. do 3 eexists.
  split; [intros [H|[]]; discriminate|]. split; [intros cs s [H|[]]; injection H as <- _; repeat constructor|].
  split; [exists [136; 136]%nat; do 3 eexists; split; [vm_compute; reflexivity|]; split; [eexists [_]; do 2 eexists; reflexivity|vm_compute; reflexivity]|].
  split; [lia|]. split; [apply basic_text_spec; vm_compute; reflexivity|]. do 3 (split; [vm_compute; reflexivity|]). reflexivity.
Qed.
Print Assumptions C100_changed_refuted.
