(** C98: write! and writeln! on a TextWriter. *)
From Coq Require Import NArith List Bool Lia.
From Verif Require Import Base Ucd Norm Chars TextUtils DocTable SpecText DocFacts TextFacts IsoFacts CharFacts Utf8 Utf8Facts Output SpecConv SpecWrite SpecString SpecStream SpecMore Fuzz WriteFacts StdIo StdBuf SpecBuf StdFmt SpecFmt FmtProps StringProps.
Import ListNotations.
Local Open Scope N_scope.

(** The call ends. *)
Theorem C98_total : forall ps w, write_fmt w ps <> None.
Proof. exact fmt_total. Qed.
Print Assumptions C98_total.

(** The pieces are written with write_str, one after another, until one fails. *)
Theorem C98_stops : forall ps w r w', Forall scalars ps -> write_fmt w ps = Some (r, w') ->
  (r = None /\ exists rs, do_ops w (map OpWriteStr (nonempty ps)) = (rs, w') /\ Forall (fun r => r = None) rs) \/
  (exists e before p after rs w1, r = Some e /\ nonempty ps = before ++ p :: after /\
     do_ops w (map OpWriteStr before) = (rs, w1) /\ Forall (fun r => r = None) rs /\ write_str w1 p = (Some e, w')).
Proof. exact fmt_stops. Qed.
Print Assumptions C98_stops.

(** What is accepted does not depend on the pieces; what is sent is the conversion
    of each piece. *)
Theorem C98_written : forall bom cr ps r w r' w', Forall scalars ps -> write_fmt (new_writer cr false (below bom)) ps = Some (r, w) -> close w = (r', w') ->
  (r = None <-> Forall allowed (concat ps) /\ starts_ok (concat ps)) /\
  (r = None /\ r' = None <-> strict_stream (concat ps)) /\
  (r = None -> emitted (inner w) = (if bom then [0xFEFF] else []) ++ as_sent cr (concat (map pipeline ps)) /\ emitted (inner w') = emitted (inner w)).
Proof. exact fmt_written. Qed.
Print Assumptions C98_written.

(** writeln! writes the formatted text and a line end: then nothing is missing at the
    end of the stream. *)
Theorem C98_writeln : forall bom cr ps r w r' w', Forall scalars ps -> writeln (new_writer cr false (below bom)) ps = Some (r, w) -> close w = (r', w') ->
  (r = None <-> Forall allowed (concat ps) /\ starts_ok (concat ps)) /\
  (r = None -> r' = None /\ emitted (inner w') = emitted (inner w) /\ emitted (inner w) = (if bom then [0xFEFF] else []) ++ as_sent cr (concat (map pipeline ps) ++ [0xA])).
Proof. exact writeln_written. Qed.
Print Assumptions C98_writeln.

(** Compared with writing the formatted text at once: the same is accepted, and when
    the later pieces begin on their own the same is sent, unless two Hangul
    characters join. *)
Theorem C98_at_once_partial : forall bom cr ps r w r1 w1, Forall scalars ps -> write_fmt (new_writer cr false (below bom)) ps = Some (r, w) ->
  concat ps <> [] -> write_str (new_writer cr false (below bom)) (concat ps) = (r1, w1) ->
  (r = None <-> r1 = None) /\
  (r = None -> Forall begins_alone (tl (nonempty ps)) ->
     (emitted (inner w) = emitted (inner w1) <-> forall l a b t, nonempty ps = l ++ a :: b :: t -> ~ joined (pipeline a) (pipeline b))).
Proof. exact fmt_at_once. Qed.
Print Assumptions C98_at_once_partial.

(** The conversion of two texts put together, in general. *)
Theorem C98_seam : forall a b, begins_alone b -> pipeline (a ++ b) = pipeline a ++ pipeline b <-> ~ joined (pipeline a) (pipeline b).
Proof. exact pipeline_seam. Qed.
Print Assumptions C98_seam.

(** Through a LineWriter whose buffer holds the lines, the formatted text is converted
    as a whole. *)
Theorem C98_linewriter : forall bom cr cap ps r b r' w, Forall scalars ps -> concat ps <> [] -> fits cap ps ->
  buf_fmt lw_write_all (mkbw (new_writer cr false (below bom)) cap []) ps = Some (r, b) -> bw_finish b = Some (r', w) ->
  (r = None /\ r' = None <-> strict_stream (concat ps)) /\ (strict_stream (concat ps) -> emitted (inner w) = (if bom then [0xFEFF] else []) ++ as_sent cr (pipeline (concat ps))).
Proof. exact linewriter_fmt. Qed.
Print Assumptions C98_linewriter.
Example C98_example_linewriter : let ps := [[0x65]; [0x301]; [0xA]] in fits 8 ps /\ strict_stream (concat ps) /\
  exists b w, buf_fmt lw_write_all (mkbw (new_writer false false (below false)) 8 []) ps = Some (None, b) /\ bw_finish b = Some (None, w) /\ emitted (inner w) = [0xE9; 0xA].
Proof.
  cbv zeta. split.
  { assert (L : str_len (concat [[0x65]; [0x301]; [0xA]]) = 4%nat) by reflexivity.
    intros a p b l E (_ & u & E2 & _). rewrite E, concat_app, E2 in L. cbn [concat] in L. rewrite !Utf8Facts.str_len_app in L. lia. }
  split; [split; [apply accepted_iff; vm_compute; reflexivity|right; now exists [0x65; 0x301]]|].
  do 2 eexists. split; [vm_compute; reflexivity|]. split; vm_compute; reflexivity.
Qed.

(** writeln!(w, "e{}", "\u{301}"): "e", U+301 and a line end are sent without an error,
    which is not normalized; writing the formatted string sends U+E9. *)
Theorem C98_at_once_refuted : exists ps w w1, writeln (new_writer false false (below false)) ps = Some (None, w) /\
  write_str (new_writer false false (below false)) (concat ps ++ [0xA]) = (None, w1) /\ emitted (inner w) <> emitted (inner w1) /\
  is_basic_text (emitted (inner w)) = false /\ is_basic_text (emitted (inner w1)) = true.
Proof.
  exists [[0x65]; [0x301]]. do 2 eexists. split; [vm_compute; reflexivity|]. split; [vm_compute; reflexivity|]. split; [vm_compute; discriminate|]. split; vm_compute; reflexivity.
Qed.
Print Assumptions C98_at_once_refuted.
(** writeln!(w, "{}{}", "\u{1100}", "\u{1161}"): both pieces begin on their own. *)
Theorem C98_join_refuted : exists ps w w1, Forall begins_alone ps /\ writeln (new_writer false false (below false)) ps = Some (None, w) /\
  write_str (new_writer false false (below false)) (concat ps ++ [0xA]) = (None, w1) /\ emitted (inner w) <> emitted (inner w1).
Proof.
  exists [[0x1100]; [0x1161]]. do 2 eexists. split; [|split; [vm_compute; reflexivity|split; [vm_compute; reflexivity|vm_compute; discriminate]]].
  repeat apply Forall_cons; [| |apply Forall_nil]; (do 2 eexists; split; [reflexivity|split; [vm_compute; reflexivity|split; [vm_compute; reflexivity|discriminate]]]).
Qed.
Print Assumptions C98_join_refuted.

(** * Examples *)
(** writeln!(w, "a{}b{}", "e\u{301}", "") with CR LF and a byte order mark *)
Definition some_pieces : list (list N) := [[0x61]; [0x65; 0x301]; [0x62]; []; [0xA]].
Example C98_example : exists w w', Forall scalars some_pieces /\ write_fmt (new_writer true false (below true)) some_pieces = Some (None, w) /\ close w = (None, w') /\
  emitted (inner w') = [0xFEFF; 0x61; 0xE9; 0x62; 0xD; 0xA].
Proof.
  do 2 eexists. split; [|split; [vm_compute; reflexivity|split; vm_compute; reflexivity]].
  apply Forall_forall. intros s H. unfold scalars. apply Forall_forall. intros c K. cbn in H.
  repeat (destruct H as [<-|H]; [repeat (destruct K as [<-|K]; [vm_compute; reflexivity|]); destruct K|]). destruct H.
Qed.
Example C98_example_alone : Forall begins_alone (tl (nonempty some_pieces)) /\ concat some_pieces <> [].
Proof.
  split; [|discriminate]. cbn.
  repeat apply Forall_cons; [| | |apply Forall_nil]; (do 2 eexists; split; [reflexivity|split; [vm_compute; reflexivity|split; [vm_compute; reflexivity|discriminate]]]).
Qed.
(** /repo/src/lib.rs:39-54: write_text "Hello, World!", write_text_substr twice (a dog,
    U+200D; a vest), writeln! "Valid!", and writeln! of "\u{c}Invalid!\u{7}" *)
Example C98_example_lib : exists w w1 w2,
  do_ops (new_writer false false (below false)) [OpWriteText [0x48; 0x65; 0x6C; 0x6C; 0x6F; 0x2C; 0x20; 0x57; 0x6F; 0x72; 0x6C; 0x64; 0x21]; OpWriteText [0x1F415; 0x200D]; OpWriteText [0x1F9BA]]
    = ([None; None; None], w) /\
  writeln w [[0x56; 0x61; 0x6C; 0x69; 0x64; 0x21]] = Some (None, w1) /\
  writeln w1 [[0xC; 0x49; 0x6E; 0x76; 0x61; 0x6C; 0x69; 0x64; 0x21; 0x7]] = Some (Some EWCheck, w2) /\
  emitted (inner w2) = [0x48; 0x65; 0x6C; 0x6C; 0x6F; 0x2C; 0x20; 0x57; 0x6F; 0x72; 0x6C; 0x64; 0x21; 0x1F415; 0x200D; 0x1F9BA; 0x56; 0x61; 0x6C; 0x69; 0x64; 0x21; 0xA].
Proof. do 3 eexists. do 3 (split; [vm_compute; reflexivity|]). vm_compute. reflexivity. Qed.
