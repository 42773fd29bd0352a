(** Theorems: where writes meet (C34, C52), and writers over writers (C77). *)
From Coq Require Import NArith List Bool.
From Verif Require Import Base Ucd Norm Chars TextUtils SpecText PipelineFacts SpecString JoinProps Utf8 Input Output SpecWrite Stack SpecLayer Duplex SpecDuplex DuplexProps SeamProps StackProps.
Import ListNotations.
Local Open Scope N_scope.

(** ** C34 *)
(** A closed stream whose writes all begin with starters is Basic Text exactly if
    no two neighbouring writes combine where they meet. *)
Theorem C34_seams_exact : forall cr p o ops rs w w', do_ops (new_writer cr false (mksink p o false)) ops = (rs, w) -> Forall plain_op ops -> close w = (None, w') ->
  Forall (fun t => t <> [] /\ starts_ok t) (map op_text (filter is_write ops)) ->
  let t := concat (map op_text ops) in
  emitted (inner w') = p ++ as_sent cr t /\
  (is_basic_text t = true <-> forall l a b r, map op_text (filter is_write ops) = l ++ a :: b :: r -> ~ joined a b).
Proof. exact closed_seams. Qed.
Print Assumptions C34_seams_exact.
(** Three writes and a flush that do not combine; two Hangul syllable parts that
    do, although each write is accepted. *)
Example C34_seams_example :
  (let ops := [OpWriteStr [0x61; 0x62]; OpFlush; OpWriteStr [0x1100]; OpWriteText [0xE9; 0xA]] in
   snd (close (snd (do_ops (new_writer true false (mksink [] [] false)) ops)))
     = mkwriter [] true true false (WGround Newline) [] (mksink [0x61; 0x62; 0x1100; 0xE9; 0xD; 0xA] [] false) /\
   is_basic_text (concat (map op_text ops)) = true) /\
  (let ops := [OpWriteStr [0x1100]; OpWriteStr [0x1161; 0xA]] in
   fst (close (snd (do_ops (new_writer false false (mksink [] [] false)) ops))) = None /\
   joined [0x1100] [0x1161; 0xA] /\ is_basic_text (concat (map op_text ops)) = false).
Proof.
  split; [split; vm_compute; reflexivity|]. split; [vm_compute; reflexivity|]. split; [|vm_compute; reflexivity].
  exists [], 0x1100, 0x1161, [0xA]. split; [reflexivity|]. split; [reflexivity|]. left. split; split; vm_compute; discriminate.
Qed.

(** ** C52 *)
(** The same of a duplexer, with reads in between; here the end of the text also
    has to be allowed as an end, as reading a line excuses it. *)
Theorem C52_closed_exact : forall nel lsps cr p o sc os rs x w', do_dops (new_duplexer nel lsps cr false (mksink p o false) sc) os = (rs, x) -> Forall plain_dop os ->
  close (dout x) = (None, w') -> Forall (fun t => t <> [] /\ starts_ok t) (map op_text (filter is_write (outs os))) ->
  emitted (inner w') = p ++ as_sent cr (written os) /\
  (string_ok (written os) <-> ends_ok (written os) /\ forall l a b r, map op_text (filter is_write (outs os)) = l ++ a :: b :: r -> ~ joined a b).
Proof. exact duplex_closed_exact. Qed.
Print Assumptions C52_closed_exact.
(** A prompt without a line end, answered by a line; then a ZWJ at the end. *)
Example C52_exact_example :
  (let '(rs, x) := do_dops (new_duplexer false false true false (mksink [] [] false) [Chunk [0x79; 0xA] Active]) [DOut (OpWriteStr [0x61; 0xA; 0x3F]); DOut OpFlush; DRead 136] in
   fst (close (dout x)) = None /\ emitted (inner (dout x)) = [0x61; 0xD; 0xA; 0x3F] /\ is_basic_text [0x61; 0xA; 0x3F] = true) /\
  (let '(rs, x) := do_dops (new_duplexer false false true false (mksink [] [] false) [Chunk [0x79; 0xA] Active]) [DOut (OpWriteStr [0x61; 0x200D]); DRead 136] in
   fst (close (dout x)) = None /\ emitted (inner (dout x)) = [0x61; 0x200D] /\ is_basic_text [0x61; 0x200D] = false).
Proof. vm_compute. auto. Qed.

(** ** C77 *)
(** A text writer over another text writer: every operation succeeds or fails as
    it does on that other writer alone, and the same text reaches the stream. *)
Theorem C77_writer_over_writer : forall cr p o ops rs w i rs' k,
  stack_ops (new_writer false false (mksink [] [] false)) (new_writer cr false (mksink p o false)) ops = (rs, (w, i)) ->
  do_ops (new_writer cr false (mksink p o false)) ops = (rs', k) -> Forall plain_op ops -> Forall preceded_op ops ->
  map ok rs = map ok rs' /\ emitted (inner i) = emitted (inner k) /\ abandoned (inner i) = abandoned (inner k).
Proof. exact stacked_writer. Qed.
Print Assumptions C77_writer_over_writer.
(** A sequence that is converted, a flush that fails below, a write that fails
    below after one character. *)
Example C77_example :
  let ops := [OpWriteStr [0x61; 0x30A; 0x378]; OpFlush; OpFlush; OpWriteText [0xA; 0x34F; 0x378; 0x34F; 0xA]; OpWriteStr [0x62; 0x63]; OpWriteStr [0x62]; OpClose] in
  (let '(rs, (_, i)) := stack_ops (new_writer false false (mksink [] [] false)) (new_writer true false (mksink [BOM] [WOk; WErr 0; WOk; WOk; WErr 1] false)) ops in
   map ok rs = [true; false; true; true; false; false; false] /\ emitted (inner i) = [BOM; 0xE5; 0x34F; 0x378; 0x34F; 0xD; 0xA; 0x34F; 0x378; 0x34F; 0xD; 0xA; 0x62] /\ abandoned (inner i) = true) /\
  Forall plain_op ops /\ Forall preceded_op ops.
Proof.
  split; [vm_compute; auto|]. split.
  - repeat constructor. discriminate.
  - repeat constructor. cbn. apply prec_ok_spec. vm_compute. reflexivity.
Qed.
(** In general a text written through the TextSubstr interface reaches the inner
    writer as a string; apart from that nothing changes. *)
Theorem C77_writer_over_writer_exact : forall cr p o ops rs w i rs' k,
  stack_ops (new_writer false false (mksink [] [] false)) (new_writer cr false (mksink p o false)) ops = (rs, (w, i)) ->
  do_ops (new_writer cr false (mksink p o false)) (map as_string ops) = (rs', k) -> Forall plain_op ops ->
  map ok rs = map ok rs' /\ emitted (inner i) = emitted (inner k) /\ abandoned (inner i) = abandoned (inner k).
Proof. exact stacked_writer_any. Qed.
Print Assumptions C77_writer_over_writer_exact.
Example C77_exact_example :
  let ops := [OpWriteText [0x61; 0x378]; OpFlush; OpWriteText [0x378; 0x62]; OpWriteStr [0x378; 0xA]; OpClose] in
  (let '(rs, (_, i)) := stack_ops (new_writer false false (mksink [] [] false)) (new_writer true false (mksink [] [WOk; WOk; WOk] false)) ops in
   map ok rs = [true; true; true; true; true] /\
   emitted (inner i) = [0x61; 0x34F; 0x378; 0x34F; 0x34F; 0x378; 0x34F; 0x62; 0x34F; 0x378; 0x34F; 0xD; 0xA]) /\ Forall plain_op ops.
Proof.
  split; [vm_compute; auto|]. constructor; [split; [discriminate|vm_compute; reflexivity]|]. constructor; [exact I|]. constructor; [split; [discriminate|vm_compute; reflexivity]|]. repeat constructor.
Qed.
(** A text with an unassigned scalar value that U+34F does not precede is sent as
    it is by one writer; the inner of two writers inserts U+34F. *)
Theorem C77_unpreceded_refuted : exists ops, Forall plain_op ops /\
  emitted (inner (snd (snd (stack_ops (new_writer false false (mksink [] [] false)) (new_writer false false (mksink [] [] false)) ops))))
  <> emitted (inner (snd (do_ops (new_writer false false (mksink [] [] false)) ops))).
Proof. exists [OpWriteText [0x61; 0x378]]. split; [repeat constructor; discriminate|vm_compute; discriminate]. Qed.
Print Assumptions C77_unpreceded_refuted.
