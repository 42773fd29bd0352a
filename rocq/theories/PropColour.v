(** C81: colours do not disturb the text. *)
From Coq Require Import NArith List Bool.
From Verif Require Import Base Ucd Norm Chars TextUtils SpecText TextFacts PipelineFacts Utf8 Input Output SpecRead SpecEscape SpecWrite SpecString SpecColour ColourProps SpecFrag FragProps.
Import ListNotations.
Local Open Scope N_scope.

(** Text without ESC is written in the same way with and without colours: the
    same results, the same errors, the same characters sent. *)
Theorem C81_plain_same : forall ops cr k rs w, do_ops (new_writer cr true k) ops = (rs, w) -> Forall no_esc_op ops ->
  exists w', do_ops (new_writer cr false k) ops = (rs, w') /\ inner w' = inner w /\ wst w' = wst w.
Proof. exact plain_same. Qed.
Print Assumptions C81_plain_same.

(** Through any history of writes of text with complete colour sequences, over
    any stream, the writer is the text-level writer of SpecWrite.v in which each
    text is converted by itself and the sequences are passed on unchanged; a write
    is refused, besides for a character, if a text merges with the "m" of the
    sequence before it (see C81_accent_refuted).  For sequences cut by the end of a
    write see below. *)
Theorem C81_histories : forall cr p o ops rs w, do_ops (new_writer cr true (mksink p o false)) (map cop_op ops) = (rs, w) -> Forall cop_ok ops ->
  let '(bs, d) := spec_cops cr (new_doc p o) ops in
  map ok rs = bs /\ emitted (inner w) = sent d /\ abandoned (inner w) = failed d /\
  drop_panics w = negb (failed d || match last_opt (text d) with None => true | Some c => c =? 0xA end).
Proof. exact colour_histories. Qed.
Print Assumptions C81_histories.

(** A text that begins with a starter does not merge; one that does merges only if
    it is begun by a mark that goes on an "m". *)
Theorem C81_starter_apart : forall t, starts_ok t -> merges t = false.
Proof. exact starts_merges. Qed.
Print Assumptions C81_starter_apart.
Theorem C81_merges : forall t, merges t = true -> exists c u, pipeline (0x6D :: t) = c :: u /\ 0x7F < c.
Proof. exact merges_true. Qed.
Print Assumptions C81_merges.
Example C81_merges_example : merges [0x301] = true /\ merges [0x316; 0x307; 0x61] = true /\ merges [0x323] = true /\ merges [0x300] = false /\ merges [0x300; 0x301] = false /\ merges [0x301; 0xA] = true.
Proof. repeat split; vm_compute; reflexivity. Qed.

(** What a closed writer has sent: the sequences where they were, and without
    them the converted texts in order. *)
Theorem C81_closed : forall cr p o ops rs w w', do_ops (new_writer cr true (mksink p o false)) (map cop_op ops) = (rs, w) -> Forall cop_ok ops -> close w = (None, w') ->
  let u := concat (map cop_shown ops) in let v := concat (concat (map cop_pieces ops)) in
  emitted (inner w') = p ++ as_sent cr u /\ uncoloured u v /\ line_terminated u /\ Forall allowed v /\ Forall2 (fun o r => is_write (cop_op o) = true -> r = None) ops rs.
Proof. exact colour_closed. Qed.
Print Assumptions C81_closed.

(** Without the sequences it is valid text, unless Hangul jamos meet. *)
Theorem C81_closed_valid : forall cr p o ops rs w w', do_ops (new_writer cr true (mksink p o false)) (map cop_op ops) = (rs, w) -> Forall cop_ok ops -> close w = (None, w') ->
  Forall starts_ok (concat (map cop_pieces ops)) ->
  string_ok (concat (concat (map cop_pieces ops))) <->
  forall l a b r, filter (fun t => match t with [] => false | _ => true end) (concat (map cop_pieces ops)) = l ++ a :: b :: r -> ~ joined a b.
Proof. exact colour_valid. Qed.
Print Assumptions C81_closed_valid.

(** A reader removes the colours again. *)
Theorem C81_read_back : forall (bom cr : bool) nel lsps ops rs w w' sc sizes out j rest,
  do_ops (new_writer cr true (mksink (if bom then [0xFEFF] else []) [] false)) (map cop_op ops) = (rs, w) -> Forall cop_ok ops -> close w = (None, w') ->
  let v := concat (concat (map cop_pieces ops)) in string_ok v -> Forall (fun c => is_assigned c = true) v ->
  stream_text sc = emitted (inner w') -> no_push sc -> bom_visible sc -> reads (new_input nel lsps) sc sizes = (out, j, rest) -> reached_end out -> delivered out = v.
Proof. exact colour_written_read_back. Qed.
Print Assumptions C81_read_back.

(** "a", red "A" with a combining ring, LF in the middle of the painted text,
    then a flush and valid text. *)
Definition ex81 : list cop :=
  [CWrite (mkpainted [0x61] [([0x33; 0x31], [0x41; 0x30A; 0xA; 0x62]); ([], [])]); CFlush; CText [0x63; 0xA]].
Example C81_example : Forall cop_ok ex81 /\
  (let '(rs, w) := do_ops (new_writer true true (mksink [] [] false)) (map cop_op ex81) in
   map ok rs = [true; true; true] /\ fst (close w) = None /\
   emitted (inner w) = [0x61; 0x1B; 0x5B; 0x33; 0x31; 0x6D; 0xC5; 0xD; 0xA; 0x62; 0x1B; 0x5B; 0x6D; 0x63; 0xD; 0xA] /\
   received (fst (fst (reads (new_input false false) [Chunk (emitted (inner w)) End] [136]%nat))) = [0x61; 0xC5; 0xA; 0x62; 0x63; 0xA]) /\
  concat (concat (map cop_pieces ex81)) = [0x61; 0xC5; 0xA; 0x62; 0x63; 0xA] /\ string_ok (concat (concat (map cop_pieces ex81))) /\
  Forall starts_ok (concat (map cop_pieces ex81)).
Proof.
  split; [|split; [vm_compute; repeat split|split; [vm_compute; reflexivity|split; [apply basic_text_spec; vm_compute; reflexivity|]]]].
  - constructor; [|constructor; [exact I|constructor; [split; [discriminate|vm_compute; reflexivity]|constructor]]].
    split; [repeat constructor; cbn; intuition discriminate|]. constructor; [|constructor; [|constructor]].
    + repeat constructor; cbn; discriminate.
    + constructor.
  - apply Forall_forall. intros t K. apply hstart_ok. revert t K. apply Forall_forall. repeat constructor.
Qed.
(** A forbidden character is refused inside painted text too. *)
Example C81_forbidden_example : let p := mkpainted [] [([0x31], [0x61; 0x7])] in painted_ok p /\
  map ok (fst (do_ops (new_writer false true (mksink [] [] false)) [OpWriteStr (source p)])) = [false].
Proof.
  split; [|vm_compute; reflexivity]. split; [repeat constructor; cbn; intuition discriminate|]. constructor; [|constructor]. repeat constructor; cbn; discriminate.
Qed.
(** A grave accent after a sequence is accepted (it does not go on an "m"). *)
Example C81_grave_example : let p := mkpainted [0x61] [([0x31], [0x300; 0xA])] in painted_ok p /\ apart p = true /\
  (let '(rs, w) := do_ops (new_writer false true (mksink [] [] false)) [OpWriteStr (source p)] in map ok rs = [true] /\ emitted (inner w) = shown p).
Proof.
  split; [|split; vm_compute; [reflexivity|split; reflexivity]]. split; [repeat constructor; cbn; intuition discriminate|]. constructor; [|constructor]. repeat constructor; cbn; discriminate.
Qed.

(** * Sequences cut by the end of a write *)
(** The same if the application cuts its sequences anywhere into several writes
    (SpecFrag.v): what is kept between writes is the part already written, the
    sequence is sent when it is complete, flushing in the middle of one is refused
    without harm and closing there fails.  A text written with write_text in the
    middle of a sequence discards the part already written. *)
Theorem C81_cut_histories : forall cr p o xs rs w, do_ops (new_writer cr true (mksink p o false)) (map fop_op xs) = (rs, w) -> fops_ok [] xs ->
  let '(bs, (h, d)) := spec_fops cr [] (new_doc p o) xs in
  map ok rs = bs /\ emitted (inner w) = sent d /\ abandoned (inner w) = failed d /\
  drop_panics w = negb (failed d || match h, last_opt (text d) with [], None => true | [], Some c => c =? 0xA | _, _ => false end).
Proof. exact cut_histories. Qed.
Print Assumptions C81_cut_histories.
(** After closing: all sequences are complete, and without them it is the
    converted texts in order. *)
Theorem C81_cut_closed : forall cr p o xs rs w w', do_ops (new_writer cr true (mksink p o false)) (map fop_op xs) = (rs, w) -> fops_ok [] xs -> close w = (None, w') ->
  let u := fops_shown [] xs in let v := concat (concat (map fop_pieces xs)) in
  emitted (inner w') = p ++ as_sent cr u /\ uncoloured u v /\ line_terminated u /\ Forall allowed v /\ Forall2 (fun x r => is_write (fop_op x) = true -> r = None) xs rs.
Proof. exact cut_closed. Qed.
Print Assumptions C81_cut_closed.
Theorem C81_cut_closed_valid : forall cr p o xs rs w w', do_ops (new_writer cr true (mksink p o false)) (map fop_op xs) = (rs, w) -> fops_ok [] xs -> close w = (None, w') ->
  Forall starts_ok (concat (map fop_pieces xs)) ->
  string_ok (concat (concat (map fop_pieces xs))) <->
  forall l a b r, filter (fun t => match t with [] => false | _ => true end) (concat (map fop_pieces xs)) = l ++ a :: b :: r -> ~ joined a b.
Proof. exact cut_valid. Qed.
Print Assumptions C81_cut_closed_valid.
Theorem C81_cut_read_back : forall (bom cr : bool) nel lsps xs rs w w' sc sizes out j rest,
  do_ops (new_writer cr true (mksink (if bom then [0xFEFF] else []) [] false)) (map fop_op xs) = (rs, w) -> fops_ok [] xs -> close w = (None, w') ->
  let v := concat (concat (map fop_pieces xs)) in string_ok v -> Forall (fun c => is_assigned c = true) v ->
  stream_text sc = emitted (inner w') -> no_push sc -> bom_visible sc -> reads (new_input nel lsps) sc sizes = (out, j, rest) -> reached_end out -> delivered out = v.
Proof. exact cut_read_back. Qed.
Print Assumptions C81_cut_read_back.
(** "a ESC", a flush that is refused, "[ 3", "1 m A", "ring LF ESC [", "m LF". *)
Definition ex81_cut : list fop :=
  [FWrite [] (mkpainted [0x61] []) [0x1B]; FFlush; FPart [0x5B; 0x33]; FWrite [0x31; 0x6D] (mkpainted [0x41; 0x30A; 0xA] []) [0x1B; 0x5B]; FWrite [0x6D] (mkpainted [0xA] []) []].
Example C81_cut_example : fops_ok [] ex81_cut /\
  (let '(rs, w) := do_ops (new_writer true true (mksink [] [] false)) (map fop_op ex81_cut) in
   map ok rs = [true; false; true; true; true] /\ fst (close w) = None /\
   emitted (inner w) = [0x61; 0x1B; 0x5B; 0x33; 0x31; 0x6D; 0xC5; 0xD; 0xA; 0x1B; 0x5B; 0x6D; 0xD; 0xA]) /\
  concat (concat (map fop_pieces ex81_cut)) = [0x61; 0xC5; 0xA; 0xA].
Proof.
  split; [|split; [vm_compute; repeat split|vm_compute; reflexivity]].
  assert (PS : forall t, ~ In 0x1B t -> painted_ok (mkpainted t [])) by (intros t H; split; [constructor; [exact H|constructor]|constructor]).
  split; [split; [apply PS; cbn; intuition discriminate|split; [now apply shape_unfinished, sh_esc|left; now split]]|]. split; [exact I|].
  split; [split; [discriminate|apply shape_unfinished, (sh_csi [0x33]); repeat constructor; cbn; discriminate]|].
  split; [split; [apply PS; cbn; intuition discriminate|split; [now apply shape_unfinished, (sh_csi [])|right]]|].
  - split; [discriminate|]. split; [discriminate|]. exists [0x33; 0x31]. split; [repeat constructor; cbn; discriminate|reflexivity].
  - split; [|exact I]. split; [apply PS; cbn; intuition discriminate|]. split; [apply shape_unfinished, sh_nil|]. right.
    split; [discriminate|]. split; [discriminate|]. exists []. split; [constructor|reflexivity].
Qed.
(** Text written with write_text in the middle of a sequence: the part of the
    sequence already written is lost without an error, and its end is sent as
    text. *)
Theorem C81_lost_sequence_refuted : exists xs rs w w', do_ops (new_writer false true (mksink [] [] false)) xs = (rs, w) /\ map ok rs = [true; true; true] /\ close w = (None, w') /\
  xs = [OpWriteStr [0x61; 0x1B; 0x5B; 0x33]; OpWriteText [0x62]; OpWriteStr [0x31; 0x6D; 0xA]] /\ emitted (inner w') = [0x61; 0x62; 0x31; 0x6D; 0xA].
Proof. do 4 eexists. split; [|split; [|split; [|split; [reflexivity|]]]]; vm_compute; reflexivity. Qed.
Print Assumptions C81_lost_sequence_refuted.

(** An accent that begins a write, after the sequence that the write before left
    open but for its "m". *)
Definition ex81_merge : list fop := [FWrite [] (mkpainted [0x61] []) [0x1B; 0x5B; 0x31]; FWrite [0x6D] (mkpainted [0x301; 0xA] []) []].
Example C81_cut_merge_example : fops_ok [] ex81_merge /\
  map ok (fst (do_ops (new_writer false true (mksink [] [] false)) (map fop_op ex81_merge))) = [true; false] /\ fst (spec_fops false [] (new_doc [] []) ex81_merge) = [true; false].
Proof.
  split; [|split; vm_compute; reflexivity].
  assert (PS : forall t, ~ In 0x1B t -> painted_ok (mkpainted t [])) by (intros t H; split; [constructor; [exact H|constructor]|constructor]).
  split; [split; [apply PS; cbn; intuition discriminate|split; [now apply shape_unfinished, (sh_csi [0x31]); repeat constructor; cbn; discriminate|left; now split]]|].
  split; [|exact I]. split; [apply PS; cbn; intuition discriminate|]. split; [apply shape_unfinished, sh_nil|]. right.
  split; [discriminate|]. split; [discriminate|]. exists [0x31]. split; [repeat constructor; cbn; discriminate|reflexivity].
Qed.

(** * Where colours do disturb the text *)
Definition results (an : bool) (ops : list wop) : list bool := map ok (fst (do_ops (new_writer false an (mksink [] [] false)) ops)).
(** The text goes through normalization together with the sequence, so an accent
    after it is put on the "m", and the write is refused. *)
Theorem C81_accent_refuted : exists a b, Forall allowed (a ++ b) /\
  results false [OpWriteStr a; OpWriteStr b] = [true; true] /\ results true [OpWriteStr (a ++ sgr [0x31] ++ b)] = [false].
Proof. exists [0x61], [0x301; 0xA]. split; [repeat constructor|split; vm_compute; reflexivity]. Qed.
Print Assumptions C81_accent_refuted.
(** A sequence hides that the text begins with a non-starter: the writer closes
    without an error, and without the colour the text is not valid. *)
Theorem C81_start_refuted : exists t, results false [OpWriteStr t; OpClose] = [false; false] /\ results true [OpWriteStr (sgr [0x31] ++ t); OpClose] = [true; true] /\
  emitted (inner (snd (do_ops (new_writer false true (mksink [] [] false)) [OpWriteStr (sgr [0x31] ++ t); OpClose]))) = sgr [0x31] ++ t /\
  uncoloured (sgr [0x31] ++ t) t /\ ~ string_ok t.
Proof.
  exists [0x300; 0xA]. split; [vm_compute; reflexivity|]. split; [vm_compute; reflexivity|]. split; [vm_compute; reflexivity|].
  split; [apply unc_sgr; [repeat constructor; cbn; discriminate|repeat constructor; discriminate]|]. intros (_ & H & _). specialize (H _ _ eq_refl). vm_compute in H. discriminate.
Qed.
Print Assumptions C81_start_refuted.
(** After U+200D a flush is refused, but not if a sequence comes between. *)
Theorem C81_flush_refuted : exists t, results false [OpWriteStr t; OpFlush] = [true; false] /\ results true [OpWriteStr (t ++ sgr []); OpFlush] = [true; true].
Proof. exists [0x61; 0x200D]. split; vm_compute; reflexivity. Qed.
Print Assumptions C81_flush_refuted.
(** Switching colours off after the last line end makes closing fail. *)
Theorem C81_close_refuted : exists t, results false [OpWriteStr t; OpClose] = [true; true] /\ results true [OpWriteStr (t ++ sgr [0x30]); OpClose] = [true; false].
Proof. exists [0x61; 0xA]. split; vm_compute; reflexivity. Qed.
Print Assumptions C81_close_refuted.
