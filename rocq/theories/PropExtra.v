(** Properties that combine reading, writing and strings: C54-C61, and exact
    conditions for C20, C26 and C47. *)
From Coq Require Import NArith List Bool Lia.
From Verif Require Import Base Ucd Norm Chars TextUtils DocTable SpecText TextFacts PipelineFacts DocFacts IsoFacts Utf8 Utf8Facts Input Output ReadFacts ReadSession SpecRead SpecEscape SpecConv ReadProps EscapeCheck
  SpecWrite WriteFacts WriteProps Strings SpecString LossyProps Fuzz FuzzProps SpecMore CanonProps Arbitrary ArbitraryProps StringFacts StringProps GuardFacts SpecUnicode UnicodeProps.
Import ListNotations.
Local Open Scope N_scope.

(** ** C54 *)
(** [fuzz bs s] is the assertion of the repository's fuzz target that fails on the
    bytes [bs] when [s] is what was read from them.  None fails, if the bytes
    arrive in one read, or if no unassigned character follows U+34F. *)
Theorem C54_fuzz_target_at_once : forall bs s, reads_at_once (utf8_lossy bs) s -> fuzz bs s = None.
Proof. exact fuzz_at_once. Qed.
Print Assumptions C54_fuzz_target_at_once.
Theorem C54_fuzz_target_partial : forall bs s, reads_as (utf8_lossy bs) s -> unguarded_text (utf8_lossy bs) -> fuzz bs s = None.
Proof. exact fuzz_unguarded. Qed.
Print Assumptions C54_fuzz_target_partial.
(** In every other case only one assertion can fail, the comparison of what was
    read with what was written. *)
Theorem C54_one_assertion : forall bs s a, reads_as (utf8_lossy bs) s -> fuzz bs s = Some a -> a = WriterAgrees.
Proof. exact fuzz_any. Qed.
Print Assumptions C54_one_assertion.
(** It does fail when a read ends between U+34F and an unassigned character. *)
Theorem C54_fuzz_target_refuted : exists bs s, reads_as (utf8_lossy bs) s /\ fuzz bs s = Some WriterAgrees.
Proof.
  exists (encode_all [0x61; 0x34F; 0x378; 0xA]). eexists. split.
  - exists [Chunk [0x61; 0x34F] Active; Chunk [0x378; 0xA] End], [136; 136]%nat. do 3 eexists.
    split; [vm_compute; reflexivity|]. split; [intros cs [H|[H|[]]]; discriminate|]. split; [intros [H|[H|[]]]; discriminate|].
    split; [right; do 4 eexists; reflexivity|]. split; [vm_compute; reflexivity|]. split; [|reflexivity]. eexists [_]. do 2 eexists. reflexivity.
  - vm_compute. reflexivity.
Qed.
Print Assumptions C54_fuzz_target_refuted.
(** "e", acute, invalid byte; the writer refuses, and the reader delivers text *)
Definition ex_fuzz : list N := [0x65; 0xCC; 0x81; 0xFF; 0xA].
Example C54_example : write_and_close ex_fuzz = None /\ fuzz ex_fuzz [0xE9; 0xFFFD; 0xA] = None /\
  reads_at_once (utf8_lossy ex_fuzz) [0xE9; 0xFFFD; 0xA] /\
  write_and_close [0x65; 0xCC; 0x81; 0xA] = Some [0xE9; 0xA] /\ fuzz [0x65; 0xCC; 0x81; 0xA] [0x65; 0x301; 0xA] = Some StreamSafeNfc.
Proof.
  split; [vm_compute; reflexivity|]. split; [vm_compute; reflexivity|]. split; [|split; vm_compute; reflexivity].
  exists [136%nat]. do 3 eexists. split; [vm_compute; reflexivity|]. split; [exists []; do 2 eexists; reflexivity|reflexivity].
Qed.

(** ** C55 *)
(** From bytes that are UTF-8 the Arbitrary instances make valid texts. *)
Theorem C55_arbitrary_str_partial : forall s, scalars s -> exists r, arbitrary is_basic_text (encode_all s) = Some r /\ encodes string_ok r.
Proof. exact arbitrary_str. Qed.
Print Assumptions C55_arbitrary_str_partial.
Theorem C55_arbitrary_substr_partial : forall s, scalars s -> exists r, arbitrary is_basic_text_substr (encode_all s) = Some r /\ encodes substring_ok r.
Proof. exact arbitrary_substr. Qed.
Print Assumptions C55_arbitrary_substr_partial.
(** When the rest of the input is taken, exactly valid texts are made. *)
Theorem C55_take_rest_str : forall b r, arbitrary_take_rest is_basic_text b = Some r <-> r = b /\ encodes string_ok b.
Proof. exact take_rest_str. Qed.
Print Assumptions C55_take_rest_str.
Theorem C55_take_rest_substr : forall b r, arbitrary_take_rest is_basic_text_substr b = Some r <-> r = b /\ encodes substring_ok b.
Proof. exact take_rest_substr. Qed.
Print Assumptions C55_take_rest_substr.
(** From other bytes an invalid text can be made: U+7 from the bytes 7 FF. *)
Theorem C55_arbitrary_refuted : exists b s, arbitrary is_basic_text b = Some (encode_all s) /\ arbitrary is_basic_text_substr b = Some (encode_all s) /\
  scalars s /\ is_basic_text s = false /\ is_basic_text_substr s = false.
Proof. exists [0x7; 0xFF], [0x7]. split; [vm_compute; reflexivity|]. split; [vm_compute; reflexivity|]. split; [repeat constructor|]. split; vm_compute; reflexivity. Qed.
Print Assumptions C55_arbitrary_refuted.
Example C55_example : arbitrary is_basic_text (encode_all [0xE9; 0x62; 0x7; 0x63]) = Some (encode_all [0xE9; 0x62]).
Proof. vm_compute. reflexivity. Qed.

(** ** C56 *)
(** Canonical equivalence is that of the Unicode Standard (SpecUnicode.v).  Valid texts that are canonically equivalent are equal. *)
Theorem C56_equivalent_texts_equal : forall a b, substring_ok a -> substring_ok b -> equivalent a b -> a = b.
Proof. intros a b (A & _) (B & _) E. apply equivalent_eq in E. now apply canonical_eq. Qed.
Print Assumptions C56_equivalent_texts_equal.
(** from_text accepts both or none of two canonically equivalent ordinary
    strings, and gives the same text. *)
Theorem C56_from_text_equivalent : forall check a b t, plain a -> plain b -> equivalent a b -> string_from_text check a = TOk t <-> string_from_text check b = TOk t.
Proof. intros check a b t A B E. apply equivalent_eq in E. now apply from_text_canonical. Qed.
Print Assumptions C56_from_text_equivalent.
(** On ordinary strings from_text is NFC, and so is reading, up to the final
    newline. *)
Theorem C56_from_text_nfc : forall check s, plain s -> starts_ok s -> ends_ok s -> string_from_text check s = TOk (nfc s).
Proof. exact from_text_nfc. Qed.
Print Assumptions C56_from_text_nfc.
Theorem C56_reading_nfc : forall v s, plain v -> starts_ok v -> ends_ok v -> reads_as v s ->
  (line_terminated v -> s = nfc v) /\ (~ line_terminated v -> s = nfc (v ++ [0xA])).
Proof. exact reads_ordinary. Qed.
Print Assumptions C56_reading_nfc.
(** "a" with dot below and circumflex, in either order *)
Example C56_example : plain [0x61; 0x323; 0x302; 0xA] /\ plain [0xE2; 0x323; 0xA] /\ equivalent [0x61; 0x323; 0x302; 0xA] [0xE2; 0x323; 0xA] /\
  string_from_text is_basic_text [0xE2; 0x323; 0xA] = TOk [0x1EAD; 0xA].
Proof. split; [apply ordinary_plain; vm_compute; reflexivity|]. split; [apply ordinary_plain; vm_compute; reflexivity|]. split; [apply equivalent_eq|]; vm_compute; reflexivity. Qed.

(** ** C57 *)
(** Reading gives back its input exactly if that is valid text, empty or ending
    with U+A, with U+34F before unassigned characters. *)
Theorem C57_kept_exactly : forall v s, reads_at_once v s -> s = v <-> string_ok v /\ line_terminated v /\ preceded v.
Proof. exact read_keeps. Qed.
Print Assumptions C57_kept_exactly.
(** However it is cut into reads: only such text is given back, and without
    unassigned characters it always is. *)
Theorem C57_kept_only : forall v s, reads_as v s -> s = v -> string_ok v /\ line_terminated v /\ preceded v.
Proof. exact read_keeps_only. Qed.
Print Assumptions C57_kept_only.
Theorem C57_kept_any_cut : forall v s, string_ok v -> line_terminated v -> Forall (fun c => is_assigned c = true) v -> reads_as v s -> s = v.
Proof. exact read_keeps_any. Qed.
Print Assumptions C57_kept_any_cut.
Theorem C57_cut_refuted : exists v s, string_ok v /\ line_terminated v /\ preceded v /\ reads_as v s /\ s <> v.
Proof.
  exists [0x61; 0x34F; 0x378; 0xA]. eexists. split; [apply basic_text_spec; vm_compute; reflexivity|]. split; [right; now exists [0x61; 0x34F; 0x378]|].
  split; [|split].
  - apply prec_ok_spec. vm_compute. reflexivity.
  - exists [Chunk [0x61; 0x34F] Active; Chunk [0x378; 0xA] End], [136; 136]%nat. do 3 eexists.
    split; [vm_compute; reflexivity|]. split; [intros cs [H|[H|[]]]; discriminate|]. split; [intros [H|[H|[]]]; discriminate|].
    split; [right; do 4 eexists; reflexivity|]. split; [vm_compute; reflexivity|]. split; [|reflexivity]. eexists [_]. do 2 eexists. reflexivity.
  - vm_compute. discriminate.
Qed.
Print Assumptions C57_cut_refuted.
Example C57_example : reads_at_once [0xE9; 0x34F; 0x378; 0x34F; 0xA] [0xE9; 0x34F; 0x378; 0x34F; 0xA].
Proof. exists [136%nat]. do 3 eexists. split; [vm_compute; reflexivity|]. split; [exists []; do 2 eexists; reflexivity|reflexivity]. Qed.

(** ** C58 *)
(** Writing a whole string and closing succeeds exactly if TextString::from_text
    does and the string is empty or ends with U+A; the text written is the same. *)
Theorem C58_writer_agrees_with_string : forall check v t, scalars v ->
  write_and_close (encode_all v) = Some t <-> string_from_text check v = TOk t /\ line_terminated v.
Proof. exact write_close_string. Qed.
Print Assumptions C58_writer_agrees_with_string.
Theorem C58_only_utf8 : forall bs t, write_and_close bs = Some t -> valid_utf8 bs = true.
Proof. exact write_close_bytes. Qed.
Print Assumptions C58_only_utf8.
Example C58_example : scalars [0x65; 0x301; 0xA] /\ write_and_close (encode_all [0x65; 0x301; 0xA]) = Some [0xE9; 0xA] /\
  write_and_close (encode_all [0x65; 0x301]) = None /\ string_from_text is_basic_text [0x65; 0x301] = TOk [0xE9].
Proof. split; [repeat constructor|]. repeat split; vm_compute; reflexivity. Qed.

(** ** C59 *)
(** A valid text may be cut anywhere; writing the pieces one after the other
    sends the text. *)
Theorem C59_pieces : forall cr p ps, string_ok (concat ps) -> Forall (fun x => x <> []) ps ->
  exists w, do_ops (new_writer cr false (mksink p [] false)) (map OpWriteText ps) = (map (fun _ => None) ps, w) /\
    emitted (inner w) = p ++ as_sent cr (concat ps) /\
    (line_terminated (concat ps) -> exists w', close w = (None, w') /\ emitted (inner w') = p ++ as_sent cr (concat ps)).
Proof. exact pieces_written. Qed.
Print Assumptions C59_pieces.
(** A flush between the pieces is not harmless: the service dog cut after ZWJ. *)
Theorem C59_flush_refuted : exists a b, string_ok (a ++ b) /\ a <> [] /\ b <> [] /\
  map ok (fst (do_ops (new_writer false false vec_sink) [OpWriteText a; OpFlush; OpWriteText b])) = [true; false; false].
Proof.
  exists [0x1F415; 0x200D], [0x1F9BA; 0xA]. split; [apply basic_text_spec; vm_compute; reflexivity|]. split; [discriminate|]. split; [discriminate|]. vm_compute. reflexivity.
Qed.
Print Assumptions C59_flush_refuted.
Example C59_example : string_ok (concat [[0x1F415; 0x200D]; [0x1F9BA]; [0xA]]).
Proof. apply basic_text_spec. vm_compute. reflexivity. Qed.

(** ** C60 *)
(** What a writer has stored, with or without BOM and with either line end, is
    read back as the text that was written, with any options of the reader. *)
Theorem C60_round_trip : forall (bom cr : bool) nel lsps ops rs w w' sc sizes out j rest,
  do_ops (new_writer cr false (mksink (if bom then [0xFEFF] else []) [] false)) ops = (rs, w) -> Forall plain_op ops -> Forall line_op ops -> close w = (None, w') ->
  let t := concat (map op_text ops) in Forall (fun c => is_assigned c = true) t ->
  stream_text sc = emitted (inner w') -> no_push sc -> bom_visible sc -> reads (new_input nel lsps) sc sizes = (out, j, rest) -> reached_end out -> delivered out = t.
Proof. exact written_read_back. Qed.
Print Assumptions C60_round_trip.
Theorem C60_stored_text : forall bom cr nel lsps t sc sizes rs j rest, string_ok t -> line_terminated t -> Forall (fun c => is_assigned c = true) t ->
  stream_text sc = stored bom cr t -> no_push sc -> bom_visible sc ->
  reads (new_input nel lsps) sc sizes = (rs, j, rest) -> reached_end rs -> delivered rs = t.
Proof. exact read_back. Qed.
Print Assumptions C60_stored_text.
(** With unassigned characters, if it is read at once *)
Theorem C60_stored_text_at_once : forall bom cr nel lsps t sizes rs j rest, string_ok t -> line_terminated t -> preceded t ->
  reads (new_input nel lsps) [Chunk (stored bom cr t) End] sizes = (rs, j, rest) -> reached_end rs -> delivered rs = t.
Proof. exact read_back_at_once. Qed.
Print Assumptions C60_stored_text_at_once.
Example C60_example : let ops := [OpWriteStr [0x41; 0x30A; 0xA; 0x62; 0xA]; OpFlush; OpWriteText [0x63; 0xA]] in
  let w := snd (do_ops (new_writer true false (mksink [0xFEFF] [] false)) ops) in
  emitted (inner (snd (close w))) = [0xFEFF; 0xC5; 0xD; 0xA; 0x62; 0xD; 0xA; 0x63; 0xD; 0xA] /\
  received (fst (fst (reads (new_input true true) [Chunk (emitted (inner (snd (close w)))) End] [136]%nat))) = [0xC5; 0xA; 0x62; 0xA; 0x63; 0xA].
Proof. split; vm_compute; reflexivity. Qed.

(** ** C61 *)
(** The literal macros compile exactly for valid texts. *)
Theorem C61_text_literal : forall s t, literal is_basic_text s = Some t <-> t = s /\ string_ok s.
Proof. exact literal_str. Qed.
Print Assumptions C61_text_literal.
Theorem C61_text_substr_literal : forall s t, literal is_basic_text_substr s = Some t <-> t = s /\ substring_ok s.
Proof. exact literal_substr. Qed.
Print Assumptions C61_text_substr_literal.
Example C61_example : literal is_basic_text [0x48; 0x69; 0x21] = Some [0x48; 0x69; 0x21] /\ literal is_basic_text [0x1F415; 0x200D] = None /\
  literal is_basic_text_substr [0x1F415; 0x200D] = Some [0x1F415; 0x200D].
Proof. repeat split; vm_compute; reflexivity. Qed.

(** ** C20 *)
(** The result is the documented one exactly for such texts. *)
Theorem C20_documented_exact : forall check s t, string_from_text check s = TOk t -> strict_result s t <-> closed_guards s.
Proof. exact from_text_documented_exact. Qed.
Print Assumptions C20_documented_exact.

(** ** C26 *)
(** Isolation is complete, and as documented, exactly for such texts. *)
Theorem C26_isolated_exact : forall s, isolated (pipeline s) <-> closed_guards s.
Proof. exact pipeline_isolated_exact. Qed.
Print Assumptions C26_isolated_exact.
Theorem C26_isolate_exact : forall s, isolated (isolate_unassigned s) <-> closed_guards s.
Proof. exact iso_isolated_exact. Qed.
Print Assumptions C26_isolate_exact.
Theorem C26_as_documented_exact : forall s, isolate_unassigned s = isolated_form false s <-> closed_guards s.
Proof. exact iso_documented_exact. Qed.
Print Assumptions C26_as_documented_exact.
Theorem C26_unguarded : forall s, unguarded_text s -> closed_guards s.
Proof. exact unguarded_closed. Qed.
Print Assumptions C26_unguarded.
Example C26_exact_example : let s := [0x61; 0x34F; 0x378; 0x34F; 0x62; 0x34F; 0x378; 0x379] in closed_guards s /\
  string_from_text is_basic_text s = TOk [0x61; 0x34F; 0x378; 0x34F; 0x62; 0x34F; 0x378; 0x34F; 0x379; 0x34F].
Proof. split; [apply guards_check; vm_compute; reflexivity|vm_compute; reflexivity]. Qed.

(** ** C47 *)
(** TextSubstring::from_text accepts what TextString::from_text accepts. *)
Theorem C47_same_as_string : forall s t, string_from_text is_basic_text_substr s = TOk t <-> string_from_text is_basic_text s = TOk t.
Proof. exact from_text_same. Qed.
Print Assumptions C47_same_as_string.
