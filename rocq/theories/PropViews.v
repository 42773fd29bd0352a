(** Options without effect (C43, C57), ASCII text, readers over readers, errors and
    views of a text: C71 to C75. *)
From Coq Require Import NArith List Bool.
From Verif Require Import Base Chars TextUtils Utf8 Input Output SpecText TextFacts SpecRead SpecCut SpecWrite Strings StringProps IsoFacts PipelineFacts CutProps Search SpecSearch SearchProps
  SpecCat SpecAscii AsciiProps SpecLayer OptionProps SpecPush LayerProps LayerPush LayerAny Views SpecViews ViewProps.
Import ListNotations.
Local Open Scope N_scope.

(** ** C43 *)
(** The options have no effect on text without the separators they are about. *)
Theorem C43_without_separators : forall nel lsps nel2 lsps2 script t t2, gives nel lsps script t -> gives nel2 lsps2 script t2 ->
  indifferent nel lsps nel2 lsps2 (stream_text script) -> t = t2.
Proof. exact gives_indifferent. Qed.
Print Assumptions C43_without_separators.
Example C43_without_separators_example : let script := [Chunk [0x61; 0x2028] Active; Chunk [0x301; 0x7; 0x1B] Push; Chunk [0x62] Active] in
  gives true false script [0x61; 0x20; 0x301; 0xFFFD; 0x62; 0xA] /\ gives false false script [0x61; 0x20; 0x301; 0xFFFD; 0x62; 0xA] /\
  indifferent true false false false (stream_text script).
Proof.
  cbv zeta. split; [|split].
  - exists [136; 136; 136; 136]%nat. do 3 eexists. split; [vm_compute; reflexivity|]. split; [eexists [_; _; _]; do 2 eexists; reflexivity|vm_compute; reflexivity].
  - exists [136; 136; 136; 136]%nat. do 3 eexists. split; [vm_compute; reflexivity|]. split; [eexists [_; _; _]; do 2 eexists; reflexivity|vm_compute; reflexivity].
  - split; [right|now left]. intro H. vm_compute in H. intuition discriminate.
Qed.

(** ** C57 *)
(** C57_kept_cut_exact for readers with any options *)
Theorem C57_kept_exact_any : forall nel lsps script sizes rs j rest, no_push script -> reads (new_input nel lsps) script sizes = (rs, j, rest) -> reached_end rs ->
  delivered rs = stream_text script <->
  string_ok (stream_text script) /\ line_terminated (stream_text script) /\ preceded (stream_text script) /\ ~ badly_cut script.
Proof. exact kept_exact_any. Qed.
Print Assumptions C57_kept_exact_any.

(** ** C71 *)
(** ASCII text is valid exactly if it contains no control characters but tab and
    line feed, and then it is converted to itself; *)
Theorem C71_valid : forall s, Forall ascii s ->
  (string_ok s <-> Forall plain_ascii s) /\ (substring_ok s <-> Forall plain_ascii s).
Proof. intros s A. split; [now apply ascii_string_ok|now apply ascii_substring_ok]. Qed.
Print Assumptions C71_valid.
Theorem C71_from_text : forall check s, Forall ascii s ->
  (Forall plain_ascii s -> string_from_text check s = TOk s) /\ (~ Forall plain_ascii s -> exists e, string_from_text check s = TErr e).
Proof. exact ascii_from_text. Qed.
Print Assumptions C71_from_text.
(** a reader delivers it unchanged, whatever its options and however the stream is
    cut into reads, with pushes or failures, and adds the missing line end; *)
Theorem C71_read : forall nel lsps script text, gives nel lsps script text -> Forall plain_ascii (stream_text script) ->
  text = stream_text script ++ missing_line_end (stream_text script).
Proof. exact ascii_read. Qed.
Print Assumptions C71_read.
(** a writer accepts it in any pieces, with flushes anywhere, and sends exactly
    it; closing succeeds exactly after a line end. *)
Theorem C71_written : forall cr p os, Forall ascii_op os ->
  exists w, do_ops (new_writer cr false (mksink p [] false)) os = (map (fun _ => None) os, w) /\
    emitted (inner w) = p ++ as_sent cr (flat_map op_given os) /\
    (fst (close w) = None <-> line_terminated (flat_map op_given os)) /\ emitted (inner (snd (close w))) = emitted (inner w).
Proof. exact ascii_written. Qed.
Print Assumptions C71_written.
(** "a TAB ~ LF b", with a push and a failure inside; "a", flush, "~ LF" as bytes *)
Example C71_example : Forall ascii [0x61; 0x9; 0x7E; 0xA] /\ Forall plain_ascii [0x61; 0x9; 0x7E; 0xA] /\
  gives true true [Chunk [0x61; 0x9] Push; Fail; Chunk [0x7E; 0xA; 0x62] Active] [0x61; 0x9; 0x7E; 0xA; 0x62; 0xA] /\
  Forall ascii_op [OpWriteStr [0x61]; OpFlush; OpWrite [0x7E; 0xA]; OpWriteText [0x62]].
Proof.
  split; [repeat constructor; discriminate|]. split; [repeat constructor; unfold plain_ascii; vm_compute; intuition discriminate|]. split.
  - exists [136; 136; 136; 136]%nat. do 3 eexists. split; [vm_compute; reflexivity|]. split; [eexists [_; _; _]; do 2 eexists; reflexivity|vm_compute; reflexivity].
  - assert (P : forall s, forallb plainb s = true -> Forall plain_ascii s) by (intros s H; apply Forall_forall; intros c HC; apply plainb_spec; rewrite forallb_forall in H; now apply H).
    apply Forall_cons; [now apply P|]. apply Forall_cons; [exact I|]. apply Forall_cons; [now apply P|]. apply Forall_cons; [split; [discriminate|now apply P]|constructor].
Qed.
Example C71_example_refused : Forall ascii [0x61; 0x7F] /\ ~ Forall plain_ascii [0x61; 0x7F].
Proof.
  split; [repeat constructor; discriminate|]. intro H. inversion H as [|? ? _ H2]; subst. inversion H2 as [|? ? H3 _]; subst.
  destruct H3 as [H3|[H3|[_ H3]]]; [discriminate|discriminate|]. now apply H3.
Qed.

(** ** C72 *)
(** Text that a reader has delivered is delivered unchanged by a second reader,
    whatever the options of the two and however it is cut into reads, unless it
    contains unassigned characters; *)
Theorem C72_read_again_partial : forall nel lsps nel2 lsps2 script script2 text text2, gives nel lsps script text -> gives nel2 lsps2 script2 text2 ->
  stream_text script2 = text -> no_push script2 -> Forall (fun c => is_assigned c = true) text -> text2 = text.
Proof. exact read_again. Qed.
Print Assumptions C72_read_again_partial.
(** with them, exactly if no read is cut between U+34F and such a character. *)
Theorem C72_read_again_exact : forall nel lsps nel2 lsps2 script script2 text text2, gives nel lsps script text -> gives nel2 lsps2 script2 text2 ->
  stream_text script2 = text -> no_push script2 -> (text2 = text <-> ~ badly_cut script2).
Proof. exact read_again_exact. Qed.
Print Assumptions C72_read_again_exact.
(** In particular when the calls of the first reader are the reads of the second. *)
Theorem C72_layered_partial : forall nel lsps nel2 lsps2 script sizes rs j rest text2, reads (new_input nel lsps) script sizes = (rs, j, rest) -> ends_once rs -> no_push script ->
  gives nel2 lsps2 (layer rs) text2 ->
  (Forall (fun c => is_assigned c = true) (delivered rs) -> text2 = delivered rs) /\
  (text2 = delivered rs <-> ~ badly_cut (layer rs)).
Proof. exact layered. Qed.
Print Assumptions C72_layered_partial.
(** A stream with an escape sequence, read twice. *)
Definition ex72 : list event := [Chunk [0x65; 0x1B] Active; Chunk [0x5B; 0x6D; 0x301; 0xD; 0xA; 0x7] Active].
Example C72_example : exists rs j rest, reads (new_input false false) ex72 [136; 136; 136]%nat = (rs, j, rest) /\ ends_once rs /\ no_push ex72 /\
  Forall (fun c => is_assigned c = true) (delivered rs) /\ gives true true (layer rs) [0xE9; 0xA; 0xFFFD; 0xA] /\ delivered rs = [0xE9; 0xA; 0xFFFD; 0xA].
Proof.
  do 3 eexists. split; [vm_compute; reflexivity|].
  split; [eexists [_; _], _, _; split; [reflexivity|]; repeat constructor; do 2 eexists; (split; [reflexivity|discriminate])|].
  split; [intros cs H; repeat (destruct H as [H|H]; [discriminate H|]); exact H|].
  split; [apply Forall_forall; rewrite <- forallb_forall; vm_compute; reflexivity|]. split; [|reflexivity].
  exists [136; 136; 136]%nat. do 3 eexists. split; [vm_compute; reflexivity|]. split; [eexists [_; _]; do 2 eexists; reflexivity|vm_compute; reflexivity].
Qed.
(** An unassigned character at the beginning of a call's buffer: the second reader
    puts another U+34F before it. *)
Theorem C72_layered_refuted : exists script sizes rs j rest text2, reads (new_input false false) script sizes = (rs, j, rest) /\ ends_once rs /\ no_push script /\
  gives false false (layer rs) text2 /\ text2 <> delivered rs.
Proof.
  exists [Chunk (repeat 0x61 131 ++ [0x378; 0xA]) Active], [136; 136]%nat. do 4 eexists. split; [vm_compute; reflexivity|].
  split; [eexists [_], _, _; split; [reflexivity|]; repeat constructor; do 2 eexists; (split; [reflexivity|discriminate])|].
  split; [intros cs H; repeat (destruct H as [H|H]; [discriminate H|]); exact H|].
  split; [exists [136; 136]%nat; do 3 eexists; split; [vm_compute; reflexivity|]; split; [eexists [_]; do 2 eexists; reflexivity|vm_compute; reflexivity]|].
  vm_compute. discriminate.
Qed.
Print Assumptions C72_layered_refuted.

(** Streams with pushes: assigned text is delivered unchanged exactly if what lies
    between the pushes the second reader sees begins and ends as a text may; *)
Theorem C72_pushes_exact : forall nel lsps nel2 lsps2 script script2 text text2, gives nel lsps script text -> gives nel2 lsps2 script2 text2 ->
  stream_text script2 = text -> Forall (fun c => is_assigned c = true) text ->
  (text2 = text <-> Forall (fun s => starts_ok s /\ ends_ok s) (segments script2)).
Proof. exact read_again_pushed. Qed.
Print Assumptions C72_pushes_exact.
(** where the pushes are those the first reader reports, the ends are always in
    order, but not always the beginnings. *)
Theorem C72_layered_pushes_exact : forall nel lsps nel2 lsps2 script sizes rs j rest text2, reads (new_input nel lsps) script sizes = (rs, j, rest) -> ends_once rs ->
  gives nel2 lsps2 (layer rs) text2 -> Forall (fun c => is_assigned c = true) (delivered rs) ->
  (text2 = delivered rs <-> Forall starts_ok (segments (layer rs))).
Proof. exact layered_pushed. Qed.
Print Assumptions C72_layered_pushes_exact.
(** "a" and a line end, a push, and an accented letter in two pieces. *)
Definition ex72p : list event := [Chunk [0x61; 0xD] Push; Chunk [0x65] Active; Chunk [0x301] Push; Chunk [0xA] Active].
Example C72_example_pushes : exists rs j rest, reads (new_input false false) ex72p [136; 136; 136; 136; 136]%nat = (rs, j, rest) /\ ends_once rs /\
  layer rs = [Chunk [0x61; 0xA] Push; Chunk [] Active; Chunk [] Push; Chunk [0xE9; 0xA] Active; Chunk [] End] /\
  gives true false (layer rs) [0x61; 0xA; 0xE9; 0xA] /\ Forall (fun c => is_assigned c = true) (delivered rs) /\ Forall starts_ok (segments (layer rs)).
Proof.
  do 3 eexists. split; [vm_compute; reflexivity|].
  split; [eexists [_; _; _; _], _, _; split; [reflexivity|]; repeat (apply Forall_cons; [do 2 eexists; split; [reflexivity|discriminate]|]); constructor|].
  split; [reflexivity|]. split; [|split].
  - exists [136; 136; 136; 136; 136]%nat. do 3 eexists. split; [vm_compute; reflexivity|]. split; [eexists [_; _; _; _]; do 2 eexists; reflexivity|vm_compute; reflexivity].
  - apply Forall_forall. rewrite <- forallb_forall. vm_compute. reflexivity.
  - apply Forall_cons; [intros c t E; injection E as <- <-; vm_compute; reflexivity|]. apply Forall_cons; [intros c t E; discriminate|].
    apply Forall_cons; [intros c t E; injection E as <- <-; vm_compute; reflexivity|constructor].
Qed.
(** A push after "a", U+34F, U+308: the first reader delivers the text up to
    U+34F, reports the push, and delivers U+308 later; the second reader sees text
    that begins with U+308 and puts another U+34F before it. *)
Theorem C72_pushes_refuted : exists script sizes rs j rest text2, reads (new_input false false) script sizes = (rs, j, rest) /\ ends_once rs /\
  Forall (fun c => is_assigned c = true) (delivered rs) /\ gives false false (layer rs) text2 /\ text2 <> delivered rs.
Proof.
  exists [Chunk [0x61; 0x34F; 0x308] Push; Chunk [0xA] Active], [136; 136; 136]%nat. do 4 eexists. split; [vm_compute; reflexivity|].
  split; [eexists [_; _], _, _; split; [reflexivity|]; repeat constructor; do 2 eexists; (split; [reflexivity|discriminate])|].
  split; [apply Forall_forall; rewrite <- forallb_forall; vm_compute; reflexivity|].
  split; [exists [136; 136; 136]%nat; do 3 eexists; split; [vm_compute; reflexivity|]; split; [eexists [_; _]; do 2 eexists; reflexivity|vm_compute; reflexivity]|].
  vm_compute. discriminate.
Qed.
Print Assumptions C72_pushes_refuted.

(** With pushes and unassigned characters together: text is delivered unchanged
    exactly if what lies between the pushes begins and ends as a text may and no
    read ends between U+34F and the unassigned character after it. *)
Theorem C72_all_exact : forall nel lsps nel2 lsps2 script script2 text text2, gives nel lsps script text -> gives nel2 lsps2 script2 text2 ->
  stream_text script2 = text ->
  (text2 = text <-> Forall (fun s => starts_ok s /\ ends_ok s) (segments script2) /\ ~ badly_cut script2).
Proof. exact read_again_any. Qed.
Print Assumptions C72_all_exact.
Theorem C72_layered_all_exact : forall nel lsps nel2 lsps2 script sizes rs j rest text2, reads (new_input nel lsps) script sizes = (rs, j, rest) -> ends_once rs ->
  gives nel2 lsps2 (layer rs) text2 ->
  (text2 = delivered rs <-> Forall starts_ok (segments (layer rs)) /\ ~ badly_cut (layer rs)).
Proof. exact layered_any. Qed.
Print Assumptions C72_layered_all_exact.
(** "a" and a line end, a push, and an unassigned character in a line of its own. *)
Definition ex72u : list event := [Chunk [0x61; 0xD] Push; Chunk [0x378] Active; Chunk [0xA; 0x62] Push; Chunk [0xA] Active].
Example C72_example_all : exists rs j rest, reads (new_input false false) ex72u [136; 136; 136; 136; 136]%nat = (rs, j, rest) /\ ends_once rs /\
  layer rs = [Chunk [0x61; 0xA] Push; Chunk [] Active; Chunk [0x34F; 0x378; 0x34F; 0xA] Push; Chunk [0x62; 0xA] Active; Chunk [] End] /\
  gives true false (layer rs) [0x61; 0xA; 0x34F; 0x378; 0x34F; 0xA; 0x62; 0xA] /\ Forall starts_ok (segments (layer rs)).
Proof.
  do 3 eexists. split; [vm_compute; reflexivity|].
  split; [eexists [_; _; _; _], _, _; split; [reflexivity|]; repeat (apply Forall_cons; [do 2 eexists; split; [reflexivity|discriminate]|]); constructor|].
  split; [reflexivity|]. split.
  - exists [136; 136; 136; 136; 136]%nat. do 3 eexists. split; [vm_compute; reflexivity|]. split; [eexists [_; _; _; _]; do 2 eexists; reflexivity|vm_compute; reflexivity].
  - apply Forall_cons; [intros c t E; injection E as <- <-; vm_compute; reflexivity|].
    apply Forall_cons; [intros c t E; injection E as <- <-; vm_compute; reflexivity|]. apply Forall_cons; [intros c t E; injection E as <- <-; vm_compute; reflexivity|constructor].
Qed.

(** ** C73 *)
(** A conversion that fails gives the bytes back, with the position of the
    error; one that succeeds does so exactly for the UTF-8 of convertible text. *)
Theorem C73_bytes_back : forall check bs b n, from_text_vec check bs = VErr b n ->
  b = bs /\ from_bytes (string_from_text check) bs = TErr n.
Proof. exact from_text_vec_err. Qed.
Print Assumptions C73_bytes_back.
Theorem C73_succeeds : forall check bs t, from_text_vec check bs = VOk t <-> exists s, scalars s /\ bs = encode_all s /\ string_from_text check s = TOk t.
Proof. exact from_text_vec_ok. Qed.
Print Assumptions C73_succeeds.
(** U+E9 U+7; a byte that is not UTF-8; text that is changed *)
Example C73_example : from_text_vec is_basic_text [0xC3; 0xA9; 0x7] = VErr [0xC3; 0xA9; 0x7] (Some 2%nat) /\ from_text_vec is_basic_text [0x61; 0xFF] = VErr [0x61; 0xFF] (Some 1%nat) /\
  from_text_vec is_basic_text [0x65; 0xCC; 0x81] = VOk [0xE9].
Proof. repeat split; vm_compute; reflexivity. Qed.

(** ** C74 *)
(** char_indices gives all characters in order, each with the number of bytes
    before it; *)
Theorem C74_char_indices : forall s, map snd (char_indices s) = s /\
  forall i c, In (i, c) (char_indices s) <-> exists a b, s = a ++ c :: b /\ str_len a = i.
Proof. intro s. split; [apply char_indices_chars|apply char_indices_spec]. Qed.
Print Assumptions C74_char_indices.
(** encode_utf16 gives well-formed UTF-16 of the text; *)
Theorem C74_utf16 : forall s, scalars s -> Forall (fun u => u < 0x10000) (encode_utf16 s) /\ utf16_text (encode_utf16 s) = Some s.
Proof. intros s H. split; [now apply utf16_units|now apply utf16_round_trip]. Qed.
Print Assumptions C74_utf16.
(** is_ascii says whether all characters are ASCII, which in valid text are the
    printable ones, tab and line feed; *)
Theorem C74_is_ascii : forall s, (is_ascii s = true <-> Forall (fun c => c < 0x80) s) /\ (substring_ok s -> is_ascii s = true <-> Forall plain_ascii s).
Proof. intro s. split; [apply is_ascii_spec|apply is_ascii_valid]. Qed.
Print Assumptions C74_is_ascii.
(** eq_ignore_ascii_case compares character by character; *)
Theorem C74_ignore_case : forall s t, scalars s -> scalars t -> eq_ignore_ascii_case s t = true <-> Forall2 same_letter s t.
Proof. exact eq_ignore_spec. Qed.
Print Assumptions C74_ignore_case.
(** rmatch_indices gives the rightmost matches that do not overlap, and nothing
    else is that. *)
Theorem C74_rmatches : forall s p l, scalars s -> scalars p -> p <> [] -> text_rmatch_indices s p = l <-> rightmost p s l.
Proof.
  intros s p l SS SP NE. pose proof (rmatch_indices_spec s p SS SP NE) as H. split; [now intros <-|]. intro H2. exact (rightmost_unique _ _ _ H _ H2).
Qed.
Print Assumptions C74_rmatches.
Example C74_example : char_indices [0x61; 0xE9; 0x1F600; 0x62] = [(0%nat, 0x61); (1%nat, 0xE9); (3%nat, 0x1F600); (7%nat, 0x62)] /\
  encode_utf16 [0x61; 0x1F600; 0xFFFD] = [0x61; 0xD83D; 0xDE00; 0xFFFD] /\ is_ascii [0x61; 0xA] = true /\ is_ascii [0xE9] = false /\
  eq_ignore_ascii_case [0x41; 0x62; 0xE9] [0x61; 0x42; 0xE9] = true /\ eq_ignore_ascii_case [0xC9] [0xE9] = false /\ eq_ignore_ascii_case [0x5B] [0x7B] = false /\
  text_rmatch_indices [0xE9; 0x61; 0x61; 0x61] [0x61; 0x61] = [3]%nat /\ text_match_indices [0xE9; 0x61; 0x61; 0x61] [0x61; 0x61] = [2]%nat.
Proof. repeat split; vm_compute; reflexivity. Qed.
(** Texts that are equal up to the case of ASCII letters need not be valid
    together: "J U+30C" is, "j U+30C" composes to U+1F0. *)
Theorem C74_case_validity_refuted : exists s t, eq_ignore_ascii_case s t = true /\ string_ok s /\ ~ string_ok t.
Proof.
  exists [0x4A; 0x30C], [0x6A; 0x30C]. split; [vm_compute; reflexivity|]. split; [apply basic_text_spec; vm_compute; reflexivity|].
  intro H. apply basic_text_spec in H. vm_compute in H. discriminate.
Qed.
Print Assumptions C74_case_validity_refuted.

(** ** C75 *)
(** Escaped text is printable ASCII, so a valid text, and stands for the text
    that was escaped: no two texts have the same escaped form. *)
Theorem C75_valid : forall s, string_ok (escape_unicode s) /\ string_ok (escape_default s).
Proof. exact escapes_valid. Qed.
Print Assumptions C75_valid.
Theorem C75_printable : forall s, Forall (fun x => 0x20 <= x <= 0x7E) (escape_unicode s) /\ Forall (fun x => 0x20 <= x <= 0x7E) (escape_default s).
Proof. exact escapes_printable. Qed.
Print Assumptions C75_printable.
Theorem C75_back : forall s, scalars s -> unescape Outside (escape_unicode s) = Some s /\ unescape Outside (escape_default s) = Some s.
Proof. intros s H. split; [now apply escape_unicode_back|now apply escape_default_back]. Qed.
Print Assumptions C75_back.
Theorem C75_injective : forall s t, scalars s -> scalars t ->
  (escape_unicode s = escape_unicode t -> s = t) /\ (escape_default s = escape_default t -> s = t).
Proof.
  intros s t HS HT. destruct (C75_back s HS) as [A1 A2], (C75_back t HT) as [B1 B2]. split; intro E.
  - rewrite E, B1 in A1. now injection A1.
  - rewrite E, B2 in A2. now injection A2.
Qed.
Print Assumptions C75_injective.
(** Character by character: what the escapes look like. *)
Theorem C75_form : forall s, scalars s ->
  (exists es, Forall2 by_number s es /\ escape_unicode s = concat es) /\
  (exists es, Forall2 by_default s es /\ escape_default s = concat es).
Proof. exact escapes_form. Qed.
Print Assumptions C75_form.
Example C75_form_example : by_number 0xE9 [0x5C; 0x75; 0x7B; 0x65; 0x39; 0x7D].
Proof. exists [0x65; 0x39]. split; [|reflexivity]. apply (more_digits 14 9 _ [_]); [reflexivity| |apply decimal_digit; reflexivity]. apply one_digit, (letter_digit 14). split; [discriminate|reflexivity]. Qed.
Example C75_example : escape_unicode [0x61; 0x10FFFF] = [0x5C; 0x75; 0x7B; 0x36; 0x31; 0x7D; 0x5C; 0x75; 0x7B; 0x31; 0x30; 0x66; 0x66; 0x66; 0x66; 0x7D] /\
  escape_default [0xA; 0x22; 0x61; 0xE9] = [0x5C; 0x6E; 0x5C; 0x22; 0x61; 0x5C; 0x75; 0x7B; 0x65; 0x39; 0x7D].
Proof. repeat split; vm_compute; reflexivity. Qed.
