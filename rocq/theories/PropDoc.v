(** Properties comparing the code with the definitions of
    /repo/docs/BasicText.md: C62, C63.  Also the decoding of ill-formed bytes (C38). *)
From Coq Require Import NArith String List Bool.
From Verif Require Import Base Ucd Norm Chars TextUtils Utf8 Input Output DocTable DocErrors Errors SpecErrors GcbTable SpecText SpecRead SpecEscape SpecConv SpecMore SpecDoc SpecUtf8 Strings GuardFacts ReadFacts EscapeFacts EscapeRun EscapeCheck IsoFacts DocProps Utf8Facts Utf8Lossy ErrorProps.
Import ListNotations.
Local Open Scope N_scope.

Ltac cut_step m :=
  match goal with |- replaced _ _ ?s _ => let rest := eval vm_compute in (skipn (length m) s) in change s with (m ++ rest) end;
  apply replaced_cons; [|apply longest_check; vm_compute; reflexivity|].

(** ** C62 *)
Theorem C62_non_starters : forall c, is_basic_text_start c = true <-> ~ doc_non_starter c.
Proof. exact start_documented. Qed.
Print Assumptions C62_non_starters.
(** Two prepended characters are missing. *)
Theorem C62_non_enders : forall c, is_basic_text_end c = true <-> ~ doc_non_ender c \/ c = 0x890 \/ c = 0x891.
Proof. exact end_documented. Qed.
Print Assumptions C62_non_enders.
Example C62_characters : doc_non_starter 0x301 /\ doc_non_starter 0x1F3FB /\ doc_non_starter 0x200D /\ doc_non_ender 0x600 /\ doc_non_ender 0x890.
Proof.
  repeat split; try (right; split; [vm_compute; reflexivity|discriminate]); try (vm_compute; reflexivity).
Qed.
(** Every documented string is accepted. *)
Theorem C62_documented_accepted : forall s, documented_string s -> is_basic_text s = true.
Proof. exact documented_accepted. Qed.
Print Assumptions C62_documented_accepted.
(** The converse, partial: the check demands neither the isolation of unassigned
    characters nor U+890 and U+891 not to be the last character. *)
Theorem C62_accepted_documented_partial : forall s, documented_string s <->
  is_basic_text s = true /\ isolated s /\ (forall t c, s = t ++ [c] -> c <> 0x890 /\ c <> 0x891).
Proof. exact accepted_documented. Qed.
Print Assumptions C62_accepted_documented_partial.
Example C62_accepted_example : documented_string [0x61; 0x301; 0x34F; 0x378; 0x34F; 0x891; 0x20] -> False.
Proof. intros ((_ & H) & _). vm_compute in H. discriminate. Qed.
Example C62_accepted_example2 : let s := [0xE1; 0x34F; 0x378; 0x34F; 0x891; 0x20] in documented_string s.
Proof.
  cbv zeta. apply accepted_documented. split; [vm_compute; reflexivity|]. split.
  - replace [0xE1; 0x34F; 0x378; 0x34F; 0x891; 0x20] with (isolate_unassigned [0xE1; 0x34F; 0x378; 0x34F; 0x891; 0x20]) by (vm_compute; reflexivity).
    apply isolated_foll. vm_compute. reflexivity.
  - intros t c E. change [0xE1; 0x34F; 0x378; 0x34F; 0x891; 0x20] with ([0xE1; 0x34F; 0x378; 0x34F; 0x891] ++ [0x20]) in E. apply app_inj_tail in E. destruct E as [_ <-]. split; discriminate.
Qed.
Theorem C62_accepted_documented_refuted : (exists s, is_basic_text s = true /\ ~ documented_string s /\ isolated s) /\
  (exists s, is_basic_text s = true /\ ~ isolated s /\ ~ documented_string s).
Proof. exact (conj documented_refuted documented_isolated_refuted). Qed.
Print Assumptions C62_accepted_documented_refuted.
(** The strict conversion. *)
Theorem C62_from_text : forall check s t, string_from_text check s = TOk t ->
  documented_string t <-> closed_guards s /\ (forall u c, t = u ++ [c] -> c <> 0x890 /\ c <> 0x891).
Proof. exact from_text_is_documented. Qed.
Print Assumptions C62_from_text.
Example C62_from_text_example : string_from_text is_basic_text [0x378; 0x61] = TOk [0x34F; 0x378; 0x34F; 0x61].
Proof. vm_compute. reflexivity. Qed.
(** What a reader delivers up to the end of its stream. *)
Theorem C62_stream_iff : forall nel lsps script sizes out j rest, reads (new_input nel lsps) script sizes = (out, j, rest) -> reached_end out ->
  documented_stream (delivered out) <-> isolated (delivered out).
Proof. exact session_documented_iff. Qed.
Print Assumptions C62_stream_iff.
Theorem C62_stream : forall nel lsps script sizes out j rest rs, reads (new_input nel lsps) script sizes = (out, j, rest) -> reached_end out ->
  no_push script -> bom_visible script -> replaced true (char_rep nel lsps) (without_bom (stream_text script)) rs -> unguarded_text (concat rs) ->
  documented_stream (delivered out).
Proof. exact session_documented. Qed.
Print Assumptions C62_stream.
(** The stream "U+301 U+378 U+890". *)
Example C62_stream_example : let script := [Chunk [0x301; 0x378] Active; Chunk [0x890] End] in
  let out := fst (fst (reads (new_input false false) script [136; 136]%nat)) in
  reached_end out /\ no_push script /\ bom_visible script /\ unguarded_text (concat [[0x301]; [0x378]; [0x890]]) /\
  replaced true (char_rep false false) (without_bom (stream_text script)) [[0x301]; [0x378]; [0x890]] /\
  delivered out = [0x34F; 0x301; 0x34F; 0x378; 0x34F; 0x890; 0xA].
Proof.
  cbv zeta.
  split; [exists (firstn 1 (fst (fst (reads (new_input false false) [Chunk [0x301; 0x378] Active; Chunk [0x890] End] [136; 136]%nat)))); do 2 eexists; vm_compute; reflexivity|].
  split; [intros cs H; repeat (destruct H as [H|H]; [discriminate H|]); exact H|].
  split; [left; discriminate|]. split; [apply no_cgj_unguarded; reflexivity|]. split; [|vm_compute; reflexivity].
  change (without_bom (stream_text [Chunk [0x301; 0x378] Active; Chunk [0x890] End])) with [0x301; 0x378; 0x890].
  change [[0x301]; [0x378]; [0x890]] with [char_rep false false 0x301; char_rep false false 0x378; char_rep false false 0x890].
  cut_step [0x301]; [constructor; discriminate|].
  cut_step [0x378]; [constructor; discriminate|].
  cut_step [0x890]; [constructor; discriminate|]. constructor.
Qed.

(** ** C38 *)
(** The lossy decoding puts one U+FFFD for each maximal ill-formed subpart. *)
Theorem C38_lossy_decoding : forall bs r, utf8_lossy bs = r <-> lossy_decoding bs r.
Proof. exact utf8_lossy_exact. Qed.
Print Assumptions C38_lossy_decoding.
Example C38_lossy_example : utf8_lossy [0x61; 0xE0; 0x80; 0xF0; 0x9F; 0x98; 0xC0; 0xAF; 0xE2; 0x82; 0xAC; 0xED; 0xA0] =
  [0x61; 0xFFFD; 0xFFFD; 0xFFFD; 0xFFFD; 0xFFFD; 0x20AC; 0xFFFD; 0xFFFD].
Proof. vm_compute. reflexivity. Qed.

(** ** C63 *)
(** Every refused character has an Error cell in the table. *)
Theorem C63_every_row : forall c, doc_error c = None <-> doc_lookup c = None.
Proof. exact every_row. Qed.
Print Assumptions C63_every_row.
(** The message for a character is the documented one, except for those in
    [other_message].  (U+1B is refused by the writer, not by the check of single
    characters.) *)
Theorem C63_messages_partial : forall c m, doc_error c = Some m -> c <> 0x1B ->
  exists e, check_basic_text_char c = Some e /\ (says c m (display e) <-> in_ranges c other_message = false).
Proof. exact documented_message. Qed.
Print Assumptions C63_messages_partial.
Example C63_example : doc_error 0x149 = Some (Message "Use _ instead of _" [[0x2BC; 0x6E]; [0x149]]) /\ in_ranges 0x149 other_message = false /\
  doc_error 0x7 = Some (Message "Control code not valid in text" []) /\ in_ranges 0x7 other_message = false.
Proof. repeat split; vm_compute; reflexivity. Qed.
(** The table suggests U+964, the error suggests U+FFFD.  The table suggests U+C5,
    the error suggests the refused character. *)
Theorem C63_messages_refuted :
  (exists e, doc_error 0x9E4 = Some (Message "Use _ instead of _" [[0x964]; [0x9E4]]) /\ check_basic_text_char 0x9E4 = Some e /\
             display e = Message "Use _ instead of _" [[0xFFFD]; [0x9E4]]) /\
  (exists e, doc_error 0x212B = Some (Message "Use _ instead of _" [[0xC5]; [0x212B]]) /\ check_basic_text_char 0x212B = Some e /\
             display e = Message "Use _ instead of _" [[0x212B]; [0x212B]]).
Proof. split; eexists; (split; [vm_compute; reflexivity|]); split; reflexivity. Qed.
Print Assumptions C63_messages_refuted.
(** A write refused for its characters contains a refused character. *)
Theorem C63_refused_character : forall w s w', write_str w s = (Some EWCheck, w') -> exists c e, In c s /\ check_basic_text_char c = Some e.
Proof. exact write_refused_char. Qed.
Print Assumptions C63_refused_character.
(** Which one is reported: there is an error to report when the first one, [c],
    shows up, and however many characters normalization has looked ahead by then
    ([k]), it is the error of a character of the text; without looking ahead, it
    is that of [c]. *)
Theorem C63_reported : forall w x w', state_machine w x = (Some EWCheck, w') -> exists a c b e, x = a ++ c :: b /\
  Forall (fun y => check_basic_text_char y = None) a /\ check_basic_text_char c = Some e /\
  recorded (a ++ [c]) = Some e /\
  (forall k, (length a < k)%nat -> exists d e', In d (firstn k x) /\ check_basic_text_char d = Some e' /\ recorded (firstn k x) = Some e').
Proof. exact refused_reports. Qed.
Print Assumptions C63_reported.
Example C63_reported_example : exists w', write_str (new_writer false false vec_sink) [0x61; 0x2028; 0x7] = (Some EWCheck, w') /\
  recorded [0x61; 0x2028] = Some ELineSeparation /\ recorded [0x61; 0x2028; 0x7] = Some (EControlCode 0x7).
Proof. eexists. split; [vm_compute; reflexivity|]. split; vm_compute; reflexivity. Qed.
(** Without ansi_color every escape sequence is refused with "Escape code not valid
    in text", also color sequences, for which the table has another message. *)
Theorem C63_escape : forall w g s, wst w = WGround g -> ansi w = false -> crlf w = false ->
  (forall c, In c s -> check_basic_text_char c = None) -> In ESC s -> exists w', write_str w s = (Some EWEscape, w').
Proof. exact escape_message. Qed.
Print Assumptions C63_escape.
Theorem C63_color_refuted : exists s w', color_sequence s /\ write_str (new_writer false false vec_sink) s = (Some EWEscape, w') /\ display EEscape <> doc_color_error.
Proof.
  exists [0x1B; 0x5B; 0x31; 0x6D]. eexists. split; [exists [0x31]; split; [reflexivity|repeat constructor; discriminate]|]. split; [vm_compute; reflexivity|discriminate].
Qed.
Print Assumptions C63_color_refuted.
