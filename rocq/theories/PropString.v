(** Properties of the string types: C16-C25, C46-C48.
    [string_ok] and [substring_ok] are what TextStr/TextString and
    TextSubstr/TextSubstring promise (SpecText.v). *)
From Coq Require Import NArith List Bool.
From Verif Require Import Base Ucd Norm Chars TextUtils Utf8 Input Output DocTable SpecText TextFacts Utf8Facts IsoFacts SpecRead SpecConv SpecWrite Strings SpecString StringFacts
  EscapeCheck StringProps LossyProps JoinProps SpecGap GapProps.
Import ListNotations.
Local Open Scope N_scope.

(** ** C14, C15 *)
(** Indexing by a range gives the part of the string between the two byte
    positions, and panics ([None]) unless both are character boundaries. *)
Theorem C15_index_exact : forall s i j u, index s i j = Some u <-> exists a b, s = a ++ u ++ b /\ str_len a = i /\ str_len (a ++ u) = j.
Proof. exact index_iff. Qed.
Print Assumptions C15_index_exact.
Theorem C14_index_valid : forall s u, substring_ok s -> (exists i j, index s i j = Some u) \/ (exists j, index_to s j = Some u) \/ (exists i, index_from s i = Some u) ->
  substring_ok u.
Proof. exact index_valid. Qed.
Print Assumptions C14_index_valid.
Theorem C15_index_valid : forall s u, string_ok s -> (exists i j, index s i j = Some u) \/ (exists j, index_to s j = Some u) \/ (exists i, index_from s i = Some u) ->
  substring_ok u.
Proof. intros s u H. exact (index_valid s u (proj1 H)). Qed.
Print Assumptions C15_index_valid.
Example C15_index_example : string_ok [0xE9; 0x20; 0x301; 0xA] /\ index [0xE9; 0x20; 0x301; 0xA] 3 5 = Some [0x301] /\ index [0xE9; 0x20; 0x301; 0xA] 1 5 = None.
Proof. rewrite <- basic_text_spec. repeat split; vm_compute; reflexivity. Qed.

(** ** C16 *)
(** Appending valid strings gives a valid string exactly when the two characters
    that meet do not compose, which only Hangul letters can do. *)
Theorem C16_push_text_exact : forall a b, string_ok a -> string_ok b -> string_ok (push_text a b) <-> ~ joined a b.
Proof. exact push_text_ok. Qed.
Print Assumptions C16_push_text_exact.
Theorem C16_push_text_partial : forall a b, string_ok a -> string_ok b -> no_hangul_tail b -> string_ok (push_text a b).
Proof. exact push_text_closed. Qed.
Print Assumptions C16_push_text_partial.
Theorem C16_extend_partial : forall a l, string_ok a -> Forall string_ok l -> Forall no_hangul_tail l -> string_ok (extend a l).
Proof. exact extend_closed. Qed.
Print Assumptions C16_extend_partial.
(** "e" and "é", with U+34F at the seam *)
Example C16_example : string_ok [0x65; 0x34F] /\ string_ok [0x34F; 0xE9] /\ no_hangul_tail [0x34F; 0xE9] /\ push_text [0x65; 0x34F] [0x34F; 0xE9] = [0x65; 0x34F; 0xE9].
Proof. rewrite <- !basic_text_spec. repeat split; try (vm_compute; reflexivity). intros c u E. injection E as <- _. intros [[H _]|[H _]]; now compute in H. Qed.
Theorem C16_push_text_refuted : exists a b, is_basic_text a = true /\ is_basic_text b = true /\ is_basic_text (push_text a b) = false.
Proof. exists [0x1100], [0x1161]. repeat split; vm_compute; reflexivity. Qed.
Print Assumptions C16_push_text_refuted.

(** ** C17 *)
(** Trimming removes the white space at the ends, and nothing else. *)
Theorem C17_trim_removes : forall s,
  (exists a, s = a ++ trim_start s /\ Forall white_space a /\ forall c t, trim_start s = c :: t -> ~ white_space c) /\
  (exists b, s = trim_end s ++ b /\ Forall white_space b /\ forall t c, trim_end s = t ++ [c] -> ~ white_space c) /\
  (exists a b, s = a ++ trim s ++ b /\ Forall white_space a /\ Forall white_space b /\
     (forall c t, trim s = c :: t -> ~ white_space c) /\ (forall t c, trim s = t ++ [c] -> ~ white_space c)).
Proof. exact trim_removes. Qed.
Print Assumptions C17_trim_removes.
Theorem C17_trim_substr_partial : forall s, substring_ok s -> substring_ok (trim_start s) /\ substring_ok (trim_end s) /\ substring_ok (trim s).
Proof. exact trim_substr. Qed.
Print Assumptions C17_trim_substr_partial.
(** The result of trimming a TextStr is valid exactly when it starts with a
    starter and ends with an ender. *)
Theorem C17_trim_exact : forall s, string_ok s ->
  (string_ok (trim_start s) <-> starts_ok (trim_start s)) /\ (string_ok (trim_end s) <-> ends_ok (trim_end s)) /\
  (string_ok (trim s) <-> starts_ok (trim s) /\ ends_ok (trim s)).
Proof. exact trim_str. Qed.
Print Assumptions C17_trim_exact.
Theorem C17_trim_plain_partial : forall s, string_ok s -> Forall (fun c => is_basic_text_start c = true /\ is_basic_text_end c = true) s ->
  string_ok (trim_start s) /\ string_ok (trim_end s) /\ string_ok (trim s).
Proof. exact trim_plain. Qed.
Print Assumptions C17_trim_plain_partial.
Example C17_example : string_ok [0x20; 0xE9; 0x20; 0xA] /\ trim [0x20; 0xE9; 0x20; 0xA] = [0xE9].
Proof. rewrite <- basic_text_spec. split; vm_compute; reflexivity. Qed.
(** A space may carry a combining mark, and may follow a zero-width joiner. *)
Theorem C17_trim_refuted : (exists s, is_basic_text s = true /\ is_basic_text (trim_start s) = false) /\ (exists s, is_basic_text s = true /\ is_basic_text (trim_end s) = false).
Proof. split; [exists [0x20; 0x301; 0x61]|exists [0x61; 0x200D; 0x20]]; split; vm_compute; reflexivity. Qed.
Print Assumptions C17_trim_refuted.

(** ** C18 *)
Theorem C18_repeat_exact : forall s n, string_ok s -> string_ok (repeat_text s n) <-> (n <= 1)%nat \/ ~ joined s s.
Proof. exact repeat_text_ok. Qed.
Print Assumptions C18_repeat_exact.
Theorem C18_repeat_partial : forall s n, string_ok s -> no_hangul_tail s -> string_ok (repeat_text s n).
Proof. exact repeat_closed. Qed.
Print Assumptions C18_repeat_partial.
Example C18_example : string_ok [0xE9; 0x41] /\ no_hangul_tail [0xE9; 0x41] /\ repeat_text [0xE9; 0x41] 2 = [0xE9; 0x41; 0xE9; 0x41].
Proof. rewrite <- basic_text_spec. repeat split; try (vm_compute; reflexivity). intros c u E. injection E as <- _. intros [[H _]|[H _]]; now compute in H. Qed.
Theorem C18_repeat_refuted : exists s, is_basic_text s = true /\ is_basic_text (repeat_text s 2) = false.
Proof. exists [0x1161; 0x1100]. split; vm_compute; reflexivity. Qed.
Print Assumptions C18_repeat_refuted.

(** ** C19 *)
Theorem C19_from_text_valid : forall check s t, string_from_text check s = TOk t -> string_ok t.
Proof. exact from_text_ok. Qed.
Print Assumptions C19_from_text_valid.
Theorem C19_str_from_text_valid : forall s t, str_from_text is_basic_text s = TOk t <-> t = s /\ string_ok s.
Proof.
  intros s t. unfold str_from_text. rewrite <- basic_text_spec. destruct (is_basic_text s); split; try discriminate; try (intros [_ H]; discriminate).
  - intro H. injection H as <-. auto.
  - intros [-> _]. reflexivity.
Qed.
Print Assumptions C19_str_from_text_valid.
(** "e" with an acute accent, and an unassigned character *)
Example C19_example : string_from_text is_basic_text [0x65; 0x301; 0x378] = TOk [0xE9; 0x34F; 0x378; 0x34F].
Proof. vm_compute. reflexivity. Qed.

(** ** C20 *)
(** It succeeds exactly as documented … *)
Theorem C20_succeeds_exactly : forall check s, (exists t, string_from_text check s = TOk t) <-> strict_accepts s.
Proof. exact from_text_succeeds. Qed.
Print Assumptions C20_succeeds_exactly.
(** … with the documented result, if no unassigned character follows U+34F. *)
Theorem C20_documented_partial : forall check s t, unguarded_text s -> string_from_text check s = TOk t <-> strict_accepts s /\ strict_result s t.
Proof. exact from_text_documented. Qed.
Print Assumptions C20_documented_partial.
(** For every text: the documented result, with U+34F where the code puts it
    (SpecGap.v). *)
Theorem C20_exact : forall check s t, string_from_text check s = TOk t <-> strict_accepts s /\ t = nfc (stream_safe (coded_isolation s)).
Proof. exact from_text_exact. Qed.
Print Assumptions C20_exact.
Example C20_example : unguarded_text [0x65; 0x301; 0x378] /\ strict_accepts [0x65; 0x301; 0x378] /\ strict_result [0x65; 0x301; 0x378] [0xE9; 0x34F; 0x378; 0x34F].
Proof.
  split; [|split; [|vm_compute; reflexivity]].
  - apply no_cgj_unguarded; reflexivity.
  - apply (C20_succeeds_exactly is_basic_text). eexists. vm_compute. reflexivity.
Qed.
Example C20_example_rejected : string_from_text is_basic_text [0x61; 0x7] = TErr (Some 1%nat) /\ string_from_text is_basic_text [0x301] = TErr (Some 0%nat)
  /\ string_from_text is_basic_text [0x61; 0x200D] = TErr (Some 1%nat).
Proof. repeat split; vm_compute; reflexivity. Qed.
Theorem C20_guarded_refuted : exists s t, string_from_text is_basic_text s = TOk t /\ strict_accepts s /\ ~ strict_result s t.
Proof.
  exists [0x34F; 0x378], [0x34F; 0x378]. assert (E : string_from_text is_basic_text [0x34F; 0x378] = TOk [0x34F; 0x378]) by (vm_compute; reflexivity).
  split; [exact E|]. split; [apply (C20_succeeds_exactly is_basic_text); eauto|]. intro H. vm_compute in H. discriminate.
Qed.
Print Assumptions C20_guarded_refuted.

(** ** C21 *)
Theorem C21_fixed_point : forall check s, string_ok s -> preceded s -> string_from_text check s = TOk s.
Proof. exact from_text_fixed. Qed.
Print Assumptions C21_fixed_point.
Theorem C21_idempotent : forall check check' s t, string_from_text check s = TOk t -> string_from_text check' t = TOk t.
Proof. exact from_text_twice. Qed.
Print Assumptions C21_idempotent.
Example C21_example : string_ok [0xE9; 0x34F; 0x378; 0x34F] /\ preceded [0xE9; 0x34F; 0x378; 0x34F].
Proof.
  split; [apply basic_text_spec; vm_compute; reflexivity|]. intros a c b E HC.
  destruct a as [|x a]; [injection E as <- _; vm_compute in HC; discriminate|injection E as <- E].
  destruct a as [|x a]; [injection E as <- _; vm_compute in HC; discriminate|injection E as <- E].
  destruct a as [|x a]; [now exists [0xE9]|injection E as <- E].
  destruct a as [|x a]; [injection E as <- _; vm_compute in HC; discriminate|injection E as <- E]. destruct a; discriminate E.
Qed.

(** ** C22 *)
(** [lossy v r]: [r] is a result of from_text_lossy on [v], however the reader
    inside gets its bytes; [None] would be a panic. *)
Theorem C22_lossy_valid : forall v r, lossy v r -> exists t, r = Some t /\ string_ok t.
Proof. exact lossy_ok. Qed.
Print Assumptions C22_lossy_valid.
Theorem C22_lossy_total : forall v, exists r, lossy v r.
Proof. exact lossy_total. Qed.
Print Assumptions C22_lossy_total.
(** … and the reading terminates for any cut of the input into reads. *)
Theorem C22_lossy_terminates : forall script, no_push script -> no_fail script -> bom_visible script -> exists n, forall sizes, legal_sizes sizes -> (n <= length sizes)%nat ->
  exists k rs j rest, reads (new_input false false) script (firstn k sizes) = (rs, j, rest) /\ reached_end rs /\ reads_as (stream_text script) (received rs).
Proof. exact reads_as_total. Qed.
Print Assumptions C22_lossy_terminates.
Theorem C22_bytes_lossy_valid : forall bs r, lossy (utf8_lossy bs) r -> exists t, r = Some t /\ string_ok t.
Proof. intros bs. exact (lossy_ok (utf8_lossy bs)). Qed.
Print Assumptions C22_bytes_lossy_valid.
(** a BOM, a lone accent, a bell, an escape sequence *)
Example C22_example : lossy [0xFEFF; 0x301; 0x7; 0x1B; 0x5B; 0x41] (Some [0x2060; 0x34F; 0x301; 0xFFFD]).
Proof.
  eexists. split.
  - exists [Chunk [0xFEFF; 0x301; 0x7] Active; Chunk [0x1B; 0x5B; 0x41] End], [136; 136]%nat. do 3 eexists. split; [reflexivity|].
    split; [intros cs [E|[E|[]]]; discriminate|]. split; [intros [E|[E|[]]]; discriminate|].
    split; [right; do 4 eexists; reflexivity|]. split; [vm_compute; reflexivity|]. split; [|reflexivity].
    do 3 eexists. match goal with |- [?x; ?y] = _ => exact (eq_refl : [x; y] = [x] ++ [y]) end.
  - vm_compute. reflexivity.
Qed.

(** ** C23 *)
Theorem C23_lossy_then_strict : forall v t check, lossy v (Some t) -> string_from_text check t = TOk t.
Proof. exact lossy_strict. Qed.
Print Assumptions C23_lossy_then_strict.
(** A writer over a stream that accepts everything. *)
Theorem C23_read_written_back : forall nel lsps script sizes rs j rest cr p, reads (new_input nel lsps) script sizes = (rs, j, rest) -> no_fail script -> reached_end rs ->
  exists w w', write_str (new_writer cr false (mksink p [] false)) (received rs) = (None, w) /\ close w = (None, w') /\ emitted (inner w') = p ++ as_sent cr (received rs).
Proof. exact read_written_back. Qed.
Print Assumptions C23_read_written_back.
Example C23_example : string_from_text is_basic_text [0x2060; 0x34F; 0x301; 0xFFFD] = TOk [0x2060; 0x34F; 0x301; 0xFFFD].
Proof. exact (C23_lossy_then_strict _ _ _ C22_example). Qed.

(** ** C24 *)
Theorem C24_lossy_keeps_assigned_partial : forall s r, string_ok s -> Forall (fun c => is_assigned c = true) s -> lossy s r -> r = Some s.
Proof. exact lossy_keeps. Qed.
Print Assumptions C24_lossy_keeps_assigned_partial.
Theorem C24_lossy_keeps_at_once_partial : forall s text, string_ok s -> preceded s -> reads_at_once s text -> lossy_result s text = Some s.
Proof. exact lossy_keeps_at_once. Qed.
Print Assumptions C24_lossy_keeps_at_once_partial.
Example C24_example : string_ok [0xE9; 0xA; 0x200D; 0x41] /\ Forall (fun c => is_assigned c = true) [0xE9; 0xA; 0x200D; 0x41].
Proof. rewrite <- basic_text_spec. split; [vm_compute; reflexivity|repeat constructor]. Qed.
(** U+34F, an unassigned character, U+34F, with the first U+34F in a read of its own *)
Theorem C24_lossy_keeps_refuted : exists s t, is_basic_text s = true /\ isolated s /\ lossy s (Some t) /\ t <> s.
Proof.
  exists [0x34F; 0x378; 0x34F], [0x34F; 0x34F; 0x378; 0x34F]. split; [vm_compute; reflexivity|]. split.
  { intros a c b E HC. destruct a as [|x a]; [injection E as <- _; vm_compute in HC; discriminate|injection E as <- E].
    destruct a as [|x a]; [injection E as <- <-; split; [now exists []|now exists []]|injection E as <- E].
    destruct a as [|x a]; [injection E as <- _; vm_compute in HC; discriminate|injection E as <- E]. destruct a; discriminate E. }
  split; [|discriminate]. eexists. split.
  - exists [Chunk [0x34F] Active; Chunk [0x378; 0x34F] End], [136; 136]%nat. do 3 eexists. split; [reflexivity|].
    split; [intros cs [E|[E|[]]]; discriminate|]. split; [intros [E|[E|[]]]; discriminate|].
    split; [right; do 4 eexists; reflexivity|]. split; [vm_compute; reflexivity|]. split; [|reflexivity].
    do 3 eexists. match goal with |- [?x; ?y] = _ => exact (eq_refl : [x; y] = [x] ++ [y]) end.
  - vm_compute. reflexivity.
Qed.
Print Assumptions C24_lossy_keeps_refuted.

(** ** C25 *)
Theorem C25_error_position : forall s n, string_from_text is_basic_text s = TErr n \/ str_from_text is_basic_text s = TErr n ->
  exists m, n = Some m /\ valid_position string_ok s m.
Proof. exact error_position. Qed.
Print Assumptions C25_error_position.
Theorem C25_substr_longest : forall s n, str_from_text is_basic_text_substr s = TErr n -> exists m, n = Some m /\ longest_position substring_ok s m.
Proof. exact substr_error_position. Qed.
Print Assumptions C25_substr_longest.
Theorem C25_substring_position : forall s n, string_from_text is_basic_text_substr s = TErr n -> exists m, n = Some m /\ valid_position substring_ok s m.
Proof. exact substring_error_position. Qed.
Print Assumptions C25_substring_position.
Example C25_example : str_from_text is_basic_text_substr [0xE9; 0x61; 0x7; 0x62] = TErr (Some 3%nat) /\ str_from_text is_basic_text [0xE9; 0x200D; 0x7; 0x62] = TErr (Some 2%nat).
Proof. split; vm_compute; reflexivity. Qed.
(** The position of a UTF-8 error does not say that the text before it is valid. *)
Theorem C25_bytes_refuted : exists bs n, from_bytes (str_from_text is_basic_text) bs = TErr (Some n) /\
  exists s, decode (firstn n bs) = (s, []) /\ is_basic_text s = false.
Proof. exists [0x7; 0xFF], 1%nat. split; [vm_compute; reflexivity|]. exists [0x7]. split; vm_compute; reflexivity. Qed.
Print Assumptions C25_bytes_refuted.
(** It does say that the bytes before it are UTF-8, and the longest such. *)
Theorem C25_bytes_partial : forall from bs n, from_bytes from bs = TErr n ->
  (exists s, scalars s /\ bs = encode_all s /\ from s = TErr n) \/
  (exists m s rest, n = Some m /\ bs = encode_all s ++ rest /\ length (encode_all s) = m /\ scalars s /\ rest <> [] /\ decode1 rest = None).
Proof. exact from_bytes_error. Qed.
Print Assumptions C25_bytes_partial.
(** For TextStr the position is not always that of the longest valid prefix: the
    search assumes that prefixes of valid text are valid. *)
Theorem C25_longest_refuted : exists s n m, str_from_text is_basic_text s = TErr (Some n) /\ (n < m)%nat /\ valid_position string_ok s m.
Proof.
  exists [0x61; 0x200D; 0x62; 0x7], 1%nat, 5%nat. split; [vm_compute; reflexivity|]. split; [repeat constructor|].
  exists [0x61; 0x200D; 0x62], [0x7]. split; [reflexivity|]. split; [reflexivity|]. apply basic_text_spec. vm_compute. reflexivity.
Qed.
Print Assumptions C25_longest_refuted.

(** ** C46 *)
Theorem C46_split_str : forall s mid u v, split_at is_basic_text s mid = Some (u, v) <-> s = u ++ v /\ str_len u = mid /\ string_ok u /\ string_ok v.
Proof. exact split_str. Qed.
Print Assumptions C46_split_str.
Theorem C46_split_str_when : forall u v, string_ok (u ++ v) -> split_at is_basic_text (u ++ v) (str_len u) = Some (u, v) <-> ends_ok u /\ starts_ok v.
Proof. exact split_str_iff. Qed.
Print Assumptions C46_split_str_when.
Theorem C46_split_substr : forall u v, substring_ok (u ++ v) -> split_at is_basic_text_substr (u ++ v) (str_len u) = Some (u, v).
Proof. exact split_substr_iff. Qed.
Print Assumptions C46_split_substr.
Example C46_example : split_at is_basic_text [0xE9; 0x41] 2 = Some ([0xE9], [0x41]) /\ split_at is_basic_text [0xE9; 0x41] 1 = None
  /\ split_at is_basic_text [0x61; 0x200D; 0x41] 4 = None /\ split_at is_basic_text_substr [0x61; 0x200D; 0x41] 4 = Some ([0x61; 0x200D], [0x41]).
Proof. repeat split; vm_compute; reflexivity. Qed.

(** ** C47 *)
(** TextSubstring::from_text checks more than TextSubstr::from_text. *)
Theorem C47_substring_refuted : exists s, str_from_text is_basic_text_substr s = TOk s /\ string_from_text is_basic_text_substr s = TErr (Some 0%nat).
Proof. exists [0x30A]. split; vm_compute; reflexivity. Qed.
Print Assumptions C47_substring_refuted.
Theorem C47_substring_partial : forall s, substring_ok s -> starts_ok s -> ends_ok s -> preceded s -> string_from_text is_basic_text_substr s = TOk s.
Proof. intros s H1 H2 H3. apply from_text_fixed. exact (conj H1 (conj H2 H3)). Qed.
Print Assumptions C47_substring_partial.
Example C47_example : string_from_text is_basic_text_substr [0xE9; 0xA] = TOk [0xE9; 0xA].
Proof. vm_compute. reflexivity. Qed.

(** ** C48 *)
Theorem C48_read_to_text_string_exact : forall buf text, string_ok buf -> string_ok text -> fst (read_to_text_string buf text) = true /\
  (string_ok (snd (read_to_text_string buf text)) <-> ~ joined buf text).
Proof. exact read_to_string_ok. Qed.
Print Assumptions C48_read_to_text_string_exact.
Example C48_example : string_ok [0x61] /\ string_ok [0xE9; 0xA] /\ read_to_text_string [0x61] [0xE9; 0xA] = (true, [0x61; 0xE9; 0xA]).
Proof. rewrite <- !basic_text_spec. repeat split; vm_compute; reflexivity. Qed.
(** A valid buffer and a fresh reader over the text "U+1161 U+A" leave an invalid
    TextString behind. *)
Theorem C48_read_to_text_string_refuted : exists buf v text, is_basic_text buf = true /\ reads_as v text /\
  fst (read_to_text_string buf text) = true /\ is_basic_text (snd (read_to_text_string buf text)) = false.
Proof.
  exists [0x1100], [0x1161; 0xA], [0x1161; 0xA]. split; [vm_compute; reflexivity|]. split.
  - exists [Chunk [0x1161; 0xA] End], [136]%nat. do 3 eexists. split; [reflexivity|].
    split; [intros cs [E|[]]; discriminate|]. split; [intros [E|[]]; discriminate|].
    split; [right; do 4 eexists; reflexivity|]. split; [vm_compute; reflexivity|]. split; [|reflexivity].
    do 3 eexists. match goal with |- [?x] = _ => exact (eq_refl : [x] = [] ++ [x]) end.
  - split; vm_compute; reflexivity.
Qed.
Print Assumptions C48_read_to_text_string_refuted.
