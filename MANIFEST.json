{"claims": [
{"property": "C01", "status": "proved", "theorems": ["C01_stream_is_basic_text", "C01_stream_is_basic_text_buffers"], "note": "For every script of chunks and failures, and every sequence of legal buffer sizes."},
{"property": "C02", "status": "proved", "theorems": ["C02_nothing_forbidden"], "note": "Every character delivered in any session is accepted by the character check, which is independently related to the documented table in C03."},
{"property": "C03", "status": "partial", "theorems": ["C03_check_is_table", "C03_replace_keeps_accepted", "C03_replace_removes_rejected", "C03_replacement_as_documented_partial", "C03_replacement_as_documented_refuted", "C03_variants"], "note": "Checked table and replacement agree with the documented Sequence Table for every scalar value; the documentation's row for U+FB03 is refuted (it says fff, the code gives ffi)."},
{"property": "C04", "status": "partial", "theorems": ["C04_conversion_exact", "C04_conversion", "C04_cut_exists", "C04_cut_unique", "C04_documented_sequences_partial", "C04_documented_conversion_partial", "C04_documented_sequences_refuted"], "note": "Proved: the text delivered is the leftmost-longest replacement by the documented grammar (with CAN also ending ESC and CSI sequences) followed by guards and the pipeline, exactly if no read ends between U+34F and an unassigned character; the cut exists and is unique. Against the documentation literally: proved for input without CAN and without the three odd rows, refuted for ESC CAN."},
{"property": "C05", "status": "proved", "theorems": ["C05_chunks_exact", "C05_cut_exact", "C05_chunks_do_not_matter", "C05_chunks_do_not_matter_simple", "C05_pieces", "C05_one_read", "C05_without_condition_refuted"], "note": "As stated; also shown: without the condition, a cut into reads changes the text exactly if a read ends between U+34F and an unassigned character after it, and then the text is longer."},
{"property": "C06", "status": "proved", "theorems": ["C06_sizes_do_not_matter"], "note": "Any two sequences of buffer sizes; streams without failures for the received text. With failures see C08."},
{"property": "C07", "status": "proved", "theorems": ["C07_buffer_valid"], "note": "For every successful read reached in any session."},
{"property": "C08", "status": "partial", "theorems": ["C08_failed_read_buffer_exact", "C08_text_lost_exact", "C08_failed_read_buffer_refuted", "C08_text_lost_refuted", "C08_failed_read_buffer_partial", "C08_failures_harmless_partial"], "note": "The property is false of the code: refuted (buffer left invalid, text lost). Given exactly: the buffer stays valid iff what the failing call wrote ends at a character of the old contents; no text is lost iff no failing call wrote anything, which holds directly after a call that left four bytes unused."},
{"property": "C09", "status": "proved", "theorems": ["C09_end_is_complete", "C09_end_is_reached"], "note": "End implies everything was delivered; every stream reaches the end after finitely many reads."},
{"property": "C10", "status": "partial", "theorems": ["C10_push_reported_exact", "C10_push_complete_exact", "C10_push_reported_refuted", "C10_push_delivers_refuted", "C10_push_reported_partial", "C10_push_genuine"], "note": "The property is false of the code: refuted for chunks larger than the buffer and for text without line end. Given exactly: a push is reported iff the call in which it arrives leaves four bytes unused, and the text before it is complete iff it ends with a line end; no push is invented."},
{"property": "C11", "status": "proved", "theorems": ["C11_quick_path"], "note": "For all strings."},
{"property": "C12", "status": "proved", "theorems": ["C12_nfc_idempotent", "C12_conversion_accepted", "C12_test_exact", "C12_test_is_fixed_point"], "note": "For all strings."},
{"property": "C13", "status": "proved", "theorems": ["C13_runs_bounded"], "note": "For all accepted strings, runs measured in the compatibility decomposition."},
{"property": "C14", "status": "proved", "theorems": ["C14_index_valid", "C14_slices"], "note": "Every contiguous part of a valid TextSubstr is valid; indexing on the model of str slices, too."},
{"property": "C15", "status": "proved", "theorems": ["C15_index_exact", "C15_index_valid", "C15_text_slices"], "note": "Every contiguous part of a valid TextStr is a valid TextSubstr; indexing gives exactly the part between two byte positions."},
{"property": "C16", "status": "partial", "theorems": ["C16_extend_exact", "C16_push_text_exact", "C16_push_text_partial", "C16_extend_partial", "C16_push_text_refuted"], "note": "False of the code as stated: refuted (two Hangul letters). Proved exactly when it holds: unless the characters that meet are Hangul letters that compose. For extending by several strings, too, exactly when the result is valid (C16_extend_exact)."},
{"property": "C17", "status": "partial", "theorems": ["C17_trim_removes", "C17_trim_substr_partial", "C17_trim_exact", "C17_trim_plain_partial", "C17_trim_refuted"], "note": "False of the code as stated: refuted for trim_start and trim_end. Proved exactly when it holds, and in full for TextSubstr. What is removed is stated with the list of White_Space characters."},
{"property": "C18", "status": "partial", "theorems": ["C18_repeat_exact", "C18_repeat_partial", "C18_repeat_refuted"], "note": "False of the code as stated: refuted. Proved exactly when it holds."},
{"property": "C19", "status": "proved", "theorems": ["C19_from_text_valid", "C19_str_from_text_valid"], "note": "For every string; also for TextStr::from_text, which succeeds exactly on valid strings."},
{"property": "C20", "status": "partial", "theorems": ["C20_documented_exact", "C20_succeeds_exactly", "C20_documented_partial", "C20_exact", "C20_guarded_refuted"], "note": "Success exactly as documented, for every string, and the result is given exactly for every string (C20_exact). It is the documented one exactly if every unassigned character after U+34F is followed by U+34F or another unassigned one; refuted otherwise."},
{"property": "C21", "status": "proved", "theorems": ["C21_fixed_point", "C21_idempotent"], "note": "For every string."},
{"property": "C22", "status": "proved", "theorems": ["C22_lossy_valid", "C22_lossy_total", "C22_lossy_terminates", "C22_bytes_lossy_valid"], "note": "For every string, every way the bytes may arrive in reads, and any legal buffer sizes; termination too. Byte strings through the model of from_utf8_lossy."},
{"property": "C23", "status": "proved", "theorems": ["C23_lossy_then_strict", "C23_read_written_back"], "note": "For every string and stream, CRLF mode or not."},
{"property": "C24", "status": "partial", "theorems": ["C24_cut_exact", "C24_whole", "C24_whole_preceded_refuted", "C24_lossy_keeps_assigned_partial", "C24_lossy_keeps_at_once_partial", "C24_lossy_keeps_refuted"], "note": "Proved exactly: valid text is kept iff its unassigned characters are preceded by U+34F and no inner read is cut between such a U+34F and the character (badly_cut); in particular isolated text that arrives in one read. Refuted otherwise."},
{"property": "C25", "status": "partial", "theorems": ["C25_bytes_exact", "C25_error_position", "C25_substr_longest", "C25_substring_position", "C25_bytes_refuted", "C25_bytes_partial", "C25_longest_refuted"], "note": "Proved for from_text of all four types. Refuted for the from_text_bytes/from_text_vec functions on invalid UTF-8: there the position is exactly the end of the UTF-8 at the front (C25_bytes_exact), which is not always valid Basic Text."},
{"property": "C26", "status": "partial", "theorems": ["C26_isolated_exact", "C26_isolate_exact", "C26_as_documented_exact", "C26_unguarded", "C26_assigned", "C26_isolated_partial", "C26_isolation_exact", "C26_documented_places", "C26_places_differ", "C26_isolation_as_documented_partial", "C26_isolated_refuted", "C26_preceded_partial"], "note": "What is inserted is given place by place for every text (C26_isolation_exact): as documented, except after an unassigned character that itself follows U+34F (C26_places_differ). Complete and as documented exactly if every unassigned character after U+34F is followed by U+34F or another unassigned one; refuted otherwise. Being preceded by U+34F is proved for all sessions."},
{"property": "C27", "status": "proved", "theorems": ["C27_isolate_idempotent", "C27_isolate_only_adds"], "note": "For all strings."},
{"property": "C28", "status": "proved", "theorems": ["C28_closed_complete", "C28_closed_complete_colour", "C28_empty_text_refuted"], "note": "For every history of write_str, write, flush, close and abandon, every failure of the stream below, and also histories with non-empty write_text calls; also with colours. Also shown: an empty write_text breaks it (outside the property's condition)."},
{"property": "C29", "status": "proved", "theorems": ["C29_nothing_forbidden"], "note": "For every history and every failure, also partial ones, of the stream below."},
{"property": "C30", "status": "proved", "theorems": ["C30_crlf_mode", "C30_every_line_end"], "note": "For every history, not just one write; the relation of the outputs when failing calls accept nothing, every line end preceded by CR in any case."},
{"property": "C31", "status": "proved", "theorems": ["C31_drop_after_failed_write", "C31_drop_after_abandon", "C31_drop_after_close", "C31_silent_after_failure", "C31_failed_flush_panics"], "note": "For every writer state. A failed flush is not part of the property: shown that dropping may then panic."},
{"property": "C32", "status": "proved", "theorems": ["C32_write_count"], "note": "For every writer state and all byte strings."},
{"property": "C33", "status": "proved", "theorems": ["C33_split_write"], "note": "After every history; the error values may differ in kind, so success is compared, and on success the whole writer state."},
{"property": "C34", "status": "partial", "theorems": ["C34_seams_exact", "C34_closed_basic_text_partial", "C34_lines_basic_text_partial", "C34_normalization_refuted", "C34_start_refuted"], "note": "False of the code as stated: refuted for a combining character in a second write, and after an empty write. Proved: everything but normalization across write boundaries for non-empty writes, in full for writes of whole lines, and exactly (if and only if no two Hangul syllable parts meet) for writes that begin with starters."},
{"property": "C35", "status": "partial", "theorems": ["C35_text_write", "C35_empty_text_refuted"], "note": "Proved for non-empty texts, also with unassigned characters preceded by U+34F; refuted for the empty text."},
{"property": "C36", "status": "partial", "theorems": ["C36_copy_text", "C36_copy_text_any", "C36_interrupted_refuted", "C36_using_status", "C36_using_status_lines", "C36_using_status_refuted", "C36_using_status_any", "C36_using_status_exact"], "note": "Proved: from a reader whose stream does not report Interrupted, copy_text writes exactly the delivered text, for any writer; copy_text_using_status likewise if the stream pushes only after line ends. Refuted with Interrupted (text is lost) and with pushes elsewhere (the writer refuses). Whatever fails and wherever the pushes are, both send a beginning of the delivered text, all of it on success or a failed read. For copy_text_using_status without failures it is decided exactly: everything is copied iff each push is after text that may be the end and before text that may be the beginning of a Basic Text string; else the writer refuses (C36_using_status_exact)."},
{"property": "C37", "status": "partial", "theorems": ["C37_pieces", "C37_failing_source", "C37_failure_refuted", "C37_text_lines", "C37_lossless", "C37_complete", "C37_lines_valid", "C37_stream_refuted", "C37_unterminated_refuted"], "note": "Proved for every line-terminated source: the lines are exactly the source's lines, each invalid one gives an error, joining them gives the source back. Refuted: on a stream whose lines are separately valid but not together, and on an unterminated last line (panic). Also proved whatever pieces the source arrives in; refuted for a source that fails mid-line."},
{"property": "C38", "status": "proved", "theorems": ["C38_lossy_decoding", "C38_decode_encode", "C38_only_canonical", "C38_injective"], "note": "For all strings of scalar values and all byte strings, the lossy decoding included."},
{"property": "C39", "status": "partial", "theorems": ["C39_bom", "C39_word_joiners_delivered", "C39_leading_bom_refuted"], "note": "Proved: the text equals that of the stream with the leading BOM of the first read dropped and other BOMs written as U+2060, which are all delivered. Refuted for a BOM after an empty first read."},
{"property": "C40", "status": "partial", "theorems": ["C40_quick_refuted", "C40_quick_wrong_on_valid", "C40_quick_true_is_wrong"], "note": "The property is false of the code: the quick test's condition is inverted. Refuted, with a theorem saying it is wrong on every valid string."},
{"property": "C41", "status": "proved", "theorems": ["C41_colours_only", "C41_no_escape"], "note": "For every history; complete sequences only. Colours and CRLF are never combined by the constructors, so the theorem is about the mode without CRLF."},
{"property": "C42", "status": "partial", "theorems": ["C42_duplexer_abandon", "C42_abandoned_ends", "C42_abandon_exact", "C42_abandon_refuted", "C42_abandon_after_end_partial", "C42_abandon_unread_partial"], "note": "The property is false of the code: refuted when a partial line is queued. Given exactly after a call that left four bytes unused: it panics iff more than the final line end is held back (text not ending with U+C); proved after the end and for an unread reader. A duplexer panics exactly when its reader would, and is silent afterwards. Once abandoned after such a call it delivers nothing more at the end, not even the supplied line end."},
{"property": "C43", "status": "partial", "theorems": ["C43_separators", "C43_line_ends", "C43_replaced_first_refuted", "C43_without_separators"], "note": "Separators are replaced as the options say and every line end of the replaced text is delivered; without the separators an option makes no difference. The documented order (separators replaced before the table is applied) is refuted."},
{"property": "C44", "status": "proved", "theorems": ["C44_any_writes", "C44_colours_specification", "C44_colours_close", "C44_duplex_specification", "C44_duplex_close", "C44_close_after_line"], "note": "For all interleavings, including failures of the stream below and abandoned sides, with and without colours: the duplexer refines a specification of two independent sides plus the rule that a line read puts the write side at a line start; and for any writes at all, closing succeeds only if the text sent since any moment after the last line read is empty or ends with a line end."},
{"property": "C45", "status": "proved", "theorems": ["C45_writer_specification"], "note": "For every history, also with failures of the stream below."},
{"property": "C46", "status": "proved", "theorems": ["C46_split_str", "C46_split_str_when", "C46_split_substr"], "note": "For every string and position."},
{"property": "C47", "status": "partial", "theorems": ["C47_same_as_string", "C47_substring_refuted", "C47_substring_partial"], "note": "False of the code: refuted for a string starting with a combining character. Proved: it accepts exactly what TextString::from_text accepts, with the same result; so strings that are also valid TextStrs."},
{"property": "C48", "status": "partial", "theorems": ["C48_read_to_text_string_exact", "C48_read_to_text_string_refuted"], "note": "False of the code as stated: refuted. Proved exactly when it holds."},
{"property": "C49", "status": "partial", "theorems": ["C49_exact_result", "C49_large_buffers", "C49_eof_refuted", "C49_exact_read", "C49_four_bytes", "C49_refuted", "C49_status", "C49_status_complete", "C49_status_ends", "C49_duplexer_empty_refuted", "C49_duplexer_exact"], "note": "Refuted in general: an exact read cannot finish unless the last character has four bytes, and a stream that ends too early need not be reported as ended. Proved for every stream that does not fail: exactly when an exact read succeeds and exactly when it reports an unexpected end. An empty exact read through a duplexer underflows; otherwise an exact read through a duplexer is one by its reader. The variant with a status succeeds exactly when the plain one does, with the same text; it reports an unexpected end exactly when the end was seen, and always comes to an end."},
{"property": "C50", "status": "partial", "theorems": ["C50_pieces", "C50_conversion", "C50_lossy_lines", "C50_lines_valid", "C50_valid_kept", "C50_one_line_refuted"], "note": "Proved for all sources: what each item is, that it is valid when it is, and that valid text is kept line by line. Refuted: an item may contain a line end. The same whatever pieces the source arrives in. C50_conversion: a conversion as the theorems suppose exists."},
{"property": "C51", "status": "proved", "theorems": ["C51_duplex_reads"], "note": "For all interleavings and both option sets."},
{"property": "C52", "status": "partial", "theorems": ["C52_closed_refuted", "C52_escape_refuted", "C52_closed_lines_partial", "C52_closed_exact"], "note": "Refuted twice with short programs. Without colors given exactly for writes that begin with starters: valid iff the end is an ender and no two Hangul syllable parts meet; in full if every written piece is a whole line."},
{"property": "C53", "status": "partial", "theorems": ["C53_default_exact_any", "C53_default_exact_status_any", "C53_part_read_valid", "C53_buffer_refuted", "C53_default_exact_refuted", "C53_default_exact_ascii", "C53_default_exact_status_ascii", "C53_default_exact_retry_refuted"], "note": "The part read is valid for every session. Refuted for the rest of the buffer, which may get U+0, so that the provided exact read panics. C53_default_exact_any and C53_default_exact_status_any say exactly when, for any buffer: iff the text read so far ends inside a character of the buffer (so never when it has only one byte characters). When the provided exact read succeeds or reports the end, so does the reader's own exact read, and the version with a status never reports the end together with success. Refuted: it fails on a read without text, which the reader's own exact read repeats."},
{"property": "C54", "status": "partial", "theorems": ["C54_cut_exact", "C54_fuzz_target_at_once", "C54_fuzz_target_partial", "C54_one_assertion", "C54_fuzz_target_refuted"], "note": "Proved exactly: an assertion fails iff the writer accepts the bytes and an inner read is cut between U+34F and an unassigned character; only the comparison with the writer can fail. Refuted for such a cut."},
{"property": "C55", "status": "partial", "theorems": ["C55_arbitrary_str_exact", "C55_arbitrary_substr_exact", "C55_front", "C55_arbitrary_str_partial", "C55_arbitrary_substr_partial", "C55_take_rest_str", "C55_take_rest_substr", "C55_arbitrary_refuted"], "note": "Never panics. Refuted on invalid UTF-8 (arbitrary makes the UTF-8 at the front, which need not be valid Basic Text). C55_arbitrary_str_exact and C55_arbitrary_substr_exact say exactly when the value is valid: iff the bytes are UTF-8 or the text at their front is valid. Proved in all cases for take_rest."},
{"property": "C56", "status": "proved", "theorems": ["C56_equivalent_texts_equal", "C56_from_text_equivalent", "C56_from_text_nfc", "C56_reading_nfc"], "note": "For all ordinary texts: allowed, assigned, with no run of more than 30 non-starters."},
{"property": "C57", "status": "partial", "theorems": ["C57_kept_cut_exact", "C57_kept_exactly", "C57_kept_only", "C57_kept_any_cut", "C57_cut_refuted", "C57_kept_exact_any"], "note": "Proved exactly, for every options and cut into reads: unchanged iff the text is as stated and no read is cut between U+34F and an unassigned character (badly_cut); refuted for such a cut."},
{"property": "C58", "status": "proved", "theorems": ["C58_writer_agrees_with_string", "C58_only_utf8"], "note": "For all texts and byte strings."},
{"property": "C59", "status": "proved", "theorems": ["C59_pieces", "C59_flush_refuted"], "note": "For every cut; also shown that a flush between the pieces breaks it."},
{"property": "C60", "status": "proved", "theorems": ["C60_round_trip", "C60_stored_text", "C60_stored_text_at_once", "C60_exact", "C60_stored_exact"], "note": "For every history of whole-line writes of assigned text. With unassigned characters exactly: it is read back iff they are preceded by U+34F and the stream is not read again between U+34F and an unassigned character (C60_exact)."},
{"property": "C61", "status": "proved", "theorems": ["C61_text_literal", "C61_text_substr_literal"], "note": "For all literals."},
{"property": "C62", "status": "partial", "theorems": ["C62_non_starters", "C62_non_enders", "C62_documented_accepted", "C62_accepted_documented_partial", "C62_accepted_documented_refuted", "C62_from_text", "C62_stream_iff", "C62_stream"], "note": "The set of non-starters is exactly the documented one; of the non-enders exactly U+890 and U+891 are missing. Every documented string is accepted; an accepted string is documented iff its unassigned characters are isolated and it does not end with U+890 or U+891 (both conditions shown necessary: refuted without). What a reader delivers is a documented stream iff isolated, and is isolated if no unassigned character of the converted input already follows U+34F."},
{"property": "C63", "status": "partial", "theorems": ["C63_exact", "C63_no_panic", "C63_first", "C63_every_row", "C63_messages_partial", "C63_messages_refuted", "C63_refused_character", "C63_reported", "C63_escape", "C63_color_refuted"], "note": "Proved for all scalar values except an explicit list (other_message), for which the message is shown to differ: among others, the characters for which the table names a substitute that the error does not, and color sequences when colors are off. A write refused for a character contains one; which error is reported when there are several is proved exactly, with the look-ahead of the normalizer (C63_exact), and there always is one (C63_no_panic)."},
{"property": "C64", "status": "proved", "theorems": ["C64_order", "C64_transitive", "C64_equal", "C64_canonical"], "note": "For all texts; transitivity and antisymmetry too."},
{"property": "C65", "status": "proved", "theorems": ["C65_empty_pattern", "C65_matches_text", "C65_first_character", "C65_last_character", "C65_character_tests", "C65_characters", "C65_char_is_string", "C65_character_slices", "C65_find", "C65_rfind", "C65_tests", "C65_matches", "C65_slices"], "note": "In full, for string patterns (the empty one too) and for patterns of single characters."},
{"property": "C66", "status": "partial", "theorems": ["C66_lines", "C66_valid_partial", "C66_line_refuted"], "note": "Exactly the lines, for every text without U+D (valid text has none); each is a valid substring. Refuted that each is a valid TextStr: a line may begin with a combining character; it is one iff its first and last characters allow it."},
{"property": "C67", "status": "partial", "theorems": ["C67_write_all", "C67_vectored", "C67_write", "C67_write_vectored", "C67_total", "C67_whole_refuted"], "note": "Exactly the stated results for every writer and all bytes; vectored writing is writing each buffer in turn. Refuted that it is like writing the concatenation: a character cut between two buffers is refused. Also one call of write and write_vectored."},
{"property": "C68", "status": "partial", "theorems": ["C68_copied", "C68_unchanged_partial", "C68_unchanged_refuted", "C68_any"], "note": "It always ends, with the right count and a writer that closes. What is sent is given exactly: the text read, unless a read happens to begin with an unassigned character, which then gets another U+34F (iff; refuted for a buffer that ends there). Whatever fails, what is sent is a beginning of the converted texts, all of them on success or a failed read (C68_any)."},
{"property": "C69", "status": "partial", "theorems": ["C69_concatenation_partial", "C69_with_pushes", "C69_push_between", "C69_whole_refuted", "C69_bom_refuted", "C69_exact", "C69_push_exact"], "note": "Proved for any text with pushes anywhere when the first stream ends with a line end outside escape sequences and the second does not begin with a BOM (each shown necessary: refuted for an open OSC and for a BOM): if the two streams are not read again between U+34F and an unassigned character, the texts are concatenated exactly if the third is not either (C69_exact), in particular if no unassigned character follows U+34F. When the second text does not begin with a starter only its first U+34F is missing; with a push between the two it does not matter how it begins (C69_push_between, C69_push_exact)."},
{"property": "C70", "status": "proved", "theorems": ["C70_pushes", "C70_pushes_pieces", "C70_same_pushes", "C70_line_by_line", "C70_push_refuted", "C70_step_by_step", "C70_known", "C70_cuts_exact", "C70_cuts_refuted"], "note": "The text delivered from every stream is given exactly, read by read; the cuts matter exactly as stated (refuted that they never do). Elsewhere than after lines pushes do change the text (shown for CR, LF). A leading BOM must not come after an empty read, as in C05."},
{"property": "C71", "status": "proved", "theorems": ["C71_valid", "C71_from_text", "C71_read", "C71_written"], "note": "In full."},
{"property": "C72", "status": "partial", "theorems": ["C72_read_again_partial", "C72_read_again_exact", "C72_layered_partial", "C72_layered_refuted", "C72_pushes_exact", "C72_layered_pushes_exact", "C72_pushes_refuted", "C72_all_exact", "C72_layered_all_exact"], "note": "Text is delivered unchanged exactly when each text between the pushes that the second reader sees begins as a text may and no read is cut between U+34F and an unassigned character (C72_layered_all_exact, for any options, cuts and pushes); in particular for assigned text without pushes. Refuted for such a cut and for such a push."},
{"property": "C73", "status": "proved", "theorems": ["C73_bytes_back", "C73_succeeds"], "note": "In full; the position is that of C25."},
{"property": "C74", "status": "proved", "theorems": ["C74_rmatches_reversed", "C74_char_indices", "C74_utf16", "C74_is_ascii", "C74_ignore_case", "C74_rmatches", "C74_case_validity_refuted"], "note": "In full. Also: equality up to case does not keep validity (shown)."},
{"property": "C75", "status": "proved", "theorems": ["C75_valid", "C75_printable", "C75_back", "C75_injective", "C75_form"], "note": "In full for the two functions; escape_debug is not modelled."},
{"property": "C76", "status": "proved", "theorems": ["C76_lines_prompt", "C76_line_ended", "C76_line_ended_exact", "C76_line_ended_sequences"], "note": "For every session, any options, pushes and failures: after a call that leaves at least four bytes, what is held back (compared with a stream that ends there) is at most one line. C76_line_ended: when the last character read is a line feed and the text has no escapes, a call that leaves room holds nothing back; C76_example_escape_needed: an unfinished operating system command swallows the line feed. C76_line_ended_exact: without pushes and escapes, while the stream goes on, nothing is held back exactly if the last character read ends a line (LF, or NEL, LS, PS with their options). C76_line_ended_sequences: with pushes and escapes, nothing is held back exactly if the last sequence of the text (as documented) is a line end, unless the last character is a carriage return, whose line waits for the next character."},
{"property": "C77", "status": "proved", "theorems": ["C77_writer_over_writer", "C77_writer_over_writer_exact", "C77_unpreceded_refuted"], "note": "For every history of operations (empty TextSubstr writes left out, see C28) and every behaviour of the stream below; if U+34F precedes the unassigned characters of the TextSubstr texts, they are written as by one writer, and a refutation shows that this is needed."},
{"property": "C78", "status": "proved", "theorems": ["C78_reader_bound", "C78_bytes_bound", "C78_lossy_bound", "C78_writer_bound", "C78_strict_bound", "C78_three_refuted"], "note": "In full: readers (any stream, options, buffer sizes), malformed bytes, writers (any history, colours, CRLF output), strict and lossy strings (lossy: plus four bytes, for a byte order mark kept as U+2060). Refuted for a factor of three."},
{"property": "C79", "status": "partial", "theorems": ["C79_nfc_cat", "C79_ssnfc_cat", "C79_nfc_cat_twice", "C79_ssnfc_cat_twice", "C79_text_cat", "C79_twice_refuted"], "note": "In full for the text written. Filtering twice is proved to change nothing exactly if the text has no CR CR LF and does not end with CR; refuted otherwise."},
{"property": "C80", "status": "proved", "theorems": ["C80_ideographs_kept", "C80_ideographs_kept_sequences", "C80_told_apart", "C80_way_back", "C80_sequences_differ", "C80_strict_refuses", "C80_selectors_refuted"], "note": "For every stream without the three variation selectors (also with escape sequences and pushes); the way back for valid text of assigned characters. Refuted, as it must be, for streams that already contain variation sequences."},
{"property": "C81", "status": "partial", "theorems": ["C81_plain_same", "C81_histories", "C81_starter_apart", "C81_merges", "C81_closed", "C81_closed_valid", "C81_read_back", "C81_cut_histories", "C81_cut_closed", "C81_cut_closed_valid", "C81_cut_read_back", "C81_lost_sequence_refuted", "C81_accent_refuted", "C81_start_refuted", "C81_flush_refuted", "C81_close_refuted", "C81_half_sequence_refuted", "C81_exact", "C81_cut_exact"], "note": "What is accepted and sent is given exactly for all texts, also if the sequences are cut anywhere into several writes. The property itself is refuted: an accent after a sequence is composed with its final m and the write is refused (exactly then, besides for a character that is not allowed: merges); a sequence hides a leading non-starter; a flush after U+200D and a sequence is accepted; closing after a line end and a reset sequence is refused; a text written with write_text in the middle of a sequence loses its beginning; so does a sequence in the middle of which a duplexer reads a line. With unassigned characters it is read back exactly under the condition of C60 (C81_exact, C81_cut_exact)."},
{"property": "C82", "status": "proved", "theorems": ["C82_from_text", "C82_read", "C82_written", "C82_scripts", "C82_private_use"], "note": "In full."},
{"property": "C83", "status": "partial", "theorems": ["C83_checked_partial", "C83_checked_substrings_partial", "C83_loose_partial", "C83_loose_substrings_partial", "C83_precomposed_partial", "C83_extend", "C83_values_refuted"], "note": "The code violates it (C83_values_refuted: + of Hangul jamos, trimming a space that carries an accent, repeating a substring). Proved for all programs that check for these cases first, for all programs whose texts have no vowel or trailing jamos and nothing attached to white space (substrings: repeated only if they start like a text), and without exception for precomposed text."},
{"property": "C84", "status": "partial", "theorems": ["C84_accepted", "C84_documented_partial", "C84_exact", "C84_bom", "C84_guards_refuted"], "note": "Accepted exactly as documented, and what is sent is given exactly (C84_exact). The documented text is sent exactly if every unassigned character after U+34F is followed by U+34F or another unassigned one; refuted otherwise (as for C20 and C26)."},
{"property": "C85", "status": "partial", "theorems": ["C85_line_read", "C85_next_part", "C85_line_cases", "C85_valid_exact", "C85_valid_refuted", "C85_contents_refuted", "C85_lossy_line", "C85_lossy_append_refuted", "C85_lossy_valid_refuted", "C85_pieces", "C85_lossy_pieces"], "note": "Given exactly: what a call returns, takes and leaves in the buffer for every source. Valid as long as the source does not fail, also for the lossy version. Refuted after an I/O error in the middle of a line, which leaves the partial line in the TextString unchecked; an invalid line loses the old contents; the lossy version may change them."},
{"property": "C86", "status": "partial", "theorems": ["C86_complete_partial", "C86_exact", "C86_after_failure_refuted"], "note": "Proved for writers that have not failed; exactly when it succeeds is given (C86_exact). Refuted after a failed write: the writer is then as at the start of a line and close_into_inner succeeds. It neither flushes nor closes the stream, contrary to its comment."},
{"property": "C87", "status": "proved", "theorems": ["C87_refused", "C87_minimum", "C87_suggested", "C87_copied", "C87_tower"], "note": "In full. Also: readers over readers work exactly if the stream at the bottom asks for at most 4096 bytes."},
{"property": "C88", "status": "partial", "theorems": ["C88_present", "C88_isolated_partial", "C88_changes", "C88_from_text", "C88_stream_exact", "C88_stream", "C88_guarded_refuted", "C88_decomposing_refuted"], "note": "Proved for isolated text, with exact conditions for conversions and sessions. Refuted without isolation (a U+34F of the stream's own before an unassigned value keeps the one after it from being added, C88_guarded_refuted), and for characters that come with a decomposition of their own, which no isolation can protect (C88_decomposing_refuted)."},
{"property": "C89", "status": "proved", "theorems": ["C89_from_text", "C89_stream", "C89_written"], "note": "In full, with pushes anywhere."},
{"property": "C90", "status": "proved", "theorems": ["C90_at_most_once", "C90_not_too_early", "C90_not_too_late", "C90_how_often"], "note": "In full."},
{"property": "C91", "status": "proved", "theorems": ["C91_iterators", "C91_nfc", "C91_nfd", "C91_equivalent", "C91_stream_safe", "C91_stream_safe_format", "C91_valid", "C91_conversion"], "note": "In full, over the character data of UcdTables.v (trusted); also for the iterators as they run (C91_iterators)."},
{"property": "C92", "status": "partial", "theorems": ["C92_lossy_exact", "C92_lossy_by", "C92_lossy_one_read", "C92_any_mixture_partial", "C92_cr_only", "C92_crlf_only_partial", "C92_lossy_partial", "C92_refuted", "C92_pushed_refuted", "C92_exact", "C92_well_cut"], "note": "Proved for any text, with or without pushes, for any mixture of line ends: if one stream is not read again between U+34F and an unassigned character, the texts are equal exactly if the other is not either (C92_exact), in particular if no unassigned character follows U+34F or each is one read. Exception: where a text has \"ESC [ [\" directly before a line end that line end must not be CR LF: the code takes the one character after \"ESC [ [\" with the sequence, so a LF or CR disappears but of CR LF the LF remains (C92_refuted). With CR only there is no such exception (C92_cr_only). A push between CR and LF makes two line ends (C92_pushed_refuted). The lossy conversion is decided in the same way (C92_lossy_exact; in full for strings taken in one read, C92_lossy_one_read)."},
{"property": "C93", "status": "proved", "theorems": ["C93_excluded", "C93_text_bytes", "C93_text_controls", "C93_read_bytes", "C93_read_text_file", "C93_written_bytes", "C93_written_text_file"], "note": "In full (writers without terminal colours; what a writer with colours sends is C41 and C81)."},
{"property": "C94", "status": "proved", "theorems": ["C94_bounded"], "note": "In full, for the iterators of NormIter.v (those of unicode-normalization are in the trusted base). The bound is 69; 66 is reached (C94_example)."},
{"property": "C95", "status": "proved", "theorems": ["C95_buffered", "C95_no_error", "C95_end", "C95_ends", "C95_lines", "C95_lines_any", "C95_short", "C95_into_inner", "C95_lossy_lines", "C95_lossy_each_line", "C95_lossy_lines_any"], "note": "In full; std's BufReader is modelled in StdBuf.v. With a buffer of less than 136 bytes small reads are always refused (C95_short). The lossy lines (text_lines_lossy) over the BufReader are those of the text, one valid string for each line and no error; with failing reads an error for each failure. C95_into_inner: every byte read is in a line given or still in the BufReader, which is what into_inner loses."},
{"property": "C96", "status": "proved", "theorems": ["C96_bufwriter", "C96_linewriter_lines", "C96_linewriter", "C96_total", "C96_cut_refuted", "C96_groups_are_the_bytes", "C96_bufwriter_groups", "C96_linewriter_groups", "C96_any_size", "C96_linewriter_bytes"], "note": "In full; std's BufWriter and LineWriter are modelled in StdBuf.v. With pieces cut inside lines, what a BufWriter sends depends on its capacity, need not be Basic Text, and is reported as a success (C96_cut_refuted). For bytes cut anywhere and buffers of any size, the groups of bytes that reach the writer are given exactly (C96_bufwriter_groups, C96_linewriter_groups), and for a text that needs no conversion when it is accepted and what is sent (C96_any_size)."},
{"property": "C97", "status": "partial", "theorems": ["C97_chain", "C97_chain_no_error", "C97_chain_end", "C97_chain_ends", "C97_take", "C97_take_end", "C97_take_beyond", "C97_take_cut", "C97_take_short", "C97_take_refuted", "C97_bytes", "C97_bytes_refuted", "C97_vectored", "C97_vectored_short", "C97_vectored_refuted", "C97_take_exact", "C97_take_exact_narrow"], "note": "Chain in full. Take never gives more than the limit and Ok(0) means the limit or the end; a text that ends 136 bytes before the limit is given completely. Refuted otherwise: the reader refuses the buffer once fewer than 136 bytes are left, so take fails for texts within the limit, and always for limits under 136. C97_take_exact says exactly when: with a limit less than 136 bytes beyond the text there is an error, unless a character of four bytes ends at the limit. Refuted for bytes: it gives errors only and never ends. A vectored read is a read into the first buffer that is not empty (C97_vectored); it is refused, and changes nothing, when that one is short or there is none (C97_vectored_short, C97_vectored_refuted)."},
{"property": "C98", "status": "partial", "theorems": ["C98_total", "C98_stops", "C98_written", "C98_writeln", "C98_at_once_partial", "C98_seam", "C98_linewriter", "C98_at_once_refuted", "C98_join_refuted"], "note": "What is accepted, where the call stops and what is sent are exact (C98_written, C98_stops). That the formatted text is converted as a whole is false of the code: each piece is normalized alone (C98_at_once_refuted: writeln!(w, \"e{}\", \"\\u{301}\") sends text that is not normalized). If the later pieces begin with an assigned character that may begin a text, the result is that of one write exactly if no Hangul characters join (C98_at_once_partial). Through a LineWriter that holds the lines it is converted as a whole (C98_linewriter)."},
{"property": "C99", "status": "partial", "theorems": ["C99_total", "C99_fails", "C99_whole", "C99_string", "C99_text_string_partial", "C99_fresh", "C99_text_string_refuted"], "note": "Everything about read_to_end and read_to_string is proved as stated, and read_to_text_string succeeds exactly if the stream does not fail (C99_text_string_partial; it never finds a starter missing). That it leaves a valid TextString is false of the code when the string it is appended to ends, and the text begins, with Hangul characters that join (C99_text_string_refuted), and true in every other case, in particular for a new TextString (C99_fresh). What a failed call leaves in the Vec is decided by layered_io and not modelled."},
{"property": "C100", "status": "partial", "theorems": ["C100_exact", "C100_changed_refuted", "C100_total", "C100_any", "C100_copied_partial", "C100_copied_refuted"], "note": "False of the code in two ways, if a line does not fit in the LineWriter: a buffer that is full within a character is passed to the TextWriter, which refuses the valid text as invalid UTF-8 (C100_copied_refuted), and one that is full before an unassigned scalar value makes the writer send U+34F twice (C100_changed_refuted). C100_exact says exactly when, for all sizes: all is copied iff no group of bytes passed on ends within a character, and unchanged iff no group begins with an unassigned scalar value. If the lines, with one piece more, fit in the LineWriter, the property holds (C100_copied_partial). That copying ends holds for every stream and writer (C100_total), and so does what each result means (C100_any). The specializations of std::io::copy for BufReader and BufWriter are not modelled."},
{"property": "C101", "status": "proved", "theorems": ["C101_total", "C101_fails", "C101_whole", "C101_string"], "note": "layered_io's default_read_to_end is modelled from its documentation, as for C99."},
{"property": "C102", "status": "partial", "theorems": ["C102_copied", "C102_using_status", "C102_any", "C102_status_any", "C102_copied_refuted", "C102_status_line_refuted"], "note": "Decided exactly for copy_text and copy_text_using_status after all histories without failures: everything is copied if the receiving side accepts the rest of the text (it has not failed and, at its start or after a flush, the rest does not begin with a non-starter; with statuses also at each push), else it refuses and copy_text sends nothing. Refuted: the earlier reads may stop before a non-starter, which a new duplexer refuses; copy_text_using_status writes an empty text when nothing is left, after which an unfinished line may be closed. With any failures what is sent is a beginning of the text read (C102_any)."},
{"property": "C103", "status": "proved", "theorems": ["C103_sides", "C103_heard", "C103_prompt", "C103_end", "C103_lines", "C103_delivered", "C103_unfinished_held", "C103_pushed_heard", "C103_pushed_prompt", "C103_pushed_lines", "C103_pushed_delivered", "C103_pushed_conditions", "C103_colour_heard", "C103_colour_prompt", "C103_colour_delivered", "C103_colour_extra_line"], "note": "Proved for every interleaving. C103_sides needs no hypothesis: each end is a duplexer on a stream that gives what the other has sent so far, so all theorems about duplexers apply. C103_heard and C103_prompt are about a colourless sender none of whose writes failed, whose whole text is Basic Text of assigned characters, and a connection without errors or pushes; C103_lines shows that writes of whole lines always make such a text. The sender writes nothing after it has called close; then the end is read only after the close succeeded and all it sent was taken (C103_end). After any conversation str_len + 2 further reads hear everything (C103_delivered). With pushes after line ends, and lines that begin with starters, all this remains true (C103_pushed_heard, _prompt, _lines, _delivered); both conditions are needed (C103_pushed_conditions). A sender that writes with colours, its sequences cut anywhere, is heard without them (C103_colour_heard, _prompt, _delivered); a sequence after the last line end makes the other end hear an empty line that was not written (C103_colour_extra_line). An unfinished line is held back although flushed (C103_unfinished_held)."},
{"property": "C104", "status": "partial", "theorems": ["C104_chain_partial", "C104_exact", "C104_stored_exact", "C104_total", "C104_refuted", "C104_pushed_partial"], "note": "Proved for assigned text and any mixture of the three ways of copying (C104_chain_partial). For any text, copied with copy_text or copy_text_using_status, exactly if no stream between is read again between U+34F and an unassigned character (C104_exact, C104_stored_exact); else U+34F is added (C104_refuted). The streams between are without pushes there; with pushes it is proved if each text between two pushes begins and ends as a text may (C104_pushed_partial). The first stream may be anything."},
{"property": "C105", "status": "partial", "theorems": ["C105_back", "C105_debug_back", "C105_delimited", "C105_one_line", "C105_debug_valid", "C105_accents", "C105_valid_exact", "C105_substr_exact", "C105_start", "C105_valid_partial", "C105_valid_refuted"], "note": "Reading back, the closing quote and the single line are proved for all texts and all tables; {:?} of a valid text or substring is a valid text. escape_debug is refuted: LF U+301 is shown as \\n U+301, and the n combines with U+301 (C105_valid_refuted); it is valid exactly if no letter of an escape combines with what is shown after it (C105_valid_exact). The same holds for substrings (C105_substr_exact)."},
{"property": "C106", "status": "partial", "theorems": ["C106_plain", "C106_shape", "C106_valid", "C106_valid_exact", "C106_fill_exact", "C106_substr", "C106_written", "C106_cut_refuted", "C106_fill_refuted", "C106_substr_refuted"], "note": "The shape is proved for every text and format. Nothing cut off and an ASCII fill: always a valid text (C106_valid), and what write! sends (C106_written). Refuted in general: a precision can leave U+200D at the end (C106_cut_refuted), and a Hangul fill can join with the text (C106_fill_refuted); exactly these two cases are not valid (C106_fill_exact). Substrings are proved for the usual fill, a space, and refuted for letters (C106_substr_refuted)."},
{"property": "C107", "status": "proved", "theorems": ["C107_sent", "C107_cut_off", "C107_at_once", "C107_crash", "C107_duplex_sent", "C107_duplex_crash", "C107_colour_sent", "C107_colour_cut", "C107_colour_at_once", "C107_colour_crash", "C107_frag_sent", "C107_frag_crash", "C107_duplex_colour_sent", "C107_duplex_colour_crash"], "note": "C107_crash is the whole way from the operations to the text read again; C107_sent and C107_cut_off are its two halves, and C107_at_once has text with unassigned characters. C107_duplex_sent and C107_duplex_crash are the same for a TextDuplexer, with reads between the writes. C107_colour_sent, C107_colour_cut, C107_colour_at_once and C107_colour_crash are the same for text written with colours. C107_frag_sent and C107_frag_crash allow colour sequences cut into several writes, and C107_duplex_colour_sent and C107_duplex_colour_crash are these for a TextDuplexer. (Text with unassigned characters read in pieces is C57_cut_refuted and C60_exact.)"},
{"property": "C108", "status": "proved", "theorems": ["C108_middle", "C108_first", "C108_at_once", "C108_first_at_once", "C108_append", "C108_append_at_once", "C108_seek", "C108_seek_at_once", "C108_escape", "C108_escape_first", "C108_escape_at_once", "C108_colour", "C108_colour_at_once", "C108_colour_first", "C108_colour_first_at_once", "C108_colour_seek", "C108_colour_seek_at_once", "C108_colour_append", "C108_colour_append_at_once", "C108_colour_append_refuted", "C108_escape_refuted"], "note": "C108_middle and C108_first have the damaged line after other lines and at the start, C108_at_once and C108_first_at_once the same for text with unassigned characters, and C108_append text behind text that was cut off. C108_seek and C108_seek_at_once start at any byte. C108_escape, C108_escape_first and C108_escape_at_once allow escape characters in the damaged line if its line end is not taken into a sequence, and C108_colour and C108_colour_at_once also have colours in the other lines. C108_escape_refuted shows that the condition is needed: an unfinished OSC sequence swallows the next lines. C108_colour_first, C108_colour_first_at_once, C108_colour_seek, C108_colour_seek_at_once and C108_colour_append are the other cases with colours; C108_colour_append_refuted shows that text behind a cut-off U+1B can be lost. C108_append_at_once, C108_colour_append_at_once: the same with unassigned characters, for text that arrives at once."},
{"property": "C109", "status": "proved", "theorems": ["C109_sent", "C109_ended", "C109_whole", "C109_valid", "C109_read", "C109_read_at_once", "C109_cut", "C109_cut_at_once", "C109_colour_sent", "C109_colour_read", "C109_colour_parts", "C109_colour_cut", "C109_colour_cut_at_once", "C109_colour_cut_refuted", "C109_pieces_refuted"], "note": "C109_sent is the general description, with calls of which the stream takes only a beginning; C109_ended says that a writer stops once a write of it has failed; C109_whole, C109_valid and C109_read are for calls of complete lines, and C109_read_at_once has text with unassigned characters. C109_cut and C109_cut_at_once have calls of which the stream takes only a part, and writers that end lines in different ways: all texts of the calls that succeed are read, and damage is confined to the lines next to the part. C109_pieces_refuted shows that the lines have to be complete: pieces of lines from two writers can join to text that is not valid. C109_colour_sent, C109_colour_read: the same for writers with colours and streams that refuse whole texts; C109_colour_parts is the general description with colours, and C109_colour_cut, C109_colour_cut_at_once confine the damage when each call begins with a colour sequence or a line end. C109_colour_cut_refuted: else, when the stream takes a part of a text with colours, later lines of another writer can be lost."},
{"property": "C110", "status": "proved", "theorems": ["C110_any", "C110_all", "C110_returned", "C110_prompt", "C110_flushed", "C110_flushed_exact", "C110_flushed_refuted", "C110_colour"], "note": "C110_any: any failures; C110_all: neither stream fails; C110_returned: the peer's own text comes back; C110_prompt: what is not sent back yet; C110_flushed: with a flush after each text, under the stated condition on the texts that are read, and only then (C110_flushed_exact). C110_colour: a duplexer with colours does the same. C110_flushed_refuted shows that the condition is needed: a read can end before a combining character, which may not be written after a flush. C110_prompt also: if what the peer has sent so far ends with a line feed and has no escapes, all of it has been sent back."},
{"property": "C111", "status": "partial", "theorems": ["C111_lines", "C111_reads", "C111_into_inner", "C111_history", "C111_written", "C111_close", "C111_prompts_refuted"], "note": "C111_lines: the lines, whatever is written; C111_reads: the same as without the writes, also if the stream fails; C111_into_inner: every byte read is in a line given or still in the BufReader, which is what into_inner loses; C111_history: each conversation is a history of the duplexer with the same writes, so that C51 and C52 apply; C111_written: complete lines. The last part is false of the code: C111_prompts_refuted (two prompts without line ends, and the peer's two lines arrive together: the second line is in the BufReader already, the duplexer is not told about it, and closing fails, although it succeeds if the lines arrive one by one). C111_close proves it when the line was not in the BufReader already, and the BufReader holds nothing or complete lines after it."},
{"property": "C112", "status": "partial", "theorems": ["C112_all", "C112_closed", "C112_conversation", "C112_waiting", "C112_waiting_short", "C112_waiting_few", "C112_all_answered_refuted"], "note": "C112_all: total correctness without failures; C112_closed: any failures, any end of the server; C112_conversation: the server is a conversation of C111, so that C111 and C51 apply to it. The last sentence is false of the code: C112_all_answered_refuted (more text arrives at once than fits the BufReader's buffer of 136 bytes; the call that hands out the rest, a complete line, first asks the stream for more, so server and peer wait for each other). C112_waiting says exactly what may be unanswered: the last line, and before it a text that fits the buffer with four bytes to spare. C112_waiting_short: if the text that has arrived fits the buffer, at most the last line has not been answered when the server waits, and none if what arrived ends with a line feed (and has no escapes). C112_waiting_few: so it is if four times the bytes that arrived, and five, fit the buffer (by C78)."}
]}
