{"id": "C01", "title": "Reading any stream yields a Basic Text stream", "statement": "Whatever a TextReader is given (any scalar values, cut into any chunks, with any push/end statuses, read through buffers of any legal sizes), the concatenation of everything it delivers up to the end of the stream is accepted by is_basic_text and is empty or ends with '\\n'.", "quantifier": "all inputs, all chunkings, all interleavings of statuses, all sequences of caller buffer sizes >= NORMALIZATION_BUFFER_SIZE, all option settings", "why_tests_cant": "The input space is all Unicode strings times all chunkings; normalization, escape handling and buffering interact across chunk boundaries.", "anchors": ["src/text_input.rs::read_with_status", "src/text_input.rs::process_raw_string", "src/text_input.rs::queue_next", "internals/src/text_utils.rs::is_basic_text"]}
{"id": "C02", "title": "Delivered characters are never forbidden", "statement": "No character delivered by a TextReader is a control other than '\\n' and '\\t', a noncharacter, a BOM, an object replacement character, a bidi or deprecated formatting character, a CJK compatibility ideograph or any other character listed in the Sequence Table.", "quantifier": "all inputs, chunkings, statuses and buffer sizes", "why_tests_cant": "Normalization could re-introduce a forbidden character by composing or decomposing; only a table-wide argument excludes it.", "anchors": ["src/text_input.rs::process_raw_string", "internals/src/replace.rs::replace", "internals/src/check.rs::check_basic_text_char", "docs/BasicText.md#sequence-table"]}
{"id": "C03", "title": "Replacement covers exactly what checking rejects", "statement": "Every scalar value is either accepted by check_basic_text_char or is changed by the reader's conversion (replacement, CJK variation mapping, normalization) to a sequence of accepted values, and accepted values other than FF-class controls are left alone by replace; the table agrees with the documented Sequence Table.", "quantifier": "all 1,112,064 scalar values", "why_tests_cant": "Two hand-written tables must agree on the whole code space.", "anchors": ["internals/src/replace.rs::replace", "internals/src/check.rs::check_basic_text_char", "docs/BasicText.md#sequence-table"]}
{"id": "C04", "title": "Escape sequences, CR and FF are translated as the Sequence Table says", "statement": "The reader's control-code and escape-sequence state machine removes exactly the sequences matched by the documented grammar (longest match, left to right), turns CR and CRLF into LF and runs of FF into a space (or nothing before a line end), independently of how the input is cut into chunks.", "quantifier": "all strings and all chunkings", "why_tests_cant": "The state machine has eight states and unbounded input; the documented grammar is regular and must be matched everywhere.", "anchors": ["src/text_input.rs::process_raw_string", "src/text_input.rs::State", "docs/BasicText.md#sequence-table"]}
{"id": "C05", "title": "Chunking does not change the conversion", "statement": "If no unassigned scalar value directly follows a U+34F once escape sequences are removed, splitting the same stream into reads in a different way (with active statuses, and a leading BOM not preceded by an empty read) gives exactly the same delivered text.", "quantifier": "all strings, all pairs of chunkings, all buffer sizes", "why_tests_cant": "There are exponentially many chunkings, and the queue is normalized in pieces.", "anchors": ["src/text_input.rs::read_with_status", "src/text_input.rs::queue_next", "internals/src/isolate_unassigned.rs::IsolateUnassigned"]}
{"id": "C06", "title": "The caller's buffer size does not change the text", "statement": "Reading the same stream through any sequence of buffers of legal sizes delivers the same characters in the same order, with nothing lost, duplicated or split inside a character.", "quantifier": "all streams and all sequences of buffer sizes >= NORMALIZATION_BUFFER_SIZE", "why_tests_cant": "Depends on every position at which a buffer can fill up.", "anchors": ["src/text_input.rs::read_with_status", "src/text_input.rs::clear_to_char_boundary"]}
{"id": "C07", "title": "Every read fills only whole characters and keeps the caller's buffer valid UTF-8", "statement": "After a successful read into a buffer that held valid UTF-8, the count returned is at most the buffer length and falls on a character boundary, the bytes up to it are the UTF-8 encoding of whole characters, and the entire buffer is still valid UTF-8.", "quantifier": "all reader states, all buffer contents, all streams", "why_tests_cant": "A wrong boundary would be undefined behaviour for the str/TextSubstr views; it depends on where old and new bytes meet.", "anchors": ["src/text_input.rs::read_with_status", "src/text_input.rs::read_str", "src/text_input.rs::clear_to_char_boundary", "src/text_input.rs::is_char_boundary"]}
{"id": "C08", "title": "A failed read leaves the caller's str buffer intact or valid", "statement": "When a read of a str reports an error the caller's buffer still holds valid UTF-8 and no already converted text is lost.", "quantifier": "all streams and all positions of an inner error", "why_tests_cant": "Needs an error injected after a partial delivery at every possible point.", "anchors": ["src/text_input.rs::read_with_status", "src/text_input.rs::read_str"]}
{"id": "C09", "title": "A reader reports the end of stream once everything is delivered", "statement": "When a TextReader returns an end status, everything derived from the input has been delivered; and repeatedly reading a finite stream reaches the end status after finitely many reads.", "quantifier": "all finite streams, all buffer sizes", "why_tests_cant": "Liveness and completeness over unbounded executions.", "anchors": ["src/text_input.rs::read_with_status", "src/text_input.rs::queue_next"]}
{"id": "C10", "title": "Push statuses are reported", "statement": "If the underlying stream signals a push, the reader reports a push status once the data before it has been delivered.", "quantifier": "all streams with pushes, all buffer sizes", "why_tests_cant": "Requires the queue to exceed the caller's buffer exactly at a push.", "anchors": ["src/text_input.rs::read_with_status", "src/text_input.rs::pending_status"]}
{"id": "C11", "title": "Fast path and slow path agree in the reader", "statement": "Whenever the reader takes its quick path for a queued segment the text delivered is exactly what the full isolate/variant/stream-safe/NFC pipeline would have produced.", "quantifier": "all queued segments", "why_tests_cant": "The quick path skips normalization based on table lookups that must be sound for every string.", "anchors": ["src/text_input.rs::queue_next"]}
{"id": "C12", "title": "Normalization is idempotent and stable", "statement": "Converting to NFC twice is the same as once; the result of Stream-Safe followed by NFC is accepted by the Stream-Safe NFC test, and that test accepts exactly the strings left unchanged by Stream-Safe and by NFC.", "quantifier": "all strings", "why_tests_cant": "Quantifies over all Unicode strings and the complete Unicode tables.", "anchors": ["internals/src/text_utils.rs::is_basic_text_substr", "src/text_output.rs::state_machine", "src/text_input.rs::queue_next"]}
{"id": "C13", "title": "Stream-Safe runs are bounded", "statement": "In every accepted string no run of non-starters (in compatibility decomposition) is longer than 30, so any normalized cluster fits the documented minimum buffer.", "quantifier": "all accepted strings", "why_tests_cant": "Unbounded strings; the bound justifies the minimum buffer size.", "anchors": ["internals/src/unicode.rs::NORMALIZATION_BUFFER_SIZE", "internals/src/text_utils.rs::is_basic_text_substr"]}
{"id": "C14", "title": "TextSubstr is closed under slicing", "statement": "Every prefix, suffix and contiguous slice (on character boundaries) of a valid TextSubstr is a valid TextSubstr, so the unchecked slicing, trim and split_at operations on TextSubstr are sound and split_at never panics on a boundary.", "quantifier": "all valid substrings and all slice positions", "why_tests_cant": "Requires that NFC is closed under taking substrings, a property of the whole Unicode data.", "anchors": ["src/text_substring.rs::split_at", "src/text_substring.rs::trim", "src/text_substring.rs::Index", "src/text_string.rs::Index", "internals/src/text_utils.rs::is_basic_text_substr"]}
{"id": "C15", "title": "Slices of a TextStr are valid TextSubstrs", "statement": "Indexing a valid TextStr by any range on character boundaries yields a valid TextSubstr.", "quantifier": "all valid TextStr and all ranges", "why_tests_cant": "As C14; the implementation uses unchecked conversion.", "anchors": ["src/text_string.rs::Index"]}
{"id": "C16", "title": "Concatenation of Basic Text strings is a Basic Text string", "statement": "Appending a TextStr to a TextString with push_text (or +, +=, extend) gives a string accepted by is_basic_text.", "quantifier": "all pairs of valid strings", "why_tests_cant": "The claim in the documentation of push_text; depends on which characters may start a string and compose backwards.", "anchors": ["src/text_string.rs::push_text", "src/text_string.rs::Add", "src/text_string.rs::Extend"]}
{"id": "C17", "title": "trim keeps a TextStr valid", "statement": "trim, trim_start and trim_end on a valid TextStr return a valid TextStr.", "quantifier": "all valid strings", "why_tests_cant": "Unchecked construction; depends on what may follow white space.", "anchors": ["src/text_string.rs::trim", "src/text_string.rs::trim_start", "src/text_string.rs::trim_end"]}
{"id": "C18", "title": "repeat keeps strings valid", "statement": "repeat(n) of a valid TextStr is a valid TextStr.", "quantifier": "all valid strings and all n", "why_tests_cant": "Unchecked construction, unbounded n.", "anchors": ["src/text_string.rs::repeat"]}
{"id": "C19", "title": "from_text returns only valid Basic Text", "statement": "If TextString::from_text succeeds its result is accepted by is_basic_text.", "quantifier": "all strings", "why_tests_cant": "Result is constructed unchecked from what the strict writer emitted.", "anchors": ["src/text_string.rs::from_text", "src/text_output.rs::write_str", "src/text_output.rs::flush"]}
{"id": "C20", "title": "from_text is the documented strict conversion", "statement": "TextString::from_text(s) succeeds exactly when s contains no forbidden character and its normalized form neither starts with a Basic Text non-starter nor ends with a non-ender, and then returns Stream-Safe NFC of s with unassigned characters isolated.", "quantifier": "all strings", "why_tests_cant": "An equivalence over all strings; tests only sample.", "anchors": ["src/text_string.rs::from_text", "src/text_output.rs::state_machine", "docs/BasicText.md#from-unicode-string-to-basic-text-string-strict"]}
{"id": "C21", "title": "Valid text is a fixed point", "statement": "If s is accepted by is_basic_text and has no unassigned character lacking a preceding U+34F then from_text(s) = s; in particular from_text(from_text(s)) = from_text(s).", "quantifier": "all strings", "why_tests_cant": "Idempotence over all strings.", "anchors": ["src/text_string.rs::from_text"]}
{"id": "C22", "title": "from_text_lossy always succeeds and returns valid Basic Text", "statement": "from_text_lossy never panics (its assertion about the trailing newline never fails) and returns a string accepted by is_basic_text.", "quantifier": "all strings", "why_tests_cant": "Contains an unwrap and an assert_eq that must hold for every input.", "anchors": ["src/text_string.rs::from_text_lossy"]}
{"id": "C23", "title": "Lossy output is accepted unchanged by the strict side", "statement": "For every input, TextString::from_text accepts the result of from_text_lossy and returns it unchanged, and writing the reader's output to a TextWriter and closing it succeeds and emits the same text.", "quantifier": "all inputs and chunkings", "why_tests_cant": "The round-trip property asserted by the fuzz target, for all inputs.", "anchors": ["src/text_string.rs::from_text_lossy", "src/text_string.rs::from_text", "fuzz/fuzz_targets/text.rs"]}
{"id": "C24", "title": "from_text_lossy preserves valid text", "statement": "If s is valid Basic Text whose unassigned characters are isolated, from_text_lossy(s) = s.", "quantifier": "all valid strings", "why_tests_cant": "Losslessness on all valid input.", "anchors": ["src/text_string.rs::from_text_lossy"]}
{"id": "C25", "title": "The error position of from_text is a valid prefix", "statement": "valid_up_to in a TextError is a character boundary, at most the length, the prefix up to it is valid, and the computation terminates; for TextSubstr it is the longest valid prefix.", "quantifier": "all strings", "why_tests_cant": "Binary search over byte indices with boundary adjustment; termination for every input.", "anchors": ["src/text_string.rs::compute_valid_up_to", "src/text_substring.rs::compute_valid_up_to"]}
{"id": "C26", "title": "Unassigned characters are isolated", "statement": "After conversion each unassigned scalar value is preceded and followed by U+34F.", "quantifier": "all strings", "why_tests_cant": "State machine over all strings.", "anchors": ["internals/src/isolate_unassigned.rs::IsolateUnassigned::next", "docs/BasicText.md"]}
{"id": "C27", "title": "Isolation is idempotent and only adds U+34F", "statement": "isolate_unassigned leaves its own output unchanged and removing the inserted U+34F gives back the input.", "quantifier": "all strings", "why_tests_cant": "Induction over strings.", "anchors": ["internals/src/isolate_unassigned.rs::IsolateUnassigned::next"]}
{"id": "C28", "title": "A successfully closed writer produced a complete stream", "statement": "If only write_str/write/flush were used and close succeeds, then the bytes emitted are empty or end with '\\n' (\"\\r\\n\" in CRLF mode).", "quantifier": "all histories of write/flush/close and all inner failures", "why_tests_cant": "Histories are unbounded.", "anchors": ["src/text_output.rs::close", "src/text_output.rs::check_nl", "src/text_output.rs::write_str", "src/text_output.rs::flush"]}
{"id": "C29", "title": "A strict writer never emits forbidden characters", "statement": "Everything a TextWriter (without colour support) sends to the underlying stream through write_str/write consists of characters accepted by check_basic_text_char (plus CR only directly before LF in CRLF mode).", "quantifier": "all histories of write_str/write/flush/close with all inner failures", "why_tests_cant": "Includes partially failed writes and later writes on the same writer.", "anchors": ["src/text_output.rs::write_str", "src/text_output.rs::state_machine_char", "src/text_output.rs::write_buffer"]}
{"id": "C30", "title": "CRLF mode is plain mode with line ends expanded", "statement": "On a fresh writer, write_str in CRLF mode succeeds on exactly the same strings as in plain mode and the output is the plain output with every '\\n' replaced by \"\\r\\n\"; every '\\n' emitted is preceded by '\\r'.", "quantifier": "all strings", "why_tests_cant": "CRLF mode normalizes line by line while plain mode normalizes the whole string.", "anchors": ["src/text_output.rs::crlf_write_str", "src/text_output.rs::normal_write_str"]}
{"id": "C31", "title": "Dropping a writer after an error or a close never panics", "statement": "After close or abandon, and after any failed write or close, dropping the writer does not panic.", "quantifier": "all histories and all inner failures", "why_tests_cant": "Drop panics depend on a hidden state flag over unbounded histories.", "anchors": ["src/text_output.rs::Drop", "src/text_output.rs::prepare_failure", "src/text_output.rs::abandon"]}
{"id": "C32", "title": "write returns a count of whole accepted characters", "statement": "TextWriter::write(bytes) returns Ok(n) only with n <= len, the first n bytes being valid UTF-8, and n = 0 only for empty input; invalid leading bytes give an error.", "quantifier": "all byte strings", "why_tests_cant": "Requires reasoning on all byte strings and the UTF-8 decoder.", "anchors": ["src/text_output.rs::write"]}
{"id": "C33", "title": "Writes compose: splitting a write at a line end does not matter", "statement": "Writing s ++ t with one write_str equals writing s then t when s ends with '\\n' (and the first write succeeds).", "quantifier": "all strings", "why_tests_cant": "Normalization context across writes.", "anchors": ["src/text_output.rs::write_str"]}
{"id": "C34", "title": "A written stream is Basic Text", "statement": "The concatenation of everything emitted by a TextWriter through any sequence of successful write_str calls is accepted by is_basic_text once closed.", "quantifier": "all sequences of writes", "why_tests_cant": "Writes are normalized separately; the seam is not tested.", "anchors": ["src/text_output.rs::write_str", "src/text_output.rs::write_buffer"]}
{"id": "C35", "title": "Text writes are equivalent to string writes", "statement": "For a valid TextStr without unassigned characters, write_text emits exactly what write_str emits and leaves the writer in the same state.", "quantifier": "all valid texts", "why_tests_cant": "Validated and unvalidated paths must agree on all inputs.", "anchors": ["src/text_output.rs::normal_write_text", "src/text_output.rs::crlf_write_text", "src/text_output.rs::normal_write_str"]}
{"id": "C36", "title": "copy_text copies everything", "statement": "copy_text from a reader to a writer transfers exactly the text the reader delivers and returns its length in bytes, and the writer can then be closed successfully.", "quantifier": "all streams and buffer sizes", "why_tests_cant": "Loop over an unbounded stream.", "anchors": ["src/copy.rs::copy_text", "src/copy.rs::copy_text_using_status"]}
{"id": "C37", "title": "Lines returned by text_lines are valid and lossless", "statement": "For valid Basic Text streams text_lines yields strings which, each followed by '\\n', concatenate to the stream; each is valid Basic Text.", "quantifier": "all valid streams", "why_tests_cant": "Unbounded streams; end-of-line checks.", "anchors": ["src/buf_read_text.rs::TextLines::next", "src/buf_read_text.rs::read_text_line"]}
{"id": "C38", "title": "UTF-8 encoding round-trips", "statement": "Decoding the bytes produced by the encoder gives back exactly the same scalar values, and the decoder accepts only canonical encodings. The lossy decoding puts one U+FFFD for each maximal ill-formed subpart.", "quantifier": "all scalar values and all byte strings", "why_tests_cant": "2^32 byte patterns; exhaustive reasoning.", "anchors": ["src/text_input.rs::read_with_status", "src/text_output.rs::write", "src/text_string.rs::from_text_vec"]}
{"id": "C39", "title": "A leading BOM is stripped, other BOMs become U+2060", "statement": "A BOM at the very start of a stream is not delivered, and any other BOM is delivered as U+2060.", "quantifier": "all streams and chunkings", "why_tests_cant": "Depends on which read delivers the first character.", "anchors": ["src/text_input.rs::process_raw_string", "internals/src/replace.rs::replace"]}
{"id": "C40", "title": "The quick substring test is sound", "statement": "When is_basic_text_substr_quick returns Some(b), b is the answer of is_basic_text_substr.", "quantifier": "all strings", "why_tests_cant": "Must hold for all strings.", "anchors": ["internals/src/text_utils.rs::is_basic_text_substr_quick"]}
{"id": "C41", "title": "Colour mode admits only SGR escape sequences", "statement": "With colour enabled, an ESC reaches the underlying stream only as the start of a complete ESC '[' [U+20-U+3F]* 'm' sequence; without it, never.", "quantifier": "all histories of writes", "why_tests_cant": "Sequences may be split over writes.", "anchors": ["src/text_output.rs::state_machine_char"]}
{"id": "C42", "title": "Abandoning a reader is safe", "statement": "abandon on a TextReader never panics.", "quantifier": "all reader states", "why_tests_cant": "Depends on whether unread text is queued.", "anchors": ["src/text_input.rs::abandon"]}
{"id": "C43", "title": "NEL and LSPS compatibility", "statement": "With NEL (LS/PS) compatibility the reader delivers a line end for each U+85 (U+2028, U+2029) outside escape sequences; without it a space.", "quantifier": "all streams", "why_tests_cant": "State machine over all inputs.", "anchors": ["src/text_input.rs::process_raw_string"]}
{"id": "C44", "title": "A duplexer never loses the write-side line discipline", "statement": "After reading a line from a TextDuplexer the write side considers itself at the start of a line, and closing succeeds only if all written text is newline-terminated or a line was read since.", "quantifier": "all interleavings of reads and writes", "why_tests_cant": "Interleavings are unbounded.", "anchors": ["src/text_duplexer.rs::read_with_status", "src/text_output.rs::newline"]}
{"id": "C45", "title": "A strict writer is the text-level writer", "statement": "Through any history a TextWriter without colours behaves as a writer that remembers only the text written, whether it is at the start (or just flushed), and whether it has failed: a write succeeds exactly when all its characters are allowed, its normalized form begins with a starter at the start, and the stream below accepts it; flush is refused after a non-ender, close unless the text is empty or ends with a line end; after a failed write or close everything fails.", "quantifier": "all histories of writes, flushes and closes, all failures of the stream below, CRLF mode or not", "why_tests_cant": "Histories are unbounded and the staging buffer and state machine carry state between calls.", "anchors": ["src/text_output.rs::write_str", "src/text_output.rs::write_text_substr", "src/text_output.rs::flush", "src/text_output.rs::close"]}
{"id": "C46", "title": "split_at on TextStr is checked", "statement": "split_at(mid) on a TextStr returns two parts exactly when mid is a character boundary and both parts are valid Basic Text, otherwise it panics; for a valid string this is exactly when the first part ends with an ender and the second starts with a starter, and for a TextSubstr exactly when mid is a boundary.", "quantifier": "all strings and positions", "why_tests_cant": "Needs validity of both halves for every string.", "anchors": ["src/text_string.rs::split_at", "src/text_substring.rs::split_at"]}
{"id": "C47", "title": "TextSubstring accepts what TextSubstr accepts", "statement": "If TextSubstr::from_text accepts a string so does TextSubstring::from_text.", "quantifier": "all strings", "why_tests_cant": "Two independent validations.", "anchors": ["src/text_substring.rs::from_text"]}
{"id": "C48", "title": "read_to_text_string leaves a valid string", "statement": "read_to_text_string appends to a TextString; if it succeeds on a valid string the result is valid.", "quantifier": "all buffers and streams", "why_tests_cant": "Depends on both the old contents and the text read.", "anchors": ["src/text_string.rs::default_read_to_text_string"]}
{"id": "C49", "title": "An exact read delivers exactly the number of bytes asked for", "statement": "read_exact_text_substr fills the whole buffer whenever the stream has enough text, and reports UnexpectedEof otherwise; the variants that also return a status succeed in the same cases with the same text.", "quantifier": "all streams, chunkings and buffer sizes", "why_tests_cant": "The last call is made with a buffer of any small size, after any history.", "anchors": ["src/text_input.rs::read_exact_str", "src/text_input.rs::read_exact_str_using_status", "src/text_input.rs::read_exact_text_substr_using_status", "src/read_text.rs::default_read_exact_text_substr"]}
{"id": "C50", "title": "Lossy lines are valid single lines that keep valid input", "statement": "Each line yielded by text_lines_lossy is valid Basic Text without a line end, and a stream that is already valid text is split into exactly its lines.", "quantifier": "all streams", "why_tests_cant": "Each line is converted separately, for every content.", "anchors": ["src/buf_read_text.rs::TextLinesLossy::next"]}
{"id": "C51", "title": "Writing through a duplexer does not disturb reading", "statement": "What the read side of a TextDuplexer delivers, call by call, is what a plain reader delivers from the same stream with the same buffers, whatever is written, flushed or abandoned in between.", "quantifier": "all interleavings of reads and writes", "why_tests_cant": "Interleavings are unbounded.", "anchors": ["src/text_duplexer.rs::read_with_status", "src/text_duplexer.rs::write"]}
{"id": "C52", "title": "What a closed duplexer has sent is valid text", "statement": "If a TextDuplexer is closed successfully, what it sent is valid Basic Text, with only complete colour escapes.", "quantifier": "all interleavings of reads and writes", "why_tests_cant": "Reading resets the state of the write side at any point.", "anchors": ["src/text_duplexer.rs::read_with_status", "src/text_output.rs::newline"]}
{"id": "C53", "title": "Reading into a TextSubstr leaves it a valid TextSubstr", "statement": "After read_text_substr the part read is valid, and the caller's buffer as a whole still is; the provided exact read never panics.", "quantifier": "all streams and all valid buffers", "why_tests_cant": "Depends on where the text read ends inside the old contents.", "anchors": ["src/read_text.rs::default_read_exact_text_substr", "src/text_input.rs::read_text_substr"]}
{"id": "C54", "title": "The repository's fuzz target never reports a failure", "statement": "For every byte string, none of the assertions of the repository's fuzz target fails: text that has been read is accepted by every type and by the writer, unchanged.", "quantifier": "all byte strings and all ways they are read", "why_tests_cant": "A fuzzer samples inputs.", "anchors": ["fuzz/fuzz_targets/text.rs"]}
{"id": "C55", "title": "Arbitrary values are valid", "statement": "The Arbitrary implementations of the string types only make valid Basic Text, and never loop or panic.", "quantifier": "all sources of random bytes", "why_tests_cant": "The source of bytes is arbitrary.", "anchors": ["src/text_string.rs::Arbitrary for &TextStr", "src/text_substring.rs::Arbitrary for &TextSubstr"]}
{"id": "C56", "title": "Equivalent texts become equal", "statement": "Two ordinary texts that are canonically equivalent are converted to the same text, which is their Unicode NFC, by from_text and by reading.", "quantifier": "all pairs of ordinary texts", "why_tests_cant": "Equivalence classes are unbounded.", "anchors": ["src/text_string.rs::from_text", "src/text_input.rs::read_with_status"]}
{"id": "C57", "title": "Reading keeps exactly Basic Text streams", "statement": "A stream is delivered unchanged if and only if it is valid line-terminated Basic Text in which every unassigned character is preceded by U+34F.", "quantifier": "all streams", "why_tests_cant": "Both directions range over all texts.", "anchors": ["src/text_input.rs::read_with_status", "docs/BasicText.md"]}
{"id": "C58", "title": "Writer and TextString accept the same texts", "statement": "A text written with one write_str to a new writer and closed is accepted if and only if TextString::from_text accepts it and it ends a line, and the writer sends exactly the text from_text gives; the same for bytes.", "quantifier": "all texts and all byte strings", "why_tests_cant": "Two separate implementations are compared on every input.", "anchors": ["src/text_output.rs::write_str", "src/text_string.rs::from_text"]}
{"id": "C59", "title": "A text written in pieces comes out whole", "statement": "If a valid text is cut anywhere into non-empty pieces, and each piece is written with write_text, the sent text is the text.", "quantifier": "all valid texts and all cuts", "why_tests_cant": "Cuts of a text are unbounded in number.", "anchors": ["src/text_output.rs::write_text_substr"]}
{"id": "C60", "title": "What a writer stored is read back", "statement": "Text of assigned characters written by any history of whole-line writes, with or without a byte order mark and with either line end, is delivered unchanged by a reader with any options and any buffers.", "quantifier": "all histories, modes, streams and buffers", "why_tests_cant": "Composes an arbitrary writer history with an arbitrary reader history.", "anchors": ["src/text_output.rs::with_crlf_compatibility", "src/text_output.rs::with_bom_compatibility", "src/text_input.rs::read_with_status"]}
{"id": "C61", "title": "Text literals compile exactly for valid texts", "statement": "text! and text_substr! accept a string literal if and only if it is a valid TextStr or TextSubstr, and give that text.", "quantifier": "all literals", "why_tests_cant": "All strings.", "anchors": ["literals/src/lib.rs"]}
{"id": "C62", "title": "Texts are in the documented Basic Text form", "statement": "is_basic_text accepts a string if and only if it is a Basic Text string as the documentation defines it: Stream-Safe NFC, not starting with a non-starter (combining class not 0, or grapheme cluster break ZWJ, SpacingMark or Extend other than U+34F), not ending with a non-ender (ZWJ or Prepend), unassigned scalar values isolated, and none of the table's sequences. TextReader and the strict conversions produce only such texts.", "quantifier": "all strings, all streams and all read schedules", "why_tests_cant": "All 1114112 scalar values at each end of every string, and every stream.", "anchors": ["src/text_utils.rs::is_basic_text", "src/text_utils.rs::is_basic_text_start", "src/text_utils.rs::is_basic_text_end", "src/text_input.rs::read_with_status", "src/text_string.rs::from_text", "docs/BasicText.md"]}
{"id": "C63", "title": "Refused characters are reported with the documented errors", "statement": "When writing or checking refuses a character, the error is the one of the Error column of the documentation's table for a character of the text, and there always is an error to report.", "quantifier": "all scalar values, all writers and all strings", "why_tests_cant": "All scalar values; the error travels through a shared cell past a normalizing iterator that reads ahead.", "anchors": ["internals/src/check.rs::check_basic_text_char", "internals/src/check.rs::BasicTextError", "internals/src/categorize.rs::Categorize", "src/text_output.rs::state_machine", "docs/BasicText.md"]}
{"id": "C64", "title": "Texts are ordered by their characters", "statement": "Comparing texts of the string types, with each other or with str, is lexicographic comparison by code point: a total order in which texts are equal if and only if they have the same characters; valid texts are equal if and only if they are canonically equivalent.", "quantifier": "all pairs and triples of texts", "why_tests_cant": "All pairs of texts; the code compares UTF-8 bytes.", "anchors": ["src/text_string.rs::PartialOrd", "src/text_substring.rs::PartialOrd", "src/partial_eq.rs"]}
{"id": "C65", "title": "Search finds exactly the occurrences", "statement": "find, rfind, contains, starts_with, ends_with and match_indices, with a string, a char, a slice of chars or a closure as the pattern, report the first, last, some, leading, trailing and the leftmost non-overlapping occurrences of the pattern as characters, and matches gives these; slicing the text at the reported positions never panics and gives valid substrings.", "quantifier": "all texts and patterns", "why_tests_cant": "A byte match inside a character would only show for particular pairs of texts.", "anchors": ["src/text_string.rs::find", "src/text_string.rs::rfind", "src/text_string.rs::contains", "src/text_string.rs::match_indices", "src/text_substring.rs::find"]}
{"id": "C66", "title": "lines gives the lines, as text string slices", "statement": "lines of a valid text gives lines without newlines that joined with newlines are the text again; each is a valid text string slice.", "quantifier": "all valid texts", "why_tests_cant": "All texts.", "anchors": ["src/text_string.rs::lines", "src/text_substring.rs::lines"]}
{"id": "C67", "title": "Bytes written with write_all are written whole", "statement": "write_all writes valid UTF-8 as the string it encodes; other bytes up to the first error, and then fails. write_all_vectored writes its buffers like their concatenation, or one after the other. Both always end, without a WriteZero error.", "quantifier": "all writers, byte strings and lists of buffers", "why_tests_cant": "All byte strings and all ways to cut them.", "anchors": ["src/text_output.rs::write", "src/text_output.rs::write_vectored", "src/text_output.rs::write_all_vectored"]}
{"id": "C68", "title": "std::io::copy copies text", "statement": "std::io::copy from a TextReader to a TextWriter ends without error, reports the number of bytes read, sends exactly the text the reader delivers, and the writer can then be closed.", "quantifier": "all streams without failures, all buffer sizes and options", "why_tests_cant": "Depends on where the copy buffer ends in the text.", "anchors": ["src/text_input.rs::read", "src/text_output.rs::write", "examples/text-cat.rs"]}
{"id": "C69", "title": "Texts can be concatenated before or after reading", "statement": "If two inputs are concatenated, the reader delivers for the result the concatenation of what it delivers for each, whatever the reads, when the first one ends with a newline.", "quantifier": "all pairs of streams, all cuts into reads, both compatibility options", "why_tests_cant": "All pairs of texts and all cuts; escape sequences can span the joint.", "anchors": ["src/text_input.rs::process_raw_text", "src/text_input.rs::queue_next", "docs/BasicText.md"]}
{"id": "C70", "title": "Pushes change the text only where text is cut", "statement": "A push ends an open sequence and guards the ends of the text on each side as if they were texts of their own; pushes after newlines have no effect, and the cuts between reads have one exactly where a read ends between U+34F and an unassigned character after it.", "quantifier": "all streams with any pushes, failures and cuts, both compatibility options", "why_tests_cant": "Any number of pushes anywhere in any text.", "anchors": ["src/text_input.rs::read_str_with_status", "src/text_input.rs::process_raw_text"]}
{"id": "C71", "title": "ASCII text passes unchanged", "statement": "Text of printable ASCII characters, tabs and line feeds is valid, is converted to itself, is delivered unchanged by every reader (plus a final line end if missing), and is accepted by every writer in any pieces with flushes anywhere; ASCII text with other control characters is not valid.", "quantifier": "all ASCII strings; all cuts into reads with pushes and failures, both options; all sequences of writes and flushes", "why_tests_cant": "Any length and any cut or sequence of operations.", "anchors": ["src/text_input.rs::read_str_with_status", "src/text_output.rs::write_str", "src/text_string.rs::TextString::from_text"]}
{"id": "C72", "title": "A reader over a reader delivers the same text", "statement": "Reading the text that a reader delivered through a second reader gives it unchanged, whatever the options and the cuts.", "quantifier": "all streams, buffer sizes and cuts, both options of both readers", "why_tests_cant": "The two readers' buffers and cuts interact in unboundedly many ways.", "anchors": ["src/text_input.rs::read_str_with_status", "src/text_reader.rs::TextReader"]}
{"id": "C73", "title": "A failed conversion gives the bytes back", "statement": "When converting a vector of bytes to a TextString fails, the error carries exactly the bytes that were given and the position of the error.", "quantifier": "all byte vectors", "why_tests_cant": "All byte sequences, valid UTF-8 or not.", "anchors": ["src/text_string.rs::TextString::from_text_vec", "src/text_string.rs::FromTextError::as_bytes", "src/text_string.rs::FromTextError::into_bytes"]}
{"id": "C74", "title": "Views of a text are exact", "statement": "char_indices, encode_utf16, is_ascii, eq_ignore_ascii_case and rmatch_indices show the text as it is: every character once with its byte position, well-formed UTF-16 of the same text, equality up to the case of ASCII letters, the matches from the right.", "quantifier": "all texts and patterns", "why_tests_cant": "All strings over all characters.", "anchors": ["src/text_string.rs::TextStr::char_indices", "src/text_string.rs::TextStr::encode_utf16", "src/text_string.rs::TextStr::is_ascii", "src/text_string.rs::TextStr::eq_ignore_ascii_case", "src/text_string.rs::TextStr::rmatch_indices"]}
{"id": "C75", "title": "Escaped text is valid and can be read back", "statement": "The output of escape_unicode and escape_default is printable ASCII and so valid Basic Text, has for each character the escape documented for it, and stands for exactly the text that was escaped.", "quantifier": "all strings", "why_tests_cant": "All strings over all characters.", "anchors": ["src/text_string.rs::TextStr::escape_default", "src/text_string.rs::TextStr::escape_unicode"]}
{"id": "C76", "title": "Complete lines are delivered promptly", "statement": "Once a read returns with room left in its buffer (at least four bytes), every complete line that was read from the stream has been delivered: at most the beginning of one line is held back. (A line that ends with a carriage return is complete once the next character is read, because a line feed may follow.)", "quantifier": "all streams, options, pushes, failures and buffer sizes", "why_tests_cant": "Interactive use depends on it at every point of every stream; a test stops at the points it chose.", "anchors": ["src/text_input.rs::read_with_status", "src/text_input.rs::queue_next"]}
{"id": "C77", "title": "A writer over a writer changes nothing", "statement": "Wrapping a text writer in a second text writer is transparent, except that texts of type TextSubstr reach the inner writer as strings: each operation succeeds or fails exactly as on the inner writer alone, the same text reaches the stream, and the stream is abandoned in the same cases.", "quantifier": "all histories of writes, flushes, closes and abandons, all behaviours of the stream below, CRLF output or not", "why_tests_cant": "Conversion, starter checks and failure states of two layers interact over whole histories.", "anchors": ["src/text_output.rs::write_str", "src/text_output.rs::write_buffer", "src/text_output.rs::prepare_failure", "src/text_output.rs::flush", "src/text_output.rs::close"]}
{"id": "C78", "title": "Conversion makes text at most four times longer", "statement": "The text a reader delivers is at most four times as long in bytes as what it took from the stream, plus one byte; a writer passes on at most four times the bytes it was given; the conversions of strings obey the same bound. So a hostile input cannot make the output grow out of proportion.", "quantifier": "all streams (with malformed bytes, pushes and failures), all buffer sizes and options; all histories of writer operations; all strings", "why_tests_cant": "A bound over every character, every replacement and every place where a U+34F is inserted; a test shows growth only for its own inputs.", "anchors": ["src/text_input.rs::read_str_with_status", "src/text_input.rs::process_raw_string", "src/text_output.rs::write_str", "src/text_string.rs::TextString::from_text", "src/text_string.rs::TextString::from_text_lossy"]}
{"id": "C79", "title": "The example filters normalize whole streams", "statement": "nfc-cat writes the normalization form C of its whole input and ssnfc-cat the Stream-Safe form, although they work line by line; line ends become LF and the last line is terminated; filtering the output again changes nothing. text-cat ends on every stream and writes exactly the text a reader delivers, which is valid Basic Text.", "quantifier": "all texts; for text-cat all streams and options and how the bytes arrive", "why_tests_cant": "Working line by line must agree with normalizing the whole for every text, and the quick path with the slow one.", "anchors": ["examples/nfc-cat.rs::main", "examples/ssnfc-cat.rs::main", "examples/text-cat.rs::main"]}
{"id": "C80", "title": "Compatibility ideographs can be told from the converted text", "statement": "Reading replaces each CJK compatibility ideograph by its standardized variation sequence, which plain NFC would not, so that nothing is lost: from the delivered text one can tell which compatibility ideographs the stream had, in order, and two streams that differ in one are never delivered as the same text (streams that do not use these variation selectors themselves).", "quantifier": "all streams, cuts, pushes, options; all 1002 ideographs", "why_tests_cant": "Normalization must keep every sequence apart from its neighbours in every text and at every cut.", "anchors": ["src/text_input.rs::process_raw_string", "docs/NFC.md"]}
{"id": "C81", "title": "Colours do not disturb the text", "statement": "Text written with colour sequences in it is treated like the same text without them: the writer sends the sequences unchanged between the converted pieces of text, refuses the same characters, and without the sequences what a closed writer has sent is valid text, which is also what a reader delivers. Text without ESC is written exactly as with colours switched off.", "quantifier": "all histories of writes of text with complete colour sequences, text writes, flushes, closes and abandons, all behaviours of the stream below, CRLF output or not", "why_tests_cant": "The sequences go through normalization and the starter checks together with the text, at any place in any text.", "anchors": ["src/text_output.rs::state_machine_char", "src/text_output.rs::state_machine", "src/text_output.rs::write_buffer", "src/text_output.rs::check_nl", "src/text_output.rs::flush", "src/text_input.rs::process_raw_string"]}
{"id": "C82", "title": "Precomposed text passes unchanged", "statement": "Text of precomposed characters (accented letters, kana, ideographs, Hangul syllables, pictographs, characters for private use: starters that normalization leaves alone and that Basic Text allows everywhere) is valid Basic Text, is converted to itself, is delivered by a reader unchanged but for a missing final line end, and is sent by a writer unchanged.", "quantifier": "all such texts; all streams, cuts, pushes, failures and options; all histories of writes and flushes", "why_tests_cant": "Some 230,000 characters in every combination and at every cut.", "anchors": ["src/text_input.rs::read_str_with_status", "src/text_output.rs::write_str", "src/text_string.rs::TextString::from_text", "internals/src/isolate_unassigned.rs::IsolateUnassigned"]}
{"id": "C83", "title": "Text values stay valid through any history of operations", "statement": "Every value of the types TextString and TextStr that a program makes without unsafe code is valid Basic Text, and every value of the types TextSubstring and TextSubstr is a valid substring: whatever sequence of conversions, reads, line iterators, concatenations, repetitions, trims, splits and slices produced it.", "quantifier": "all programs over the operations of the string types, of any length, on all texts", "why_tests_cant": "An invalid value may need several operations to come about, and is only noticed much later.", "anchors": ["src/text_string.rs::TextString", "src/text_string.rs::TextStr", "src/text_substring.rs::TextSubstring", "src/text_substring.rs::TextSubstr", "src/buf_read_text.rs::BufReadText"]}
{"id": "C84", "title": "Writing a stream is the documented strict conversion", "statement": "A stream written to a TextWriter in any pieces cut after line ends, with any of the byte order mark and CRLF options, and closed, is accepted exactly if the documented strict conversion of streams accepts it, and what is sent is the documented result: byte order mark, line ends replaced, unassigned characters isolated, Stream-Safe, NFC.", "quantifier": "all streams and all their cuts into non-empty pieces after line ends, both options", "why_tests_cant": "The documentation converts the whole stream at once, the code piece by piece.", "anchors": ["src/text_output.rs::write_str", "src/text_output.rs::with_bom_compatibility", "src/text_output.rs::with_crlf_compatibility", "docs/BasicText.md"]}
{"id": "C85", "title": "Reading a line appends it to a TextString that stays valid", "statement": "read_text_line and read_text_line_lossy append to the caller's TextString the bytes up to and including the next 0xA, return their number, and leave the TextString valid Basic Text whether they succeed or fail; how the source delivers its bytes does not matter.", "quantifier": "all sources, cut into pieces in any way and failing at any point, and all valid TextStrings", "why_tests_cant": "Depends on where an I/O error cuts a line and on what the old contents join with.", "anchors": ["src/buf_read_text.rs: BufReadText::read_text_line, BufReadText::read_text_line_lossy, TextLines, TextLinesLossy"]}
{"id": "C86", "title": "A stream got back from close_into_inner is complete", "statement": "If close_into_inner succeeds, the stream it returns has received everything that was written, and that is empty or ends with a newline.", "quantifier": "all histories of write/flush/close/abandon, all failures of the stream below", "why_tests_cant": "Histories and failures are unbounded.", "anchors": ["src/text_output.rs::close_into_inner", "src/text_output.rs::check_nl", "src/text_writer.rs::close_into_inner", "src/text_duplexer.rs::close_into_inner"]}
{"id": "C87", "title": "A reader accepts the buffers it asks for", "statement": "A read into a buffer of at least minimum_buffer_size or suggested_buffer_size bytes is never refused as too small, whatever the stream below asks for, and copy_text always uses such a buffer; a read that is refused has no effect.", "quantifier": "all readers, states, buffer sizes and sizes asked for by the streams below", "why_tests_cant": "All combinations of sizes.", "anchors": ["src/text_input.rs::minimum_buffer_size", "src/text_input.rs::suggested_buffer_size", "src/text_input.rs::read_with_status", "src/copy.rs::copy_text", "src/text_duplexer.rs::suggested_buffer_size"]}
{"id": "C88", "title": "Isolation protects text from later versions of Unicode", "statement": "Text in which every unassigned scalar value is isolated (preceded and followed by U+34F) stays in Normalization Form C and Stream-Safe under every later version of Unicode that keeps the stability policies (nothing changes about characters assigned now), unless a newly assigned character is itself changed by that version's normalization; in general each newly assigned character changes only for itself. What a reader delivers up to the end of its stream is protected in this way exactly if it is isolated, and it is if the stream has no U+34F of its own beside an unassigned value; what the strict conversion gives is protected exactly if each unassigned value is followed by U+34F or the end.", "quantifier": "all texts, conversions and read sessions, and all tables of combining classes, decompositions and compositions that agree with the present ones on assigned characters", "why_tests_cant": "Later versions of Unicode do not exist yet, so no test can run against them.", "anchors": ["internals/src/isolate_unassigned.rs: isolate_unassigned", "internals/src/pre_normalization.rs", "docs/Background.md", "src/text_input.rs"]}
{"id": "C89", "title": "Text of later versions of Unicode can be read and written", "statement": "Text that is Stream-Safe NFC in a later version of Unicode and starts, ends and avoids sequences as this version asks is accepted by the strict conversion and by a writer, and a reader delivers it, in whatever pieces it is written or arrives; they add nothing but U+34F, where they isolate scalar values that this version does not know, and at pushes.", "quantifier": "all texts and streams, and all tables of a later version that agree with the present ones on assigned characters and whose Normalization Form C is closed under taking parts", "why_tests_cant": "Later versions of Unicode do not exist yet, so no test can run against them.", "anchors": ["internals/src/isolate_unassigned.rs: isolate_unassigned", "docs/Background.md", "src/text_input.rs", "src/text_output.rs", "src/text_string.rs"]}
{"id": "C90", "title": "A reader reads its stream only when it has to", "statement": "A call of a reader reads the underlying stream at most once, and only after everything it already has, except the beginning of one line, has been delivered. After a call that left room in its buffer the next call does read the stream, and in any session all calls read it except at most one for every 133 delivered bytes.", "quantifier": "all streams, options, histories of calls and buffer sizes", "why_tests_cant": "Blocking behaviour at every point of every stream: a superfluous read may wait for input for ever, which shows only on streams that stay open at that point.", "anchors": ["src/text_input.rs::read_with_status", "src/text_input.rs::queue_next", "src/text_reader.rs::read_with_status"]}
{"id": "C91", "title": "Normalization is that of the Unicode Standard", "statement": "The Normalization Form C and the Stream-Safe form that conversions produce and checks ask for are those defined by the Unicode Standard (decomposition, canonical ordering, composition with primary composites; the Stream-Safe Text Format and Process of UAX #15), computed from its character data: the result exists, is unique, and is the same for canonically equivalent strings.", "quantifier": "all strings of characters", "why_tests_cant": "The standard's own test file has some 19,000 lines; sequences of combining characters are unbounded.", "anchors": ["internals/src/text_utils.rs::is_basic_text_substr", "src/text_input.rs::queue_next", "src/text_output.rs::state_machine_slow_path", "docs/BasicText.md"]}
{"id": "C92", "title": "Universal newlines", "statement": "A stream whose line ends are LF, CR LF or CR, in any mixture, is read as the text of the stream with LF for each of them, however the line ends are cut into chunks; so a text saved with the line ends of one system reads the same as with those of another. The lossy conversion of a string does the same.", "quantifier": "all streams of characters, options, chunkings and buffer sizes; any mixture of the three line ends", "why_tests_cant": "Every mixture of line ends, next to every escape sequence, cut at every place.", "anchors": ["docs/Background.md", "src/text_input.rs::process_raw_string", "src/text_input.rs::read"]}
{"id": "C93", "title": "Excluded characters do not occur in the bytes; texts are POSIX text files", "statement": "Nowhere in the UTF-8 bytes of a text, delivered by reads or sent by a writer, do the bytes of a character that texts may not hold occur, at any offset: of the bytes below 0x20 and 0x7F only tab and line feed (and CR of CR LF when the writer makes CR LF). Control codes, line and paragraph separators, explicit directional formatting characters, noncharacters, annotation characters and the byte order mark are such characters. What is read up to the end of a stream, or written and closed, is a POSIX text file: lines ended by 0xA without NUL bytes, whose byte lines are the lines of the text.", "quantifier": "all streams, buffer sizes and reads; all histories of writes and sink failures; all characters", "why_tests_cant": "Occurrences can lie across any two characters, reads or writes, at any byte offset.", "anchors": ["docs/Background.md", "docs/BasicText.md", "src/text_input.rs::read", "src/text_output.rs::write_str", "src/text_output.rs::close_into_inner"]}
{"id": "C94", "title": "Converting takes bounded memory", "statement": "However long the text is, and however many combining characters follow one another in it, the chain of iterators that converts the text of readers and writers holds at most a fixed number of characters, whenever the next character is asked for.", "quantifier": "all strings of characters, with and without the check of characters, after every number of characters delivered", "why_tests_cant": "A text can have any number of combining characters in a row, and each of five iterators has a buffer of its own.", "anchors": ["internals/src/isolate_unassigned.rs::IsolateUnassigned", "internals/src/categorize.rs::Categorize", "src/text_input.rs::process_raw_string", "src/text_output.rs::state_machine_slow_path", "docs/BasicText.md"]}
{"id": "C95", "title": "Readers can be buffered", "statement": "A std::io::BufReader with a buffer of at least 136 bytes around a reader gives exactly the bytes of the reader's text, in order and without loss, however few or many bytes are asked for, also when reads of the stream fail in between; no request is refused, Ok(0) means that all the text was given, and it comes after a bounded number of requests. The lines it gives through text_lines are those of the whole text, with an error for each failed read; a line that a failure cuts is left out; none panics. The same for text_lines_lossy, which gives one valid string for each line and, without failures, no error.", "quantifier": "all streams (any chunks, pushes, failures), all capacities from 136, all sequences of requested sizes, all compatibility options", "why_tests_cant": "The buffer splits characters and lines at arbitrary places, depending on how the stream is chunked and what is asked for.", "anchors": ["src/text_reader.rs::TextReader", "src/text_input.rs::read", "src/buf_read_text.rs::TextLines"]}
{"id": "C96", "title": "Writers can be buffered", "statement": "A text written through a std::io::BufWriter around a writer, in pieces that end with line ends, and closed, is accepted and sent exactly as documented for the strict conversion, whatever the capacity of the buffer. Through a std::io::LineWriter, this holds for pieces cut anywhere, as long as the lines fit in the buffer. Nothing gets stuck, whatever bytes are written.", "quantifier": "all texts, all ways of cutting them, all capacities, with and without a byte order mark and CRLF compatibility", "why_tests_cant": "When the buffer is passed on depends on the lengths of the pieces written and on the capacity; a boundary inside a line changes what the writer sends.", "anchors": ["src/text_writer.rs::TextWriter", "src/text_output.rs::write", "src/text_output.rs::write_str"]}
{"id": "C97", "title": "Readers work with std's adaptors", "statement": "Read::chain of two readers gives the text of the first and then that of the second, and Ok(0) only at the end of both. Read::take gives the beginning of the text, never more than the limit, and all of a text that is not longer than the limit. Read::bytes gives the bytes of the text.", "quantifier": "all streams (any chunks, pushes, failures), all limits, all sequences of requested sizes of at least 136 bytes, all compatibility options", "why_tests_cant": "The limit of take may be met anywhere in a read, and what a reader does with the small buffers that take and bytes pass on depends on the reader's minimum size.", "anchors": ["src/text_reader.rs::TextReader", "src/text_input.rs::read", "internals/src/unicode.rs::NORMALIZATION_BUFFER_SIZE"]}
{"id": "C98", "title": "write! and writeln! on a TextWriter", "statement": "Formatting with write! or writeln! onto a TextWriter writes the literal parts and what the arguments print one after another and stops at the first error. It is accepted exactly if the formatted text is, however it is cut into pieces, and what is sent is the formatted text converted as a whole.", "quantifier": "all lists of pieces that a formatted write can produce, byte order mark and CRLF options", "why_tests_cant": "Where the formatted text is cut depends on the arguments' Display; each piece is converted on its own.", "anchors": ["src/text_writer.rs::write", "src/text_output.rs::write", "src/lib.rs"]}
{"id": "C99", "title": "Reading all the text at once", "statement": "read_to_end and read_to_string on a reader return for every stream. They return an error exactly if a read of the stream fails before its end; otherwise they append the whole text, the same that any sequence of reads delivers, which is Basic Text, and return its length. A String stays valid UTF-8. read_to_text_string succeeds and leaves a valid TextString behind.", "quantifier": "all streams (any chunks, pushes, failures), all buffer contents, all sizes the stream below asks for or suggests, all compatibility options", "why_tests_cant": "The number and sizes of the reads depend on how the stream is chunked, and the read_to_string writes into a String without a check.", "anchors": ["src/text_reader.rs::read_to_end", "src/text_input.rs::read_to_string", "src/read_text.rs::read_to_text_string", "src/text_string.rs::default_read_to_text_string", "src/lib.rs"]}
{"id": "C100", "title": "Copying through a BufReader and a LineWriter", "statement": "std::io::copy from a BufReader over a TextReader to a LineWriter over a TextWriter ends for every stream. It reports the number of bytes read, the writer can be closed, and exactly the text that the stream gives is sent, whatever the sizes of the buffers, even where a piece ends within a character.", "quantifier": "all streams without failures, all sizes of the buffers and pieces, all options", "why_tests_cant": "Depends on where the pieces end in the text, in its characters and in the buffers.", "anchors": ["src/text_reader.rs::read", "src/text_writer.rs::write", "src/text_input.rs::read", "src/text_output.rs::write"]}
{"id": "C101", "title": "Reading all the text through a duplexer", "statement": "After any reads and writes through a duplexer, read_to_end and read_to_string return; they fail exactly if what is left of the stream fails before its end, and otherwise append the rest of the text: together with what was read before, it is the text a reader delivers from the stream. Nothing is written; the writing side is as before, except that it counts as being at the start of a line if any text was read.", "quantifier": "all streams, all histories of reads and writes (with any failures) before the call, all buffer contents and sizes suggested below, all options", "why_tests_cant": "The state left behind by the earlier reads and writes, and the chunking of the rest of the stream, are unbounded.", "anchors": ["src/text_duplexer.rs::read_to_end", "src/text_duplexer.rs::read_to_string", "src/text_duplexer.rs::read_with_status", "src/text_output.rs::newline"]}
{"id": "C102", "title": "Copying from one duplexer to another", "statement": "Copying the text that is left in one TextDuplexer to another one, after any reads and writes on both, ends for every stream. It sends exactly that text and reports its length, and the receiving duplexer can then be closed; its unread text and what the first duplexer has written are left alone. It makes no difference to the discipline of line ends if nothing is left.", "quantifier": "all streams, all earlier reads and writes on both duplexers, all options and buffer sizes", "why_tests_cant": "Depends on where the earlier reads stopped in the text and on what the receiving side has written or flushed.", "anchors": ["src/copy.rs::copy_text", "src/copy.rs::copy_text_using_status", "src/text_duplexer.rs::read_with_status", "src/text_duplexer.rs::write_text_substr"]}
{"id": "C103", "title": "A conversation between two duplexers", "statement": "Two TextDuplexers are connected to each other; what one sends reaches the other in order, in pieces of any size and with any delay, while both read and write in any order. What each end reads is the beginning of the text the other has written, and all of it (with its last line ended) once the end of the stream is read. As soon as all that was sent has arrived and a read leaves room in its buffer, every complete line has been delivered. This holds without pushes, and with pushes after line ends when every line begins with a starter.", "quantifier": "all interleavings of reads and writes at both ends, all ways of cutting and delaying what is sent, all options and buffer sizes, all texts of assigned characters", "why_tests_cant": "A test tries a few orders and timings; deadlocks and lost or repeated text depend on how the operations of both ends interleave with the arrival of each piece.", "anchors": ["src/text_duplexer.rs::read_with_status", "src/text_duplexer.rs::write", "src/text_duplexer.rs::flush", "src/text_duplexer.rs::close", "src/text_input.rs::read_text_substr"]}
{"id": "C104", "title": "Text passes through any chain of copies", "statement": "A stream is copied to a second one, that one to a third, and so on, each time from a TextReader to a TextWriter with copy_text, copy_text_using_status or std::io::copy. Only the first copy can change anything: the last stream holds exactly the text that the first reader read, whatever the options of the readers, the buffers, and the ways the streams arrive; a byte order mark and CR LF are there only if the last writer writes them.", "quantifier": "all numbers of hops, all contents of the first stream, all options, buffer sizes and cuts of each stream into reads, any mixture of the three ways of copying", "why_tests_cant": "A test tries a fixed chain on a fixed text; that nothing is added or lost after the first conversion must hold for chains of every length and for every way the streams between are cut.", "anchors": ["src/copy.rs::copy_text", "src/copy.rs::copy_text_using_status", "src/text_reader.rs::TextReader", "src/text_writer.rs::TextWriter"]}
{"id": "C105", "title": "Text shown for debugging is faithful", "statement": "escape_debug of a text, and what {:?} shows for it between quotes, stand for exactly that text, whatever the tables of the standard library are; where the quoted text ends can be told whatever follows. For a valid text they are on one line, without control characters, and are themselves valid Basic Text.", "quantifier": "all texts and substrings, all tables of printable and grapheme-extending characters", "why_tests_cant": "Escapes and the characters around them meet in every combination, over all characters and versions of the tables.", "anchors": ["src/text_string.rs::TextStr::escape_debug", "src/text_substring.rs::TextSubstr::escape_debug", "src/text_string.rs::TextStr", "src/text_string.rs::TextString"]}
{"id": "C106", "title": "Formatted text is padded and cut by characters, and stays Basic Text", "statement": "A text shown with {} and a width, precision, alignment and fill is the text, cut after as many characters as the precision says, with the fill before or after it up to the width. For a valid text the result is a valid text, and writing it to a TextWriter sends exactly that.", "quantifier": "all texts and substrings, all widths, precisions, alignments and fill characters", "why_tests_cant": "Widths, cuts and fills meet any characters at the two ends of the text.", "anchors": ["src/text_string.rs::TextStr", "src/text_substring.rs::TextSubstr"]}
{"id": "C107", "title": "A stream cut off by a crash is read up to where it was cut", "statement": "If the stream under a TextWriter or TextDuplexer fails at any call, or only some of the bytes it took are stored, reading what is stored gives a beginning of the text that was written, which contains everything that was stored whole. Only its end is repaired: with a line end, with U+34F before it where the text may not end, or with U+FFFD for half a character. The result is valid text. The same holds of text written with colours, also when a colour sequence is cut off.", "quantifier": "all operations on the writer or duplexer, with and without colours, all failures of the stream below, all cuts between two bytes, with and without a byte order mark and CRLF; texts of assigned characters, and any valid text read at once", "why_tests_cant": "A crash can happen after any byte of any text.", "anchors": ["src/text_writer.rs::TextWriter", "src/text_duplexer.rs::TextDuplexer", "src/text_output.rs::TextOutput", "src/text_reader.rs::TextReader", "src/text_input.rs::TextInput"]}
{"id": "C108", "title": "A damaged line does not change the other lines", "statement": "If one line of a stored text is replaced by any bytes, a TextReader gives the lines before it and after it unchanged, and for the damaged line what these bytes read as alone. The same holds for text written behind text that was cut off: all complete lines before the cut, and all lines after the first one behind it, are read as they were. Reading may also start at any byte of the stored text: the lines after the first line end are read as they were. Bytes that bring in an escape sequence which is not finished before the line end can swallow the lines that follow; others do not. The lines may have colours; then what is written behind a cut must begin with a line end or a colour, if the cut is in a colour sequence.", "quantifier": "all texts of complete lines, all bytes for the damaged line that leave no escape sequence open at its end, all cuts between two bytes, with and without a byte order mark and CRLF; texts of assigned characters, and any valid text read at once", "why_tests_cant": "The damage may be any bytes, at any place.", "anchors": ["src/text_reader.rs::TextReader", "src/text_input.rs::TextInput"]}
{"id": "C109", "title": "Lines of several writers over one stream are not mixed up", "statement": "If several TextWriters write to the same stream and each call writes complete lines, then for every order of the calls the stream gets the texts of the calls that succeed, one after the other; together they are valid text, and a TextReader gives them back. A call that the stream refuses ends that writer only. If the stream takes a part of a text before it fails, only the lines up to the end of the first line written next are damaged. The same holds for writers with colours as long as the stream takes each text whole or not at all: a reader gives the lines without the colours; and else if each call begins with a colour sequence or a line end.", "quantifier": "all numbers of writers, all histories of calls on them, all failures of the stream below, with and without a byte order mark and CRLF", "why_tests_cant": "The calls of several writers can come in any order.", "anchors": ["src/text_writer.rs::TextWriter", "src/text_output.rs::TextOutput"]}
{"id": "C110", "title": "An echo sends back the text it gets", "statement": "A program that writes each text it reads from a TextDuplexer back to it sends exactly what it received, a beginning of it if a write fails. If no stream fails, no call fails, and the duplexer can be closed at the end. A peer that sent Basic Text reads its own text back, whatever line ends and byte order mark it uses. While the conversation goes on, at most the last line has not been sent back, after a read that left four bytes of its buffer unused. A flush after each text changes nothing if each text that is read begins with a starter and ends with an ender; else the echo can fail although the peer sends Basic Text.", "quantifier": "all streams, failures of either side, buffer sizes and both line end modes; for the peer's own text, all valid texts of assigned characters", "why_tests_cant": "The texts that the program reads depend on how the stream and the buffers divide what the peer sends.", "anchors": ["src/text_duplexer.rs::TextDuplexer", "src/text_input.rs::TextInput", "src/text_output.rs::TextOutput"]}
{"id": "C111", "title": "A conversation with a BufReader over a duplexer", "statement": "A program reads lines through a std::io::BufReader over a TextDuplexer, and writes through get_mut(). The lines are those of the text the stream gives, whatever is written in between. Complete lines that are written are all sent, as one valid text, if closing succeeds. After a line was read, the duplexer can be closed even if a prompt without line end was written before, as without the BufReader (C44).", "quantifier": "all streams that do not fail, all capacities of at least 136 bytes, all orders of reads and writes, all failures of the writing side", "why_tests_cant": "How many lines the BufReader has in advance depends on how the peer's text arrives.", "anchors": ["src/text_duplexer.rs::TextDuplexer", "src/text_input.rs::TextInput", "src/text_output.rs::TextOutput"]}
{"id": "C112", "title": "A server that answers each line", "statement": "A program reads lines through a std::io::BufReader over a TextDuplexer and answers each with a TextStr of complete lines, until the peer has finished. If nothing fails, it reads every line of the peer's text, it ends, closing the duplexer succeeds, and exactly the answers have been sent, in order. If something fails, the server stops, and if closing succeeds then exactly the answers to the lines that were read have been sent. Whenever the server waits for more from the peer, it has answered all complete lines that have arrived.", "quantifier": "all streams, however they are cut, all functions from lines to answers, all capacities of at least 136 bytes, all failures of either side", "why_tests_cant": "The answers depend on the lines, and how many lines are read at once depends on how the peer's text arrives.", "anchors": ["src/text_duplexer.rs::TextDuplexer", "src/write_text.rs::WriteText", "src/text_input.rs::TextInput", "src/text_output.rs::TextOutput"]}
