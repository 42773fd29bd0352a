#!/usr/bin/env python3
"""Writes /verif/properties.jsonl. Source of truth for the property list."""
import json, os
P = []
def p(id, title, statement, quantifier, why, anchors):
    P.append(dict(id=id, title=title, statement=statement, quantifier=quantifier,
                  why_tests_cant=why, anchors=anchors))

TI="src/text_input.rs"; TO="src/text_output.rs"; TS="src/text_string.rs"; SS="src/text_substring.rs"
IN="internals/src/"
p("C01","Reading any stream yields a Basic Text stream",
  "Whatever a TextReader is given (any scalar values, cut into any chunks, with any push/end statuses, read through buffers of any legal sizes), the concatenation of everything it delivers up to the end of the stream is accepted by is_basic_text and is empty or ends with '\\n'.",
  "all inputs, all chunkings, all interleavings of statuses, all sequences of caller buffer sizes >= NORMALIZATION_BUFFER_SIZE, all option settings",
  "The input space is all Unicode strings times all chunkings; normalization, escape handling and buffering interact across chunk boundaries.",
  [TI+"::read_with_status",TI+"::process_raw_string",TI+"::queue_next",IN+"text_utils.rs::is_basic_text"])
p("C02","Delivered characters are never forbidden",
  "No character delivered by a TextReader is a control other than '\\n' and '\\t', a noncharacter, a BOM, an object replacement character, a bidi or deprecated formatting character, a CJK compatibility ideograph or any other character listed in the Sequence Table.",
  "all inputs, chunkings, statuses and buffer sizes",
  "Normalization could re-introduce a forbidden character by composing or decomposing; only a table-wide argument excludes it.",
  [TI+"::process_raw_string",IN+"replace.rs::replace",IN+"check.rs::check_basic_text_char","docs/BasicText.md#sequence-table"])
p("C03","Replacement covers exactly what checking rejects",
  "Every scalar value is either accepted by check_basic_text_char or is changed by the reader's conversion (replacement, CJK variation mapping, normalization) to a sequence of accepted values, and accepted values other than FF-class controls are left alone by replace; the table agrees with the documented Sequence Table.",
  "all 1,112,064 scalar values",
  "Two hand-written tables must agree on the whole code space.",
  [IN+"replace.rs::replace",IN+"check.rs::check_basic_text_char","docs/BasicText.md#sequence-table"])
p("C04","Escape sequences, CR and FF are translated as the Sequence Table says",
  "The reader's control-code and escape-sequence state machine removes exactly the sequences matched by the documented grammar (longest match, left to right), turns CR and CRLF into LF and runs of FF into a space (or nothing before a line end), independently of how the input is cut into chunks.",
  "all strings and all chunkings",
  "The state machine has eight states and unbounded input; the documented grammar is regular and must be matched everywhere.",
  [TI+"::process_raw_string",TI+"::State","docs/BasicText.md#sequence-table"])
p("C05","Chunking does not change the conversion",
  "If no unassigned scalar value directly follows a U+34F once escape sequences are removed, splitting the same stream into reads in a different way (with active statuses, and a leading BOM not preceded by an empty read) gives exactly the same delivered text.",
  "all strings, all pairs of chunkings, all buffer sizes",
  "There are exponentially many chunkings, and the queue is normalized in pieces.",
  [TI+"::read_with_status",TI+"::queue_next",IN+"isolate_unassigned.rs::IsolateUnassigned"])
p("C06","The caller's buffer size does not change the text",
  "Reading the same stream through any sequence of buffers of legal sizes delivers the same characters in the same order, with nothing lost, duplicated or split inside a character.",
  "all streams and all sequences of buffer sizes >= NORMALIZATION_BUFFER_SIZE",
  "Depends on every position at which a buffer can fill up.",
  [TI+"::read_with_status",TI+"::clear_to_char_boundary"])
p("C07","Every read fills only whole characters and keeps the caller's buffer valid UTF-8",
  "After a successful read into a buffer that held valid UTF-8, the count returned is at most the buffer length and falls on a character boundary, the bytes up to it are the UTF-8 encoding of whole characters, and the entire buffer is still valid UTF-8.",
  "all reader states, all buffer contents, all streams",
  "A wrong boundary would be undefined behaviour for the str/TextSubstr views; it depends on where old and new bytes meet.",
  [TI+"::read_with_status",TI+"::read_str",TI+"::clear_to_char_boundary",TI+"::is_char_boundary"])
p("C08","A failed read leaves the caller's str buffer intact or valid",
  "When a read of a str reports an error the caller's buffer still holds valid UTF-8 and no already converted text is lost.",
  "all streams and all positions of an inner error",
  "Needs an error injected after a partial delivery at every possible point.",
  [TI+"::read_with_status",TI+"::read_str"])
p("C09","A reader reports the end of stream once everything is delivered",
  "When a TextReader returns an end status, everything derived from the input has been delivered; and repeatedly reading a finite stream reaches the end status after finitely many reads.",
  "all finite streams, all buffer sizes",
  "Liveness and completeness over unbounded executions.",
  [TI+"::read_with_status",TI+"::queue_next"])
p("C10","Push statuses are reported",
  "If the underlying stream signals a push, the reader reports a push status once the data before it has been delivered.",
  "all streams with pushes, all buffer sizes",
  "Requires the queue to exceed the caller's buffer exactly at a push.",
  [TI+"::read_with_status",TI+"::pending_status"])
p("C11","Fast path and slow path agree in the reader",
  "Whenever the reader takes its quick path for a queued segment the text delivered is exactly what the full isolate/variant/stream-safe/NFC pipeline would have produced.",
  "all queued segments",
  "The quick path skips normalization based on table lookups that must be sound for every string.",
  [TI+"::queue_next"])
p("C12","Normalization is idempotent and stable",
  "Converting to NFC twice is the same as once; the result of Stream-Safe followed by NFC is accepted by the Stream-Safe NFC test, and that test accepts exactly the strings left unchanged by Stream-Safe and by NFC.",
  "all strings",
  "Quantifies over all Unicode strings and the complete Unicode tables.",
  [IN+"text_utils.rs::is_basic_text_substr",TO+"::state_machine",TI+"::queue_next"])
p("C13","Stream-Safe runs are bounded",
  "In every accepted string no run of non-starters (in compatibility decomposition) is longer than 30, so any normalized cluster fits the documented minimum buffer.",
  "all accepted strings",
  "Unbounded strings; the bound justifies the minimum buffer size.",
  [IN+"unicode.rs::NORMALIZATION_BUFFER_SIZE",IN+"text_utils.rs::is_basic_text_substr"])
p("C14","TextSubstr is closed under slicing",
  "Every prefix, suffix and contiguous slice (on character boundaries) of a valid TextSubstr is a valid TextSubstr, so the unchecked slicing, trim and split_at operations on TextSubstr are sound and split_at never panics on a boundary.",
  "all valid substrings and all slice positions",
  "Requires that NFC is closed under taking substrings, a property of the whole Unicode data.",
  [SS+"::split_at",SS+"::trim",SS+"::Index",TS+"::Index",IN+"text_utils.rs::is_basic_text_substr"])
p("C15","Slices of a TextStr are valid TextSubstrs",
  "Indexing a valid TextStr by any range on character boundaries yields a valid TextSubstr.",
  "all valid TextStr and all ranges",
  "As C14; the implementation uses unchecked conversion.",
  [TS+"::Index"])
p("C16","Concatenation of Basic Text strings is a Basic Text string",
  "Appending a TextStr to a TextString with push_text (or +, +=, extend) gives a string accepted by is_basic_text.",
  "all pairs of valid strings",
  "The claim in the documentation of push_text; depends on which characters may start a string and compose backwards.",
  [TS+"::push_text",TS+"::Add",TS+"::Extend"])
p("C17","trim keeps a TextStr valid",
  "trim, trim_start and trim_end on a valid TextStr return a valid TextStr.",
  "all valid strings",
  "Unchecked construction; depends on what may follow white space.",
  [TS+"::trim",TS+"::trim_start",TS+"::trim_end"])
p("C18","repeat keeps strings valid",
  "repeat(n) of a valid TextStr is a valid TextStr.",
  "all valid strings and all n",
  "Unchecked construction, unbounded n.",
  [TS+"::repeat"])
p("C19","from_text returns only valid Basic Text",
  "If TextString::from_text succeeds its result is accepted by is_basic_text.",
  "all strings",
  "Result is constructed unchecked from what the strict writer emitted.",
  [TS+"::from_text",TO+"::write_str",TO+"::flush"])
p("C20","from_text is the documented strict conversion",
  "TextString::from_text(s) succeeds exactly when s contains no forbidden character and its normalized form neither starts with a Basic Text non-starter nor ends with a non-ender, and then returns Stream-Safe NFC of s with unassigned characters isolated.",
  "all strings",
  "An equivalence over all strings; tests only sample.",
  [TS+"::from_text",TO+"::state_machine","docs/BasicText.md#from-unicode-string-to-basic-text-string-strict"])
p("C21","Valid text is a fixed point",
  "If s is accepted by is_basic_text and has no unassigned character lacking a preceding U+34F then from_text(s) = s; in particular from_text(from_text(s)) = from_text(s).",
  "all strings",
  "Idempotence over all strings.",
  [TS+"::from_text"])
p("C22","from_text_lossy always succeeds and returns valid Basic Text",
  "from_text_lossy never panics (its assertion about the trailing newline never fails) and returns a string accepted by is_basic_text.",
  "all strings",
  "Contains an unwrap and an assert_eq that must hold for every input.",
  [TS+"::from_text_lossy"])
p("C23","Lossy output is accepted unchanged by the strict side",
  "For every input, TextString::from_text accepts the result of from_text_lossy and returns it unchanged, and writing the reader's output to a TextWriter and closing it succeeds and emits the same text.",
  "all inputs and chunkings",
  "The round-trip property asserted by the fuzz target, for all inputs.",
  [TS+"::from_text_lossy",TS+"::from_text","fuzz/fuzz_targets/text.rs"])
p("C24","from_text_lossy preserves valid text",
  "If s is valid Basic Text whose unassigned characters are isolated, from_text_lossy(s) = s.",
  "all valid strings",
  "Losslessness on all valid input.",
  [TS+"::from_text_lossy"])
p("C25","The error position of from_text is a valid prefix",
  "valid_up_to in a TextError is a character boundary, at most the length, the prefix up to it is valid, and the computation terminates; for TextSubstr it is the longest valid prefix.",
  "all strings",
  "Binary search over byte indices with boundary adjustment; termination for every input.",
  [TS+"::compute_valid_up_to",SS+"::compute_valid_up_to"])
p("C26","Unassigned characters are isolated",
  "After conversion each unassigned scalar value is preceded and followed by U+34F.",
  "all strings",
  "State machine over all strings.",
  [IN+"isolate_unassigned.rs::IsolateUnassigned::next","docs/BasicText.md"])
p("C27","Isolation is idempotent and only adds U+34F",
  "isolate_unassigned leaves its own output unchanged and removing the inserted U+34F gives back the input.",
  "all strings",
  "Induction over strings.",
  [IN+"isolate_unassigned.rs::IsolateUnassigned::next"])
p("C28","A successfully closed writer produced a complete stream",
  "If only write_str/write/flush were used and close succeeds, then the bytes emitted are empty or end with '\\n' (\"\\r\\n\" in CRLF mode).",
  "all histories of write/flush/close and all inner failures",
  "Histories are unbounded.",
  [TO+"::close",TO+"::check_nl",TO+"::write_str",TO+"::flush"])
p("C29","A strict writer never emits forbidden characters",
  "Everything a TextWriter (without colour support) sends to the underlying stream through write_str/write consists of characters accepted by check_basic_text_char (plus CR only directly before LF in CRLF mode).",
  "all histories of write_str/write/flush/close with all inner failures",
  "Includes partially failed writes and later writes on the same writer.",
  [TO+"::write_str",TO+"::state_machine_char",TO+"::write_buffer"])
p("C30","CRLF mode is plain mode with line ends expanded",
  "On a fresh writer, write_str in CRLF mode succeeds on exactly the same strings as in plain mode and the output is the plain output with every '\\n' replaced by \"\\r\\n\"; every '\\n' emitted is preceded by '\\r'.",
  "all strings",
  "CRLF mode normalizes line by line while plain mode normalizes the whole string.",
  [TO+"::crlf_write_str",TO+"::normal_write_str"])
p("C31","Dropping a writer after an error or a close never panics",
  "After close or abandon, and after any failed write or close, dropping the writer does not panic.",
  "all histories and all inner failures",
  "Drop panics depend on a hidden state flag over unbounded histories.",
  [TO+"::Drop",TO+"::prepare_failure",TO+"::abandon"])
p("C32","write returns a count of whole accepted characters",
  "TextWriter::write(bytes) returns Ok(n) only with n <= len, the first n bytes being valid UTF-8, and n = 0 only for empty input; invalid leading bytes give an error.",
  "all byte strings",
  "Requires reasoning on all byte strings and the UTF-8 decoder.",
  [TO+"::write"])
p("C33","Writes compose: splitting a write at a line end does not matter",
  "Writing s ++ t with one write_str equals writing s then t when s ends with '\\n' (and the first write succeeds).",
  "all strings",
  "Normalization context across writes.",
  [TO+"::write_str"])
p("C34","A written stream is Basic Text",
  "The concatenation of everything emitted by a TextWriter through any sequence of successful write_str calls is accepted by is_basic_text once closed.",
  "all sequences of writes",
  "Writes are normalized separately; the seam is not tested.",
  [TO+"::write_str",TO+"::write_buffer"])
p("C35","Text writes are equivalent to string writes",
  "For a valid TextStr without unassigned characters, write_text emits exactly what write_str emits and leaves the writer in the same state.",
  "all valid texts",
  "Validated and unvalidated paths must agree on all inputs.",
  [TO+"::normal_write_text",TO+"::crlf_write_text",TO+"::normal_write_str"])
p("C36","copy_text copies everything",
  "copy_text from a reader to a writer transfers exactly the text the reader delivers and returns its length in bytes, and the writer can then be closed successfully.",
  "all streams and buffer sizes",
  "Loop over an unbounded stream.",
  ["src/copy.rs::copy_text","src/copy.rs::copy_text_using_status"])
p("C37","Lines returned by text_lines are valid and lossless",
  "For valid Basic Text streams text_lines yields strings which, each followed by '\\n', concatenate to the stream; each is valid Basic Text.",
  "all valid streams",
  "Unbounded streams; end-of-line checks.",
  ["src/buf_read_text.rs::TextLines::next","src/buf_read_text.rs::read_text_line"])
p("C38","UTF-8 encoding round-trips",
  "Decoding the bytes produced by the encoder gives back exactly the same scalar values, and the decoder accepts only canonical encodings. The lossy decoding puts one U+FFFD for each maximal ill-formed subpart.",
  "all scalar values and all byte strings",
  "2^32 byte patterns; exhaustive reasoning.",
  [TI+"::read_with_status",TO+"::write",TS+"::from_text_vec"])
p("C39","A leading BOM is stripped, other BOMs become U+2060",
  "A BOM at the very start of a stream is not delivered, and any other BOM is delivered as U+2060.",
  "all streams and chunkings",
  "Depends on which read delivers the first character.",
  [TI+"::process_raw_string",IN+"replace.rs::replace"])
p("C40","The quick substring test is sound",
  "When is_basic_text_substr_quick returns Some(b), b is the answer of is_basic_text_substr.",
  "all strings",
  "Must hold for all strings.",
  [IN+"text_utils.rs::is_basic_text_substr_quick"])
p("C41","Colour mode admits only SGR escape sequences",
  "With colour enabled, an ESC reaches the underlying stream only as the start of a complete ESC '[' [U+20-U+3F]* 'm' sequence; without it, never.",
  "all histories of writes",
  "Sequences may be split over writes.",
  [TO+"::state_machine_char"])
p("C42","Abandoning a reader is safe",
  "abandon on a TextReader never panics.",
  "all reader states",
  "Depends on whether unread text is queued.",
  [TI+"::abandon"])
p("C43","NEL and LSPS compatibility",
  "With NEL (LS/PS) compatibility the reader delivers a line end for each U+85 (U+2028, U+2029) outside escape sequences; without it a space.",
  "all streams",
  "State machine over all inputs.",
  [TI+"::process_raw_string"])
p("C44","A duplexer never loses the write-side line discipline",
  "After reading a line from a TextDuplexer the write side considers itself at the start of a line, and closing succeeds only if all written text is newline-terminated or a line was read since.",
  "all interleavings of reads and writes",
  "Interleavings are unbounded.",
  ["src/text_duplexer.rs::read_with_status",TO+"::newline"])
p("C45","A strict writer is the text-level writer",
  "Through any history a TextWriter without colours behaves as a writer that remembers only the text written, whether it is at the start (or just flushed), and whether it has failed: a write succeeds exactly when all its characters are allowed, its normalized form begins with a starter at the start, and the stream below accepts it; flush is refused after a non-ender, close unless the text is empty or ends with a line end; after a failed write or close everything fails.",
  "all histories of writes, flushes and closes, all failures of the stream below, CRLF mode or not",
  "Histories are unbounded and the staging buffer and state machine carry state between calls.",
  [TO+"::write_str",TO+"::write_text_substr",TO+"::flush",TO+"::close"])
p("C46","split_at on TextStr is checked",
  "split_at(mid) on a TextStr returns two parts exactly when mid is a character boundary and both parts are valid Basic Text, otherwise it panics; for a valid string this is exactly when the first part ends with an ender and the second starts with a starter, and for a TextSubstr exactly when mid is a boundary.",
  "all strings and positions",
  "Needs validity of both halves for every string.",
  [TS+"::split_at","src/text_substring.rs::split_at"])
p("C47","TextSubstring accepts what TextSubstr accepts",
  "If TextSubstr::from_text accepts a string so does TextSubstring::from_text.",
  "all strings",
  "Two independent validations.",
  ["src/text_substring.rs::from_text"])
p("C48","read_to_text_string leaves a valid string",
  "read_to_text_string appends to a TextString; if it succeeds on a valid string the result is valid.",
  "all buffers and streams",
  "Depends on both the old contents and the text read.",
  [TS+"::default_read_to_text_string"])
p("C49","An exact read delivers exactly the number of bytes asked for",
  "read_exact_text_substr fills the whole buffer whenever the stream has enough text, and reports UnexpectedEof otherwise; the variants that also return a status succeed in the same cases with the same text.",
  "all streams, chunkings and buffer sizes",
  "The last call is made with a buffer of any small size, after any history.",
  [TI+"::read_exact_str",TI+"::read_exact_str_using_status",TI+"::read_exact_text_substr_using_status","src/read_text.rs::default_read_exact_text_substr"])
p("C50","Lossy lines are valid single lines that keep valid input",
  "Each line yielded by text_lines_lossy is valid Basic Text without a line end, and a stream that is already valid text is split into exactly its lines.",
  "all streams",
  "Each line is converted separately, for every content.",
  ["src/buf_read_text.rs::TextLinesLossy::next"])
p("C51","Writing through a duplexer does not disturb reading",
  "What the read side of a TextDuplexer delivers, call by call, is what a plain reader delivers from the same stream with the same buffers, whatever is written, flushed or abandoned in between.",
  "all interleavings of reads and writes",
  "Interleavings are unbounded.",
  ["src/text_duplexer.rs::read_with_status","src/text_duplexer.rs::write"])
p("C52","What a closed duplexer has sent is valid text",
  "If a TextDuplexer is closed successfully, what it sent is valid Basic Text, with only complete colour escapes.",
  "all interleavings of reads and writes",
  "Reading resets the state of the write side at any point.",
  ["src/text_duplexer.rs::read_with_status",TO+"::newline"])
p("C53","Reading into a TextSubstr leaves it a valid TextSubstr",
  "After read_text_substr the part read is valid, and the caller's buffer as a whole still is; the provided exact read never panics.",
  "all streams and all valid buffers",
  "Depends on where the text read ends inside the old contents.",
  ["src/read_text.rs::default_read_exact_text_substr",TI+"::read_text_substr"])
p("C54","The repository's fuzz target never reports a failure",
  "For every byte string, none of the assertions of the repository's fuzz target fails: text that has been read is accepted by every type and by the writer, unchanged.",
  "all byte strings and all ways they are read",
  "A fuzzer samples inputs.",
  ["fuzz/fuzz_targets/text.rs"])
p("C55","Arbitrary values are valid",
  "The Arbitrary implementations of the string types only make valid Basic Text, and never loop or panic.",
  "all sources of random bytes",
  "The source of bytes is arbitrary.",
  [TS+"::Arbitrary for &TextStr","src/text_substring.rs::Arbitrary for &TextSubstr"])
p("C56","Equivalent texts become equal",
  "Two ordinary texts that are canonically equivalent are converted to the same text, which is their Unicode NFC, by from_text and by reading.",
  "all pairs of ordinary texts",
  "Equivalence classes are unbounded.",
  [TS+"::from_text",TI+"::read_with_status"])
p("C57","Reading keeps exactly Basic Text streams",
  "A stream is delivered unchanged if and only if it is valid line-terminated Basic Text in which every unassigned character is preceded by U+34F.",
  "all streams",
  "Both directions range over all texts.",
  [TI+"::read_with_status","docs/BasicText.md"])
p("C58","Writer and TextString accept the same texts",
  "A text written with one write_str to a new writer and closed is accepted if and only if TextString::from_text accepts it and it ends a line, and the writer sends exactly the text from_text gives; the same for bytes.",
  "all texts and all byte strings",
  "Two separate implementations are compared on every input.",
  [TO+"::write_str",TS+"::from_text"])
p("C59","A text written in pieces comes out whole",
  "If a valid text is cut anywhere into non-empty pieces, and each piece is written with write_text, the sent text is the text.",
  "all valid texts and all cuts",
  "Cuts of a text are unbounded in number.",
  [TO+"::write_text_substr"])
p("C60","What a writer stored is read back",
  "Text of assigned characters written by any history of whole-line writes, with or without a byte order mark and with either line end, is delivered unchanged by a reader with any options and any buffers.",
  "all histories, modes, streams and buffers",
  "Composes an arbitrary writer history with an arbitrary reader history.",
  [TO+"::with_crlf_compatibility",TO+"::with_bom_compatibility",TI+"::read_with_status"])
p("C61","Text literals compile exactly for valid texts",
  "text! and text_substr! accept a string literal if and only if it is a valid TextStr or TextSubstr, and give that text.",
  "all literals",
  "All strings.",
  ["literals/src/lib.rs"])
p("C62","Texts are in the documented Basic Text form",
  "is_basic_text accepts a string if and only if it is a Basic Text string as the documentation defines it: Stream-Safe NFC, not starting with a non-starter (combining class not 0, or grapheme cluster break ZWJ, SpacingMark or Extend other than U+34F), not ending with a non-ender (ZWJ or Prepend), unassigned scalar values isolated, and none of the table's sequences. TextReader and the strict conversions produce only such texts.",
  "all strings, all streams and all read schedules",
  "All 1114112 scalar values at each end of every string, and every stream.",
  ["src/text_utils.rs::is_basic_text","src/text_utils.rs::is_basic_text_start","src/text_utils.rs::is_basic_text_end",TI+"::read_with_status",TS+"::from_text","docs/BasicText.md"])
p("C63","Refused characters are reported with the documented errors",
  "When writing or checking refuses a character, the error is the one of the Error column of the documentation's table for a character of the text, and there always is an error to report.",
  "all scalar values, all writers and all strings",
  "All scalar values; the error travels through a shared cell past a normalizing iterator that reads ahead.",
  [IN+"check.rs::check_basic_text_char",IN+"check.rs::BasicTextError",IN+"categorize.rs::Categorize",TO+"::state_machine","docs/BasicText.md"])
p("C64","Texts are ordered by their characters",
  "Comparing texts of the string types, with each other or with str, is lexicographic comparison by code point: a total order in which texts are equal if and only if they have the same characters; valid texts are equal if and only if they are canonically equivalent.",
  "all pairs and triples of texts",
  "All pairs of texts; the code compares UTF-8 bytes.",
  [TS+"::PartialOrd","src/text_substring.rs::PartialOrd","src/partial_eq.rs"])
p("C65","Search finds exactly the occurrences",
  "find, rfind, contains, starts_with, ends_with and match_indices, with a string, a char, a slice of chars or a closure as the pattern, report the first, last, some, leading, trailing and the leftmost non-overlapping occurrences of the pattern as characters, and matches gives these; slicing the text at the reported positions never panics and gives valid substrings.",
  "all texts and patterns",
  "A byte match inside a character would only show for particular pairs of texts.",
  [TS+"::find",TS+"::rfind",TS+"::contains",TS+"::match_indices","src/text_substring.rs::find"])
p("C66","lines gives the lines, as text string slices",
  "lines of a valid text gives lines without newlines that joined with newlines are the text again; each is a valid text string slice.",
  "all valid texts",
  "All texts.",
  [TS+"::lines","src/text_substring.rs::lines"])
p("C67","Bytes written with write_all are written whole",
  "write_all writes valid UTF-8 as the string it encodes; other bytes up to the first error, and then fails. write_all_vectored writes its buffers like their concatenation, or one after the other. Both always end, without a WriteZero error.",
  "all writers, byte strings and lists of buffers",
  "All byte strings and all ways to cut them.",
  [TO+"::write",TO+"::write_vectored",TO+"::write_all_vectored"])
p("C68","std::io::copy copies text",
  "std::io::copy from a TextReader to a TextWriter ends without error, reports the number of bytes read, sends exactly the text the reader delivers, and the writer can then be closed.",
  "all streams without failures, all buffer sizes and options",
  "Depends on where the copy buffer ends in the text.",
  [TI+"::read",TO+"::write","examples/text-cat.rs"])
p("C69","Texts can be concatenated before or after reading",
  "If two inputs are concatenated, the reader delivers for the result the concatenation of what it delivers for each, whatever the reads, when the first one ends with a newline.",
  "all pairs of streams, all cuts into reads, both compatibility options",
  "All pairs of texts and all cuts; escape sequences can span the joint.",
  [TI+"::process_raw_text",TI+"::queue_next","docs/BasicText.md"])
p("C70","Pushes change the text only where text is cut",
  "A push ends an open sequence and guards the ends of the text on each side as if they were texts of their own; pushes after newlines have no effect, and the cuts between reads have one exactly where a read ends between U+34F and an unassigned character after it.",
  "all streams with any pushes, failures and cuts, both compatibility options",
  "Any number of pushes anywhere in any text.",
  [TI+"::read_str_with_status",TI+"::process_raw_text"])
p("C71","ASCII text passes unchanged",
  "Text of printable ASCII characters, tabs and line feeds is valid, is converted to itself, is delivered unchanged by every reader (plus a final line end if missing), and is accepted by every writer in any pieces with flushes anywhere; ASCII text with other control characters is not valid.",
  "all ASCII strings; all cuts into reads with pushes and failures, both options; all sequences of writes and flushes",
  "Any length and any cut or sequence of operations.",
  [TI+"::read_str_with_status",TO+"::write_str",TS+"::TextString::from_text"])
p("C72","A reader over a reader delivers the same text",
  "Reading the text that a reader delivered through a second reader gives it unchanged, whatever the options and the cuts.",
  "all streams, buffer sizes and cuts, both options of both readers",
  "The two readers' buffers and cuts interact in unboundedly many ways.",
  [TI+"::read_str_with_status","src/text_reader.rs::TextReader"])
p("C73","A failed conversion gives the bytes back",
  "When converting a vector of bytes to a TextString fails, the error carries exactly the bytes that were given and the position of the error.",
  "all byte vectors",
  "All byte sequences, valid UTF-8 or not.",
  [TS+"::TextString::from_text_vec",TS+"::FromTextError::as_bytes",TS+"::FromTextError::into_bytes"])
p("C74","Views of a text are exact",
  "char_indices, encode_utf16, is_ascii, eq_ignore_ascii_case and rmatch_indices show the text as it is: every character once with its byte position, well-formed UTF-16 of the same text, equality up to the case of ASCII letters, the matches from the right.",
  "all texts and patterns",
  "All strings over all characters.",
  [TS+"::TextStr::char_indices",TS+"::TextStr::encode_utf16",TS+"::TextStr::is_ascii",TS+"::TextStr::eq_ignore_ascii_case",TS+"::TextStr::rmatch_indices"])
p("C75","Escaped text is valid and can be read back",
  "The output of escape_unicode and escape_default is printable ASCII and so valid Basic Text, has for each character the escape documented for it, and stands for exactly the text that was escaped.",
  "all strings",
  "All strings over all characters.",
  [TS+"::TextStr::escape_default",TS+"::TextStr::escape_unicode"])
p("C76","Complete lines are delivered promptly","Once a read returns with room left in its buffer (at least four bytes), every complete line that was read from the stream has been delivered: at most the beginning of one line is held back. (A line that ends with a carriage return is complete once the next character is read, because a line feed may follow.)","all streams, options, pushes, failures and buffer sizes","Interactive use depends on it at every point of every stream; a test stops at the points it chose.",[TI+"::read_with_status",TI+"::queue_next"])
p("C77","A writer over a writer changes nothing","Wrapping a text writer in a second text writer is transparent, except that texts of type TextSubstr reach the inner writer as strings: each operation succeeds or fails exactly as on the inner writer alone, the same text reaches the stream, and the stream is abandoned in the same cases.","all histories of writes, flushes, closes and abandons, all behaviours of the stream below, CRLF output or not","Conversion, starter checks and failure states of two layers interact over whole histories.",[TO+"::write_str",TO+"::write_buffer",TO+"::prepare_failure",TO+"::flush",TO+"::close"])
p("C78","Conversion makes text at most four times longer","The text a reader delivers is at most four times as long in bytes as what it took from the stream, plus one byte; a writer passes on at most four times the bytes it was given; the conversions of strings obey the same bound. So a hostile input cannot make the output grow out of proportion.","all streams (with malformed bytes, pushes and failures), all buffer sizes and options; all histories of writer operations; all strings","A bound over every character, every replacement and every place where a U+34F is inserted; a test shows growth only for its own inputs.",[TI+"::read_str_with_status",TI+"::process_raw_string",TO+"::write_str",TS+"::TextString::from_text",TS+"::TextString::from_text_lossy"])
p("C79","The example filters normalize whole streams","nfc-cat writes the normalization form C of its whole input and ssnfc-cat the Stream-Safe form, although they work line by line; line ends become LF and the last line is terminated; filtering the output again changes nothing. text-cat ends on every stream and writes exactly the text a reader delivers, which is valid Basic Text.","all texts; for text-cat all streams and options and how the bytes arrive","Working line by line must agree with normalizing the whole for every text, and the quick path with the slow one.",["examples/nfc-cat.rs::main","examples/ssnfc-cat.rs::main","examples/text-cat.rs::main"])
p("C80","Compatibility ideographs can be told from the converted text","Reading replaces each CJK compatibility ideograph by its standardized variation sequence, which plain NFC would not, so that nothing is lost: from the delivered text one can tell which compatibility ideographs the stream had, in order, and two streams that differ in one are never delivered as the same text (streams that do not use these variation selectors themselves).","all streams, cuts, pushes, options; all 1002 ideographs","Normalization must keep every sequence apart from its neighbours in every text and at every cut.",[TI+"::process_raw_string","docs/NFC.md"])
p("C81","Colours do not disturb the text","Text written with colour sequences in it is treated like the same text without them: the writer sends the sequences unchanged between the converted pieces of text, refuses the same characters, and without the sequences what a closed writer has sent is valid text, which is also what a reader delivers. Text without ESC is written exactly as with colours switched off.","all histories of writes of text with complete colour sequences, text writes, flushes, closes and abandons, all behaviours of the stream below, CRLF output or not","The sequences go through normalization and the starter checks together with the text, at any place in any text.",[TO+"::state_machine_char",TO+"::state_machine",TO+"::write_buffer",TO+"::check_nl",TO+"::flush",TI+"::process_raw_string"])
p("C82","Precomposed text passes unchanged","Text of precomposed characters (accented letters, kana, ideographs, Hangul syllables, pictographs, characters for private use: starters that normalization leaves alone and that Basic Text allows everywhere) is valid Basic Text, is converted to itself, is delivered by a reader unchanged but for a missing final line end, and is sent by a writer unchanged.","all such texts; all streams, cuts, pushes, failures and options; all histories of writes and flushes","Some 230,000 characters in every combination and at every cut.",[TI+"::read_str_with_status",TO+"::write_str",TS+"::TextString::from_text","internals/src/isolate_unassigned.rs::IsolateUnassigned"])
p("C83","Text values stay valid through any history of operations","Every value of the types TextString and TextStr that a program makes without unsafe code is valid Basic Text, and every value of the types TextSubstring and TextSubstr is a valid substring: whatever sequence of conversions, reads, line iterators, concatenations, repetitions, trims, splits and slices produced it.","all programs over the operations of the string types, of any length, on all texts","An invalid value may need several operations to come about, and is only noticed much later.",[TS+"::TextString",TS+"::TextStr","src/text_substring.rs::TextSubstring","src/text_substring.rs::TextSubstr","src/buf_read_text.rs::BufReadText"])
p("C84","Writing a stream is the documented strict conversion","A stream written to a TextWriter in any pieces cut after line ends, with any of the byte order mark and CRLF options, and closed, is accepted exactly if the documented strict conversion of streams accepts it, and what is sent is the documented result: byte order mark, line ends replaced, unassigned characters isolated, Stream-Safe, NFC.","all streams and all their cuts into non-empty pieces after line ends, both options","The documentation converts the whole stream at once, the code piece by piece.",[TO+"::write_str",TO+"::with_bom_compatibility",TO+"::with_crlf_compatibility","docs/BasicText.md"])
p("C85","Reading a line appends it to a TextString that stays valid",
  "read_text_line and read_text_line_lossy append to the caller's TextString the bytes up to and including the next 0xA, return their number, and leave the TextString valid Basic Text whether they succeed or fail; how the source delivers its bytes does not matter.",
  "all sources, cut into pieces in any way and failing at any point, and all valid TextStrings",
  "Depends on where an I/O error cuts a line and on what the old contents join with.",
  ["src/buf_read_text.rs: BufReadText::read_text_line, BufReadText::read_text_line_lossy, TextLines, TextLinesLossy"])

p("C86","A stream got back from close_into_inner is complete",
  "If close_into_inner succeeds, the stream it returns has received everything that was written, and that is empty or ends with a newline.",
  "all histories of write/flush/close/abandon, all failures of the stream below",
  "Histories and failures are unbounded.",
  [TO+"::close_into_inner",TO+"::check_nl","src/text_writer.rs::close_into_inner","src/text_duplexer.rs::close_into_inner"])
p("C87","A reader accepts the buffers it asks for",
  "A read into a buffer of at least minimum_buffer_size or suggested_buffer_size bytes is never refused as too small, whatever the stream below asks for, and copy_text always uses such a buffer; a read that is refused has no effect.",
  "all readers, states, buffer sizes and sizes asked for by the streams below",
  "All combinations of sizes.",
  [TI+"::minimum_buffer_size",TI+"::suggested_buffer_size",TI+"::read_with_status","src/copy.rs::copy_text","src/text_duplexer.rs::suggested_buffer_size"])
p("C88","Isolation protects text from later versions of Unicode",
  "Text in which every unassigned scalar value is isolated (preceded and followed by U+34F) stays in Normalization Form C and Stream-Safe under every later version of Unicode that keeps the stability policies (nothing changes about characters assigned now), unless a newly assigned character is itself changed by that version's normalization; in general each newly assigned character changes only for itself. What a reader delivers up to the end of its stream is protected in this way exactly if it is isolated, and it is if the stream has no U+34F of its own beside an unassigned value; what the strict conversion gives is protected exactly if each unassigned value is followed by U+34F or the end.",
  "all texts, conversions and read sessions, and all tables of combining classes, decompositions and compositions that agree with the present ones on assigned characters",
  "Later versions of Unicode do not exist yet, so no test can run against them.",
  ["internals/src/isolate_unassigned.rs: isolate_unassigned", "internals/src/pre_normalization.rs", "docs/Background.md", TI])

p("C89","Text of later versions of Unicode can be read and written",
  "Text that is Stream-Safe NFC in a later version of Unicode and starts, ends and avoids sequences as this version asks is accepted by the strict conversion and by a writer, and a reader delivers it, in whatever pieces it is written or arrives; they add nothing but U+34F, where they isolate scalar values that this version does not know, and at pushes.",
  "all texts and streams, and all tables of a later version that agree with the present ones on assigned characters and whose Normalization Form C is closed under taking parts",
  "Later versions of Unicode do not exist yet, so no test can run against them.",
  ["internals/src/isolate_unassigned.rs: isolate_unassigned", "docs/Background.md", TI, TO, TS])

p("C90","A reader reads its stream only when it has to",
"A call of a reader reads the underlying stream at most once, and only after everything it already has, except the beginning of one line, has been delivered. After a call that left room in its buffer the next call does read the stream, and in any session all calls read it except at most one for every 133 delivered bytes.",
"all streams, options, histories of calls and buffer sizes",
"Blocking behaviour at every point of every stream: a superfluous read may wait for input for ever, which shows only on streams that stay open at that point.",
[TI+"::read_with_status",TI+"::queue_next","src/text_reader.rs::read_with_status"])

p("C91","Normalization is that of the Unicode Standard",
"The Normalization Form C and the Stream-Safe form that conversions produce and checks ask for are those defined by the Unicode Standard (decomposition, canonical ordering, composition with primary composites; the Stream-Safe Text Format and Process of UAX #15), computed from its character data: the result exists, is unique, and is the same for canonically equivalent strings.",
"all strings of characters",
"The standard's own test file has some 19,000 lines; sequences of combining characters are unbounded.",
["internals/src/text_utils.rs::is_basic_text_substr",TI+"::queue_next",TO+"::state_machine_slow_path","docs/BasicText.md"])

p("C92","Universal newlines",
"A stream whose line ends are LF, CR LF or CR, in any mixture, is read as the text of the stream with LF for each of them, however the line ends are cut into chunks; so a text saved with the line ends of one system reads the same as with those of another. The lossy conversion of a string does the same.",
"all streams of characters, options, chunkings and buffer sizes; any mixture of the three line ends",
"Every mixture of line ends, next to every escape sequence, cut at every place.",
["docs/Background.md",TI+"::process_raw_string",TI+"::read"])

p("C93","Excluded characters do not occur in the bytes; texts are POSIX text files",
"Nowhere in the UTF-8 bytes of a text, delivered by reads or sent by a writer, do the bytes of a character that texts may not hold occur, at any offset: of the bytes below 0x20 and 0x7F only tab and line feed (and CR of CR LF when the writer makes CR LF). Control codes, line and paragraph separators, explicit directional formatting characters, noncharacters, annotation characters and the byte order mark are such characters. What is read up to the end of a stream, or written and closed, is a POSIX text file: lines ended by 0xA without NUL bytes, whose byte lines are the lines of the text.",
"all streams, buffer sizes and reads; all histories of writes and sink failures; all characters",
"Occurrences can lie across any two characters, reads or writes, at any byte offset.",
["docs/Background.md","docs/BasicText.md",TI+"::read",TO+"::write_str",TO+"::close_into_inner"])

p("C94","Converting takes bounded memory",
"However long the text is, and however many combining characters follow one another in it, the chain of iterators that converts the text of readers and writers holds at most a fixed number of characters, whenever the next character is asked for.",
"all strings of characters, with and without the check of characters, after every number of characters delivered",
"A text can have any number of combining characters in a row, and each of five iterators has a buffer of its own.",
["internals/src/isolate_unassigned.rs::IsolateUnassigned","internals/src/categorize.rs::Categorize",TI+"::process_raw_string",TO+"::state_machine_slow_path","docs/BasicText.md"])

p("C95","Readers can be buffered",
"A std::io::BufReader with a buffer of at least 136 bytes around a reader gives exactly the bytes of the reader's text, in order and without loss, however few or many bytes are asked for, also when reads of the stream fail in between; no request is refused, Ok(0) means that all the text was given, and it comes after a bounded number of requests. The lines it gives through text_lines are those of the whole text, with an error for each failed read; a line that a failure cuts is left out; none panics. The same for text_lines_lossy, which gives one valid string for each line and, without failures, no error.",
"all streams (any chunks, pushes, failures), all capacities from 136, all sequences of requested sizes, all compatibility options",
"The buffer splits characters and lines at arbitrary places, depending on how the stream is chunked and what is asked for.",
["src/text_reader.rs::TextReader",TI+"::read","src/buf_read_text.rs::TextLines"])
p("C96","Writers can be buffered",
"A text written through a std::io::BufWriter around a writer, in pieces that end with line ends, and closed, is accepted and sent exactly as documented for the strict conversion, whatever the capacity of the buffer. Through a std::io::LineWriter, this holds for pieces cut anywhere, as long as the lines fit in the buffer. Nothing gets stuck, whatever bytes are written.",
"all texts, all ways of cutting them, all capacities, with and without a byte order mark and CRLF compatibility",
"When the buffer is passed on depends on the lengths of the pieces written and on the capacity; a boundary inside a line changes what the writer sends.",
["src/text_writer.rs::TextWriter",TO+"::write",TO+"::write_str"])

p("C97","Readers work with std's adaptors",
"Read::chain of two readers gives the text of the first and then that of the second, and Ok(0) only at the end of both. Read::take gives the beginning of the text, never more than the limit, and all of a text that is not longer than the limit. Read::bytes gives the bytes of the text.",
"all streams (any chunks, pushes, failures), all limits, all sequences of requested sizes of at least 136 bytes, all compatibility options",
"The limit of take may be met anywhere in a read, and what a reader does with the small buffers that take and bytes pass on depends on the reader's minimum size.",
["src/text_reader.rs::TextReader",TI+"::read",IN+"unicode.rs::NORMALIZATION_BUFFER_SIZE"])
p("C98","write! and writeln! on a TextWriter",
  "Formatting with write! or writeln! onto a TextWriter writes the literal parts and what the arguments print one after another and stops at the first error. It is accepted exactly if the formatted text is, however it is cut into pieces, and what is sent is the formatted text converted as a whole.",
  "all lists of pieces that a formatted write can produce, byte order mark and CRLF options",
  "Where the formatted text is cut depends on the arguments' Display; each piece is converted on its own.",
  ["src/text_writer.rs::write","src/text_output.rs::write","src/lib.rs"])
p("C99","Reading all the text at once",
"read_to_end and read_to_string on a reader return for every stream. They return an error exactly if a read of the stream fails before its end; otherwise they append the whole text, the same that any sequence of reads delivers, which is Basic Text, and return its length. A String stays valid UTF-8. read_to_text_string succeeds and leaves a valid TextString behind.",
"all streams (any chunks, pushes, failures), all buffer contents, all sizes the stream below asks for or suggests, all compatibility options",
"The number and sizes of the reads depend on how the stream is chunked, and the read_to_string writes into a String without a check.",
["src/text_reader.rs::read_to_end",TI+"::read_to_string","src/read_text.rs::read_to_text_string",TS+"::default_read_to_text_string","src/lib.rs"])
p("C100","Copying through a BufReader and a LineWriter",
"std::io::copy from a BufReader over a TextReader to a LineWriter over a TextWriter ends for every stream. It reports the number of bytes read, the writer can be closed, and exactly the text that the stream gives is sent, whatever the sizes of the buffers, even where a piece ends within a character.",
"all streams without failures, all sizes of the buffers and pieces, all options",
"Depends on where the pieces end in the text, in its characters and in the buffers.",
["src/text_reader.rs::read","src/text_writer.rs::write",TI+"::read",TO+"::write"])
p("C101","Reading all the text through a duplexer",
"After any reads and writes through a duplexer, read_to_end and read_to_string return; they fail exactly if what is left of the stream fails before its end, and otherwise append the rest of the text: together with what was read before, it is the text a reader delivers from the stream. Nothing is written; the writing side is as before, except that it counts as being at the start of a line if any text was read.",
"all streams, all histories of reads and writes (with any failures) before the call, all buffer contents and sizes suggested below, all options",
"The state left behind by the earlier reads and writes, and the chunking of the rest of the stream, are unbounded.",
["src/text_duplexer.rs::read_to_end","src/text_duplexer.rs::read_to_string","src/text_duplexer.rs::read_with_status",TO+"::newline"])
p("C102","Copying from one duplexer to another",
"Copying the text that is left in one TextDuplexer to another one, after any reads and writes on both, ends for every stream. It sends exactly that text and reports its length, and the receiving duplexer can then be closed; its unread text and what the first duplexer has written are left alone. It makes no difference to the discipline of line ends if nothing is left.",
"all streams, all earlier reads and writes on both duplexers, all options and buffer sizes",
"Depends on where the earlier reads stopped in the text and on what the receiving side has written or flushed.",
["src/copy.rs::copy_text","src/copy.rs::copy_text_using_status","src/text_duplexer.rs::read_with_status","src/text_duplexer.rs::write_text_substr"])
p("C103","A conversation between two duplexers",
"Two TextDuplexers are connected to each other; what one sends reaches the other in order, in pieces of any size and with any delay, while both read and write in any order. What each end reads is the beginning of the text the other has written, and all of it (with its last line ended) once the end of the stream is read. As soon as all that was sent has arrived and a read leaves room in its buffer, every complete line has been delivered. This holds without pushes, and with pushes after line ends when every line begins with a starter.",
"all interleavings of reads and writes at both ends, all ways of cutting and delaying what is sent, all options and buffer sizes, all texts of assigned characters",
"A test tries a few orders and timings; deadlocks and lost or repeated text depend on how the operations of both ends interleave with the arrival of each piece.",
["src/text_duplexer.rs::read_with_status","src/text_duplexer.rs::write","src/text_duplexer.rs::flush","src/text_duplexer.rs::close","src/text_input.rs::read_text_substr"])
p("C104","Text passes through any chain of copies",
"A stream is copied to a second one, that one to a third, and so on, each time from a TextReader to a TextWriter with copy_text, copy_text_using_status or std::io::copy. Only the first copy can change anything: the last stream holds exactly the text that the first reader read, whatever the options of the readers, the buffers, and the ways the streams arrive; a byte order mark and CR LF are there only if the last writer writes them.",
"all numbers of hops, all contents of the first stream, all options, buffer sizes and cuts of each stream into reads, any mixture of the three ways of copying",
"A test tries a fixed chain on a fixed text; that nothing is added or lost after the first conversion must hold for chains of every length and for every way the streams between are cut.",
["src/copy.rs::copy_text","src/copy.rs::copy_text_using_status","src/text_reader.rs::TextReader","src/text_writer.rs::TextWriter"])
p("C105","Text shown for debugging is faithful",
"escape_debug of a text, and what {:?} shows for it between quotes, stand for exactly that text, whatever the tables of the standard library are; where the quoted text ends can be told whatever follows. For a valid text they are on one line, without control characters, and are themselves valid Basic Text.",
"all texts and substrings, all tables of printable and grapheme-extending characters",
"Escapes and the characters around them meet in every combination, over all characters and versions of the tables.",
[TS+"::TextStr::escape_debug","src/text_substring.rs::TextSubstr::escape_debug",TS+"::TextStr",TS+"::TextString"])
p("C106","Formatted text is padded and cut by characters, and stays Basic Text",
"A text shown with {} and a width, precision, alignment and fill is the text, cut after as many characters as the precision says, with the fill before or after it up to the width. For a valid text the result is a valid text, and writing it to a TextWriter sends exactly that.",
"all texts and substrings, all widths, precisions, alignments and fill characters",
"Widths, cuts and fills meet any characters at the two ends of the text.",
[TS+"::TextStr","src/text_substring.rs::TextSubstr"])
p("C107","A stream cut off by a crash is read up to where it was cut",
"If the stream under a TextWriter or TextDuplexer fails at any call, or only some of the bytes it took are stored, reading what is stored gives a beginning of the text that was written, which contains everything that was stored whole. Only its end is repaired: with a line end, with U+34F before it where the text may not end, or with U+FFFD for half a character. The result is valid text. The same holds of text written with colours, also when a colour sequence is cut off.",
"all operations on the writer or duplexer, with and without colours, all failures of the stream below, all cuts between two bytes, with and without a byte order mark and CRLF; texts of assigned characters, and any valid text read at once",
"A crash can happen after any byte of any text.",
["src/text_writer.rs::TextWriter","src/text_duplexer.rs::TextDuplexer","src/text_output.rs::TextOutput","src/text_reader.rs::TextReader","src/text_input.rs::TextInput"])
p("C108","A damaged line does not change the other lines",
"If one line of a stored text is replaced by any bytes, a TextReader gives the lines before it and after it unchanged, and for the damaged line what these bytes read as alone. The same holds for text written behind text that was cut off: all complete lines before the cut, and all lines after the first one behind it, are read as they were. Reading may also start at any byte of the stored text: the lines after the first line end are read as they were. Bytes that bring in an escape sequence which is not finished before the line end can swallow the lines that follow; others do not. The lines may have colours; then what is written behind a cut must begin with a line end or a colour, if the cut is in a colour sequence.",
"all texts of complete lines, all bytes for the damaged line that leave no escape sequence open at its end, all cuts between two bytes, with and without a byte order mark and CRLF; texts of assigned characters, and any valid text read at once",
"The damage may be any bytes, at any place.",
["src/text_reader.rs::TextReader","src/text_input.rs::TextInput"])
p("C109","Lines of several writers over one stream are not mixed up",
"If several TextWriters write to the same stream and each call writes complete lines, then for every order of the calls the stream gets the texts of the calls that succeed, one after the other; together they are valid text, and a TextReader gives them back. A call that the stream refuses ends that writer only. If the stream takes a part of a text before it fails, only the lines up to the end of the first line written next are damaged. The same holds for writers with colours as long as the stream takes each text whole or not at all: a reader gives the lines without the colours; and else if each call begins with a colour sequence or a line end.",
"all numbers of writers, all histories of calls on them, all failures of the stream below, with and without a byte order mark and CRLF",
"The calls of several writers can come in any order.",
["src/text_writer.rs::TextWriter","src/text_output.rs::TextOutput"])
p("C110","An echo sends back the text it gets",
"A program that writes each text it reads from a TextDuplexer back to it sends exactly what it received, a beginning of it if a write fails. If no stream fails, no call fails, and the duplexer can be closed at the end. A peer that sent Basic Text reads its own text back, whatever line ends and byte order mark it uses. While the conversation goes on, at most the last line has not been sent back, after a read that left four bytes of its buffer unused. A flush after each text changes nothing if each text that is read begins with a starter and ends with an ender; else the echo can fail although the peer sends Basic Text.",
"all streams, failures of either side, buffer sizes and both line end modes; for the peer's own text, all valid texts of assigned characters",
"The texts that the program reads depend on how the stream and the buffers divide what the peer sends.",
["src/text_duplexer.rs::TextDuplexer","src/text_input.rs::TextInput","src/text_output.rs::TextOutput"])
p("C111","A conversation with a BufReader over a duplexer",
"A program reads lines through a std::io::BufReader over a TextDuplexer, and writes through get_mut(). The lines are those of the text the stream gives, whatever is written in between. Complete lines that are written are all sent, as one valid text, if closing succeeds. After a line was read, the duplexer can be closed even if a prompt without line end was written before, as without the BufReader (C44).",
"all streams that do not fail, all capacities of at least 136 bytes, all orders of reads and writes, all failures of the writing side",
"How many lines the BufReader has in advance depends on how the peer's text arrives.",
["src/text_duplexer.rs::TextDuplexer","src/text_input.rs::TextInput","src/text_output.rs::TextOutput"])
p("C112","A server that answers each line",
"A program reads lines through a std::io::BufReader over a TextDuplexer and answers each with a TextStr of complete lines, until the peer has finished. If nothing fails, it reads every line of the peer's text, it ends, closing the duplexer succeeds, and exactly the answers have been sent, in order. If something fails, the server stops, and if closing succeeds then exactly the answers to the lines that were read have been sent. Whenever the server waits for more from the peer, it has answered all complete lines that have arrived.",
"all streams, however they are cut, all functions from lines to answers, all capacities of at least 136 bytes, all failures of either side",
"The answers depend on the lines, and how many lines are read at once depends on how the peer's text arrives.",
["src/text_duplexer.rs::TextDuplexer","src/write_text.rs::WriteText","src/text_input.rs::TextInput","src/text_output.rs::TextOutput"])
with open(os.path.join(os.path.dirname(__file__),"..","properties.jsonl"),"w") as f:
    for x in P: f.write(json.dumps(x,ensure_ascii=False)+"\n")
print(len(P))
