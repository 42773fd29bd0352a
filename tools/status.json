{
 "C03": [
  "partial",
  "Checked table and replacement agree with the documented Sequence Table for every scalar value; the documentation's row for U+FB03 is refuted (it says fff, the code gives ffi)."
 ],
 "C12": [
  "proved",
  "For all strings."
 ],
 "C13": [
  "proved",
  "For all accepted strings, runs measured in the compatibility decomposition."
 ],
 "C14": [
  "proved",
  "Every contiguous part of a valid TextSubstr is valid; indexing on the model of str slices, too."
 ],
 "C15": [
  "proved",
  "Every contiguous part of a valid TextStr is a valid TextSubstr; indexing gives exactly the part between two byte positions."
 ],
 "C40": [
  "partial",
  "The property is false of the code: the quick test's condition is inverted. Refuted, with a theorem saying it is wrong on every valid string."
 ],
 "C01": [
  "proved",
  "For every script of chunks and failures, and every sequence of legal buffer sizes."
 ],
 "C02": [
  "proved",
  "Every character delivered in any session is accepted by the character check, which is independently related to the documented table in C03."
 ],
 "C04": [
  "partial",
  "Proved: the text delivered is the leftmost-longest replacement by the documented grammar (with CAN also ending ESC and CSI sequences) followed by guards and the pipeline, exactly if no read ends between U+34F and an unassigned character; the cut exists and is unique. Against the documentation literally: proved for input without CAN and without the three odd rows, refuted for ESC CAN."
 ],
 "C05": [
  "proved",
  "As stated; also shown: without the condition, a cut into reads changes the text exactly if a read ends between U+34F and an unassigned character after it, and then the text is longer."
 ],
 "C06": [
  "proved",
  "Any two sequences of buffer sizes; streams without failures for the received text. With failures see C08."
 ],
 "C07": [
  "proved",
  "For every successful read reached in any session."
 ],
 "C08": [
  "partial",
  "The property is false of the code: refuted (buffer left invalid, text lost). Given exactly: the buffer stays valid iff what the failing call wrote ends at a character of the old contents; no text is lost iff no failing call wrote anything, which holds directly after a call that left four bytes unused."
 ],
 "C09": [
  "proved",
  "End implies everything was delivered; every stream reaches the end after finitely many reads."
 ],
 "C10": [
  "partial",
  "The property is false of the code: refuted for chunks larger than the buffer and for text without line end. Given exactly: a push is reported iff the call in which it arrives leaves four bytes unused, and the text before it is complete iff it ends with a line end; no push is invented."
 ],
 "C11": [
  "proved",
  "For all strings."
 ],
 "C26": [
  "partial",
  "What is inserted is given place by place for every text (C26_isolation_exact): as documented, except after an unassigned character that itself follows U+34F (C26_places_differ). Complete and as documented exactly if every unassigned character after U+34F is followed by U+34F or another unassigned one; refuted otherwise. Being preceded by U+34F is proved for all sessions."
 ],
 "C27": [
  "proved",
  "For all strings."
 ],
 "C38": [
  "proved",
  "For all strings of scalar values and all byte strings, the lossy decoding included."
 ],
 "C39": [
  "partial",
  "Proved: the text equals that of the stream with the leading BOM of the first read dropped and other BOMs written as U+2060, which are all delivered. Refuted for a BOM after an empty first read."
 ],
 "C42": [
  "partial",
  "The property is false of the code: refuted when a partial line is queued. Given exactly after a call that left four bytes unused: it panics iff more than the final line end is held back (text not ending with U+C); proved after the end and for an unread reader. A duplexer panics exactly when its reader would, and is silent afterwards. Once abandoned after such a call it delivers nothing more at the end, not even the supplied line end."
 ],
 "C43": [
  "partial",
  "Separators are replaced as the options say and every line end of the replaced text is delivered; without the separators an option makes no difference. The documented order (separators replaced before the table is applied) is refuted."
 ],
 "C28": [
  "proved",
  "For every history of write_str, write, flush, close and abandon, every failure of the stream below, and also histories with non-empty write_text calls; also with colours. Also shown: an empty write_text breaks it (outside the property's condition)."
 ],
 "C29": [
  "proved",
  "For every history and every failure, also partial ones, of the stream below."
 ],
 "C30": [
  "proved",
  "For every history, not just one write; the relation of the outputs when failing calls accept nothing, every line end preceded by CR in any case."
 ],
 "C31": [
  "proved",
  "For every writer state. A failed flush is not part of the property: shown that dropping may then panic."
 ],
 "C32": [
  "proved",
  "For every writer state and all byte strings."
 ],
 "C33": [
  "proved",
  "After every history; the error values may differ in kind, so success is compared, and on success the whole writer state."
 ],
 "C34": [
  "partial",
  "False of the code as stated: refuted for a combining character in a second write, and after an empty write. Proved: everything but normalization across write boundaries for non-empty writes, in full for writes of whole lines, and exactly (if and only if no two Hangul syllable parts meet) for writes that begin with starters."
 ],
 "C35": [
  "partial",
  "Proved for non-empty texts, also with unassigned characters preceded by U+34F; refuted for the empty text."
 ],
 "C41": [
  "proved",
  "For every history; complete sequences only. Colours and CRLF are never combined by the constructors, so the theorem is about the mode without CRLF."
 ],
 "C45": [
  "proved",
  "For every history, also with failures of the stream below."
 ],
 "C16": [
  "partial",
  "False of the code as stated: refuted (two Hangul letters). Proved exactly when it holds: unless the characters that meet are Hangul letters that compose. For extending by several strings, too, exactly when the result is valid (C16_extend_exact)."
 ],
 "C17": [
  "partial",
  "False of the code as stated: refuted for trim_start and trim_end. Proved exactly when it holds, and in full for TextSubstr. What is removed is stated with the list of White_Space characters."
 ],
 "C18": [
  "partial",
  "False of the code as stated: refuted. Proved exactly when it holds."
 ],
 "C19": [
  "proved",
  "For every string; also for TextStr::from_text, which succeeds exactly on valid strings."
 ],
 "C20": [
  "partial",
  "Success exactly as documented, for every string, and the result is given exactly for every string (C20_exact). It is the documented one exactly if every unassigned character after U+34F is followed by U+34F or another unassigned one; refuted otherwise."
 ],
 "C21": [
  "proved",
  "For every string."
 ],
 "C22": [
  "proved",
  "For every string, every way the bytes may arrive in reads, and any legal buffer sizes; termination too. Byte strings through the model of from_utf8_lossy."
 ],
 "C23": [
  "proved",
  "For every string and stream, CRLF mode or not."
 ],
 "C24": [
  "partial",
  "Proved exactly: valid text is kept iff its unassigned characters are preceded by U+34F and no inner read is cut between such a U+34F and the character (badly_cut); in particular isolated text that arrives in one read. Refuted otherwise."
 ],
 "C25": [
  "partial",
  "Proved for from_text of all four types. Refuted for the from_text_bytes/from_text_vec functions on invalid UTF-8: there the position is exactly the end of the UTF-8 at the front (C25_bytes_exact), which is not always valid Basic Text."
 ],
 "C46": [
  "proved",
  "For every string and position."
 ],
 "C47": [
  "partial",
  "False of the code: refuted for a string starting with a combining character. Proved: it accepts exactly what TextString::from_text accepts, with the same result; so strings that are also valid TextStrs."
 ],
 "C48": [
  "partial",
  "False of the code as stated: refuted. Proved exactly when it holds."
 ],
 "C36": [
  "partial",
  "Proved: from a reader whose stream does not report Interrupted, copy_text writes exactly the delivered text, for any writer; copy_text_using_status likewise if the stream pushes only after line ends. Refuted with Interrupted (text is lost) and with pushes elsewhere (the writer refuses). Whatever fails and wherever the pushes are, both send a beginning of the delivered text, all of it on success or a failed read. For copy_text_using_status without failures it is decided exactly: everything is copied iff each push is after text that may be the end and before text that may be the beginning of a Basic Text string; else the writer refuses (C36_using_status_exact)."
 ],
 "C37": [
  "partial",
  "Proved for every line-terminated source: the lines are exactly the source's lines, each invalid one gives an error, joining them gives the source back. Refuted: on a stream whose lines are separately valid but not together, and on an unterminated last line (panic). Also proved whatever pieces the source arrives in; refuted for a source that fails mid-line."
 ],
 "C44": [
  "proved",
  "For all interleavings, including failures of the stream below and abandoned sides, with and without colours: the duplexer refines a specification of two independent sides plus the rule that a line read puts the write side at a line start; and for any writes at all, closing succeeds only if the text sent since any moment after the last line read is empty or ends with a line end."
 ],
 "C49": [
  "partial",
  "Refuted in general: an exact read cannot finish unless the last character has four bytes, and a stream that ends too early need not be reported as ended. Proved for every stream that does not fail: exactly when an exact read succeeds and exactly when it reports an unexpected end. An empty exact read through a duplexer underflows; otherwise an exact read through a duplexer is one by its reader. The variant with a status succeeds exactly when the plain one does, with the same text; it reports an unexpected end exactly when the end was seen, and always comes to an end."
 ],
 "C50": [
  "partial",
  "Proved for all sources: what each item is, that it is valid when it is, and that valid text is kept line by line. Refuted: an item may contain a line end. The same whatever pieces the source arrives in. C50_conversion: a conversion as the theorems suppose exists."
 ],
 "C51": [
  "proved",
  "For all interleavings and both option sets."
 ],
 "C52": [
  "partial",
  "Refuted twice with short programs. Without colors given exactly for writes that begin with starters: valid iff the end is an ender and no two Hangul syllable parts meet; in full if every written piece is a whole line."
 ],
 "C53": [
  "partial",
  "The part read is valid for every session. Refuted for the rest of the buffer, which may get U+0, so that the provided exact read panics. C53_default_exact_any and C53_default_exact_status_any say exactly when, for any buffer: iff the text read so far ends inside a character of the buffer (so never when it has only one byte characters). When the provided exact read succeeds or reports the end, so does the reader's own exact read, and the version with a status never reports the end together with success. Refuted: it fails on a read without text, which the reader's own exact read repeats."
 ],
 "C54": [
  "partial",
  "Proved exactly: an assertion fails iff the writer accepts the bytes and an inner read is cut between U+34F and an unassigned character; only the comparison with the writer can fail. Refuted for such a cut."
 ],
 "C55": [
  "partial",
  "Never panics. Refuted on invalid UTF-8 (arbitrary makes the UTF-8 at the front, which need not be valid Basic Text). C55_arbitrary_str_exact and C55_arbitrary_substr_exact say exactly when the value is valid: iff the bytes are UTF-8 or the text at their front is valid. Proved in all cases for take_rest."
 ],
 "C56": [
  "proved",
  "For all ordinary texts: allowed, assigned, with no run of more than 30 non-starters."
 ],
 "C57": [
  "partial",
  "Proved exactly, for every options and cut into reads: unchanged iff the text is as stated and no read is cut between U+34F and an unassigned character (badly_cut); refuted for such a cut."
 ],
 "C58": [
  "proved",
  "For all texts and byte strings."
 ],
 "C59": [
  "proved",
  "For every cut; also shown that a flush between the pieces breaks it."
 ],
 "C60": [
  "proved",
  "For every history of whole-line writes of assigned text. With unassigned characters exactly: it is read back iff they are preceded by U+34F and the stream is not read again between U+34F and an unassigned character (C60_exact)."
 ],
 "C61": [
  "proved",
  "For all literals."
 ],
 "C62": [
  "partial",
  "The set of non-starters is exactly the documented one; of the non-enders exactly U+890 and U+891 are missing. Every documented string is accepted; an accepted string is documented iff its unassigned characters are isolated and it does not end with U+890 or U+891 (both conditions shown necessary: refuted without). What a reader delivers is a documented stream iff isolated, and is isolated if no unassigned character of the converted input already follows U+34F."
 ],
 "C63": [
  "partial",
  "Proved for all scalar values except an explicit list (other_message), for which the message is shown to differ: among others, the characters for which the table names a substitute that the error does not, and color sequences when colors are off. A write refused for a character contains one; which error is reported when there are several is proved exactly, with the look-ahead of the normalizer (C63_exact), and there always is one (C63_no_panic)."
 ],
 "C64": [
  "proved",
  "For all texts; transitivity and antisymmetry too."
 ],
 "C65": [
  "proved",
  "In full, for string patterns (the empty one too) and for patterns of single characters."
 ],
 "C66": [
  "partial",
  "Exactly the lines, for every text without U+D (valid text has none); each is a valid substring. Refuted that each is a valid TextStr: a line may begin with a combining character; it is one iff its first and last characters allow it."
 ],
 "C67": [
  "partial",
  "Exactly the stated results for every writer and all bytes; vectored writing is writing each buffer in turn. Refuted that it is like writing the concatenation: a character cut between two buffers is refused. Also one call of write and write_vectored."
 ],
 "C68": [
  "partial",
  "It always ends, with the right count and a writer that closes. What is sent is given exactly: the text read, unless a read happens to begin with an unassigned character, which then gets another U+34F (iff; refuted for a buffer that ends there). Whatever fails, what is sent is a beginning of the converted texts, all of them on success or a failed read (C68_any)."
 ],
 "C69": [
  "partial",
  "Proved for any text with pushes anywhere when the first stream ends with a line end outside escape sequences and the second does not begin with a BOM (each shown necessary: refuted for an open OSC and for a BOM): if the two streams are not read again between U+34F and an unassigned character, the texts are concatenated exactly if the third is not either (C69_exact), in particular if no unassigned character follows U+34F. When the second text does not begin with a starter only its first U+34F is missing; with a push between the two it does not matter how it begins (C69_push_between, C69_push_exact)."
 ],
 "C70": [
  "proved",
  "The text delivered from every stream is given exactly, read by read; the cuts matter exactly as stated (refuted that they never do). Elsewhere than after lines pushes do change the text (shown for CR, LF). A leading BOM must not come after an empty read, as in C05."
 ],
 "C71": [
  "proved",
  "In full."
 ],
 "C72": [
  "partial",
  "Text is delivered unchanged exactly when each text between the pushes that the second reader sees begins as a text may and no read is cut between U+34F and an unassigned character (C72_layered_all_exact, for any options, cuts and pushes); in particular for assigned text without pushes. Refuted for such a cut and for such a push."
 ],
 "C73": [
  "proved",
  "In full; the position is that of C25."
 ],
 "C74": [
  "proved",
  "In full. Also: equality up to case does not keep validity (shown)."
 ],
 "C75": [
  "proved",
  "In full for the two functions; escape_debug is not modelled."
 ],
 "C76": [
  "proved",
  "For every session, any options, pushes and failures: after a call that leaves at least four bytes, what is held back (compared with a stream that ends there) is at most one line. C76_line_ended: when the last character read is a line feed and the text has no escapes, a call that leaves room holds nothing back; C76_example_escape_needed: an unfinished operating system command swallows the line feed. C76_line_ended_exact: without pushes and escapes, while the stream goes on, nothing is held back exactly if the last character read ends a line (LF, or NEL, LS, PS with their options). C76_line_ended_sequences: with pushes and escapes, nothing is held back exactly if the last sequence of the text (as documented) is a line end, unless the last character is a carriage return, whose line waits for the next character."
 ],
 "C77": [
  "proved",
  "For every history of operations (empty TextSubstr writes left out, see C28) and every behaviour of the stream below; if U+34F precedes the unassigned characters of the TextSubstr texts, they are written as by one writer, and a refutation shows that this is needed."
 ],
 "C78": [
  "proved",
  "In full: readers (any stream, options, buffer sizes), malformed bytes, writers (any history, colours, CRLF output), strict and lossy strings (lossy: plus four bytes, for a byte order mark kept as U+2060). Refuted for a factor of three."
 ],
 "C79": [
  "partial",
  "In full for the text written. Filtering twice is proved to change nothing exactly if the text has no CR CR LF and does not end with CR; refuted otherwise."
 ],
 "C80": [
  "proved",
  "For every stream without the three variation selectors (also with escape sequences and pushes); the way back for valid text of assigned characters. Refuted, as it must be, for streams that already contain variation sequences."
 ],
 "C81": [
  "partial",
  "What is accepted and sent is given exactly for all texts, also if the sequences are cut anywhere into several writes. The property itself is refuted: an accent after a sequence is composed with its final m and the write is refused (exactly then, besides for a character that is not allowed: merges); a sequence hides a leading non-starter; a flush after U+200D and a sequence is accepted; closing after a line end and a reset sequence is refused; a text written with write_text in the middle of a sequence loses its beginning; so does a sequence in the middle of which a duplexer reads a line. With unassigned characters it is read back exactly under the condition of C60 (C81_exact, C81_cut_exact)."
 ],
 "C82": [
  "proved",
  "In full."
 ],
 "C83": [
  "partial",
  "The code violates it (C83_values_refuted: + of Hangul jamos, trimming a space that carries an accent, repeating a substring). Proved for all programs that check for these cases first, for all programs whose texts have no vowel or trailing jamos and nothing attached to white space (substrings: repeated only if they start like a text), and without exception for precomposed text."
 ],
 "C84": [
  "partial",
  "Accepted exactly as documented, and what is sent is given exactly (C84_exact). The documented text is sent exactly if every unassigned character after U+34F is followed by U+34F or another unassigned one; refuted otherwise (as for C20 and C26)."
 ],
 "C85": [
  "partial",
  "Given exactly: what a call returns, takes and leaves in the buffer for every source. Valid as long as the source does not fail, also for the lossy version. Refuted after an I/O error in the middle of a line, which leaves the partial line in the TextString unchecked; an invalid line loses the old contents; the lossy version may change them."
 ],
 "C86": [
  "partial",
  "Proved for writers that have not failed; exactly when it succeeds is given (C86_exact). Refuted after a failed write: the writer is then as at the start of a line and close_into_inner succeeds. It neither flushes nor closes the stream, contrary to its comment."
 ],
 "C87": [
  "proved",
  "In full. Also: readers over readers work exactly if the stream at the bottom asks for at most 4096 bytes."
 ],
 "C88": [
  "partial",
  "Proved for isolated text, with exact conditions for conversions and sessions. Refuted without isolation (a U+34F of the stream's own before an unassigned value keeps the one after it from being added, C88_guarded_refuted), and for characters that come with a decomposition of their own, which no isolation can protect (C88_decomposing_refuted)."
 ],
 "C89": [
  "proved",
  "In full, with pushes anywhere."
 ],
 "C90": [
  "proved",
  "In full."
 ],
 "C91": [
  "proved",
  "In full, over the character data of UcdTables.v (trusted); also for the iterators as they run (C91_iterators)."
 ],
 "C92": [
  "partial",
  "Proved for any text, with or without pushes, for any mixture of line ends: if one stream is not read again between U+34F and an unassigned character, the texts are equal exactly if the other is not either (C92_exact), in particular if no unassigned character follows U+34F or each is one read. Exception: where a text has \"ESC [ [\" directly before a line end that line end must not be CR LF: the code takes the one character after \"ESC [ [\" with the sequence, so a LF or CR disappears but of CR LF the LF remains (C92_refuted). With CR only there is no such exception (C92_cr_only). A push between CR and LF makes two line ends (C92_pushed_refuted). The lossy conversion is decided in the same way (C92_lossy_exact; in full for strings taken in one read, C92_lossy_one_read)."
 ],
 "C93": [
  "proved",
  "In full (writers without terminal colours; what a writer with colours sends is C41 and C81)."
 ],
 "C94": [
  "proved",
  "In full, for the iterators of NormIter.v (those of unicode-normalization are in the trusted base). The bound is 69; 66 is reached (C94_example)."
 ],
 "C95": [
  "proved",
  "In full; std's BufReader is modelled in StdBuf.v. With a buffer of less than 136 bytes small reads are always refused (C95_short). The lossy lines (text_lines_lossy) over the BufReader are those of the text, one valid string for each line and no error; with failing reads an error for each failure. C95_into_inner: every byte read is in a line given or still in the BufReader, which is what into_inner loses."
 ],
 "C96": [
  "proved",
  "In full; std's BufWriter and LineWriter are modelled in StdBuf.v. With pieces cut inside lines, what a BufWriter sends depends on its capacity, need not be Basic Text, and is reported as a success (C96_cut_refuted). For bytes cut anywhere and buffers of any size, the groups of bytes that reach the writer are given exactly (C96_bufwriter_groups, C96_linewriter_groups), and for a text that needs no conversion when it is accepted and what is sent (C96_any_size)."
 ],
 "C97": [
  "partial",
  "Chain in full. Take never gives more than the limit and Ok(0) means the limit or the end; a text that ends 136 bytes before the limit is given completely. Refuted otherwise: the reader refuses the buffer once fewer than 136 bytes are left, so take fails for texts within the limit, and always for limits under 136. C97_take_exact says exactly when: with a limit less than 136 bytes beyond the text there is an error, unless a character of four bytes ends at the limit. Refuted for bytes: it gives errors only and never ends. A vectored read is a read into the first buffer that is not empty (C97_vectored); it is refused, and changes nothing, when that one is short or there is none (C97_vectored_short, C97_vectored_refuted)."
 ],
 "C98": [
  "partial",
  "What is accepted, where the call stops and what is sent are exact (C98_written, C98_stops). That the formatted text is converted as a whole is false of the code: each piece is normalized alone (C98_at_once_refuted: writeln!(w, \"e{}\", \"\\u{301}\") sends text that is not normalized). If the later pieces begin with an assigned character that may begin a text, the result is that of one write exactly if no Hangul characters join (C98_at_once_partial). Through a LineWriter that holds the lines it is converted as a whole (C98_linewriter)."
 ],
 "C99": [
  "partial",
  "Everything about read_to_end and read_to_string is proved as stated, and read_to_text_string succeeds exactly if the stream does not fail (C99_text_string_partial; it never finds a starter missing). That it leaves a valid TextString is false of the code when the string it is appended to ends, and the text begins, with Hangul characters that join (C99_text_string_refuted), and true in every other case, in particular for a new TextString (C99_fresh). What a failed call leaves in the Vec is decided by layered_io and not modelled."
 ],
 "C100": [
  "partial",
  "False of the code in two ways, if a line does not fit in the LineWriter: a buffer that is full within a character is passed to the TextWriter, which refuses the valid text as invalid UTF-8 (C100_copied_refuted), and one that is full before an unassigned scalar value makes the writer send U+34F twice (C100_changed_refuted). C100_exact says exactly when, for all sizes: all is copied iff no group of bytes passed on ends within a character, and unchanged iff no group begins with an unassigned scalar value. If the lines, with one piece more, fit in the LineWriter, the property holds (C100_copied_partial). That copying ends holds for every stream and writer (C100_total), and so does what each result means (C100_any). The specializations of std::io::copy for BufReader and BufWriter are not modelled."
 ],
 "C101": [
  "proved",
  "layered_io's default_read_to_end is modelled from its documentation, as for C99."
 ],
 "C102": [
  "partial",
  "Decided exactly for copy_text and copy_text_using_status after all histories without failures: everything is copied if the receiving side accepts the rest of the text (it has not failed and, at its start or after a flush, the rest does not begin with a non-starter; with statuses also at each push), else it refuses and copy_text sends nothing. Refuted: the earlier reads may stop before a non-starter, which a new duplexer refuses; copy_text_using_status writes an empty text when nothing is left, after which an unfinished line may be closed. With any failures what is sent is a beginning of the text read (C102_any)."
 ],
 "C103": [
  "proved",
  "Proved for every interleaving. C103_sides needs no hypothesis: each end is a duplexer on a stream that gives what the other has sent so far, so all theorems about duplexers apply. C103_heard and C103_prompt are about a colourless sender none of whose writes failed, whose whole text is Basic Text of assigned characters, and a connection without errors or pushes; C103_lines shows that writes of whole lines always make such a text. The sender writes nothing after it has called close; then the end is read only after the close succeeded and all it sent was taken (C103_end). After any conversation str_len + 2 further reads hear everything (C103_delivered). With pushes after line ends, and lines that begin with starters, all this remains true (C103_pushed_heard, _prompt, _lines, _delivered); both conditions are needed (C103_pushed_conditions). A sender that writes with colours, its sequences cut anywhere, is heard without them (C103_colour_heard, _prompt, _delivered); a sequence after the last line end makes the other end hear an empty line that was not written (C103_colour_extra_line). An unfinished line is held back although flushed (C103_unfinished_held)."
 ],
 "C104": [
  "partial",
  "Proved for assigned text and any mixture of the three ways of copying (C104_chain_partial). For any text, copied with copy_text or copy_text_using_status, exactly if no stream between is read again between U+34F and an unassigned character (C104_exact, C104_stored_exact); else U+34F is added (C104_refuted). The streams between are without pushes there; with pushes it is proved if each text between two pushes begins and ends as a text may (C104_pushed_partial). The first stream may be anything."
 ],
 "C105": [
  "partial",
  "Reading back, the closing quote and the single line are proved for all texts and all tables; {:?} of a valid text or substring is a valid text. escape_debug is refuted: LF U+301 is shown as \\n U+301, and the n combines with U+301 (C105_valid_refuted); it is valid exactly if no letter of an escape combines with what is shown after it (C105_valid_exact). The same holds for substrings (C105_substr_exact)."
 ],
 "C106": [
  "partial",
  "The shape is proved for every text and format. Nothing cut off and an ASCII fill: always a valid text (C106_valid), and what write! sends (C106_written). Refuted in general: a precision can leave U+200D at the end (C106_cut_refuted), and a Hangul fill can join with the text (C106_fill_refuted); exactly these two cases are not valid (C106_fill_exact). Substrings are proved for the usual fill, a space, and refuted for letters (C106_substr_refuted)."
 ],
 "C107": [
  "proved",
  "C107_crash is the whole way from the operations to the text read again; C107_sent and C107_cut_off are its two halves, and C107_at_once has text with unassigned characters. C107_duplex_sent and C107_duplex_crash are the same for a TextDuplexer, with reads between the writes. C107_colour_sent, C107_colour_cut, C107_colour_at_once and C107_colour_crash are the same for text written with colours. C107_frag_sent and C107_frag_crash allow colour sequences cut into several writes, and C107_duplex_colour_sent and C107_duplex_colour_crash are these for a TextDuplexer. (Text with unassigned characters read in pieces is C57_cut_refuted and C60_exact.)"
 ],
 "C108": [
  "proved",
  "C108_middle and C108_first have the damaged line after other lines and at the start, C108_at_once and C108_first_at_once the same for text with unassigned characters, and C108_append text behind text that was cut off. C108_seek and C108_seek_at_once start at any byte. C108_escape, C108_escape_first and C108_escape_at_once allow escape characters in the damaged line if its line end is not taken into a sequence, and C108_colour and C108_colour_at_once also have colours in the other lines. C108_escape_refuted shows that the condition is needed: an unfinished OSC sequence swallows the next lines. C108_colour_first, C108_colour_first_at_once, C108_colour_seek, C108_colour_seek_at_once and C108_colour_append are the other cases with colours; C108_colour_append_refuted shows that text behind a cut-off U+1B can be lost. C108_append_at_once, C108_colour_append_at_once: the same with unassigned characters, for text that arrives at once."
 ],
 "C109": [
  "proved",
  "C109_sent is the general description, with calls of which the stream takes only a beginning; C109_ended says that a writer stops once a write of it has failed; C109_whole, C109_valid and C109_read are for calls of complete lines, and C109_read_at_once has text with unassigned characters. C109_cut and C109_cut_at_once have calls of which the stream takes only a part, and writers that end lines in different ways: all texts of the calls that succeed are read, and damage is confined to the lines next to the part. C109_pieces_refuted shows that the lines have to be complete: pieces of lines from two writers can join to text that is not valid. C109_colour_sent, C109_colour_read: the same for writers with colours and streams that refuse whole texts; C109_colour_parts is the general description with colours, and C109_colour_cut, C109_colour_cut_at_once confine the damage when each call begins with a colour sequence or a line end. C109_colour_cut_refuted: else, when the stream takes a part of a text with colours, later lines of another writer can be lost."
 ],
 "C110": [
  "proved",
  "C110_any: any failures; C110_all: neither stream fails; C110_returned: the peer's own text comes back; C110_prompt: what is not sent back yet; C110_flushed: with a flush after each text, under the stated condition on the texts that are read, and only then (C110_flushed_exact). C110_colour: a duplexer with colours does the same. C110_flushed_refuted shows that the condition is needed: a read can end before a combining character, which may not be written after a flush. C110_prompt also: if what the peer has sent so far ends with a line feed and has no escapes, all of it has been sent back."
 ],
 "C111": [
  "partial",
  "C111_lines: the lines, whatever is written; C111_reads: the same as without the writes, also if the stream fails; C111_into_inner: every byte read is in a line given or still in the BufReader, which is what into_inner loses; C111_history: each conversation is a history of the duplexer with the same writes, so that C51 and C52 apply; C111_written: complete lines. The last part is false of the code: C111_prompts_refuted (two prompts without line ends, and the peer's two lines arrive together: the second line is in the BufReader already, the duplexer is not told about it, and closing fails, although it succeeds if the lines arrive one by one). C111_close proves it when the line was not in the BufReader already, and the BufReader holds nothing or complete lines after it."
 ],
 "C112": [
  "partial",
  "C112_all: total correctness without failures; C112_closed: any failures, any end of the server; C112_conversation: the server is a conversation of C111, so that C111 and C51 apply to it. The last sentence is false of the code: C112_all_answered_refuted (more text arrives at once than fits the BufReader's buffer of 136 bytes; the call that hands out the rest, a complete line, first asks the stream for more, so server and peer wait for each other). C112_waiting says exactly what may be unanswered: the last line, and before it a text that fits the buffer with four bytes to spare. C112_waiting_short: if the text that has arrived fits the buffer, at most the last line has not been answered when the server waits, and none if what arrived ends with a line feed (and has no escapes). C112_waiting_few: so it is if four times the bytes that arrived, and five, fit the buffer (by C78)."
 ]
}