# A machine-checked model of basic-text

This directory holds a Coq 8.16.1 model of the `basic-text` crates and proofs of
the properties listed in `properties.jsonl`. `MANIFEST.json` maps every
property to the theorems that settle it.

## What is modelled

Characters are numbers (`N`), strings are `list N`. Everything is a total,
computable function; loops are structural recursion or carry fuel that is
proved sufficient; a Rust panic is an explicit result.

| Model file | Source it models |
| --- | --- |
| `Base.v` | common list / option helpers, tries |
| `UcdTables.v` | generated Unicode 15.1 data (see *Trusted base*) |
| `Ucd.v` | the lookups of the `unicode-normalization` crate used by this code |
| `Norm.v` | the iterators of `unicode-normalization`: decomposition, canonical ordering, recomposition, Stream-Safe, quick check, `is_nfc_stream_safe`, CJK variants |
| `NormIter.v` | the conversion chain as it runs: every iterator with its buffers, the error cell, and `state_machine` on top of it |
| `TextTables.v` | generated from `internals/src/text_utils.rs`: the four big `matches!` tables |
| `Chars.v` | `internals/src/{unicode,check,replace}.rs` and the predicates of `text_utils.rs` |
| `TextUtils.v` | `internals/src/{isolate_unassigned,categorize,text_utils}.rs` |
| `Utf8.v` | `char::encode_utf8`, `str::from_utf8`, char boundaries |
| `Input.v` | `src/text_input.rs` (and through it `text_reader.rs`) down to bytes in the caller's buffer |
| `Output.v` | `src/text_output.rs` (and through it `text_writer.rs`) |
| `Strings.v` | `src/text_string.rs`, `src/text_substring.rs` |
| `Lines.v`, `Copy.v`, `Duplex.v` | `buf_read_text.rs`, `copy.rs`, `text_duplexer.rs` |
| `Fuzz.v` | `fuzz/fuzz_targets/text.rs`, with the UTF-8 layer as `utf8_lossy` |
| `Errors.v` | the messages of `internals/src/check.rs`, the error cell of `categorize.rs` |
| `Search.v` | `partial_eq.rs`, the order, search and `lines` methods of the string types |
| `Views.v` | `char_indices`, `encode_utf16`, `is_ascii`, `eq_ignore_ascii_case`, `escape_unicode`, `escape_default`, `rmatch_indices` of the string types; `FromTextError` |
| `StdBuf.v` | `std::io`'s `BufReader` over a reader, `BufWriter` and `LineWriter` over a writer |
| `StdAdapt.v` | `std::io::Read`'s adaptors `take`, `chain` and `bytes` over readers |
| `StdRead.v` | `read_to_end`, `read_to_string` and `read_to_text_string` of a reader (layered_io's loop) |
| `StdCopy.v` | `std::io::copy` from a BufReader to a LineWriter |
| `StdDuplex.v` | `read_to_end` and `read_to_string` of a duplexer; vectored reads |
| `DuplexCopy.v` | copy_text and copy_text_using_status from one duplexer to another |
| `Talk.v` | two duplexers connected to each other |
| `StdLines.v` | `text_lines_lossy` over a `BufReader` |
| `StdDebug.v` | `escape_debug` and the derived `Debug`, over std's character tables as parameters |
| `StdPad.v` | `Display` with a width, precision, alignment and fill |
| `Shared.v` | several writers over one stream (handles of the same file) |
| `Echo.v` | a program that writes each text it reads from a duplexer back to it |
| `DuplexBuf.v` | std's BufReader over a duplexer, with writes in between |
| `Serve.v` | a program that answers each line it reads from a duplexer |
| `StdFmt.v` | `std::io::Write::write_fmt` (`write!`, `writeln!`) over writers |
| `StdIo.v` | `std::io`'s `write_all`, `write_all_vectored` and `copy` over the reader and writer |
| `Stack.v` | a `TextWriter` over another `TextWriter` |
| `Examples.v` | `examples/nfc-cat.rs`, `ssnfc-cat.rs`, `text-cat.rs` |
| `Arbitrary.v` | the `Arbitrary` implementations and the checks of the `literals` macros |

`Spec*.v` files hold the independent specifications used in theorem statements
(the documented grammar of the Sequence Table, the definition of a Basic Text
string, ...), taken from `docs/BasicText.md`, not from the code. Proof files
are separate from model files. `Prop*.v` contain the final theorems
(one-line proofs by an earlier lemma), their non-vacuity examples and
`Print Assumptions`.

The environment (the wrapped stream) is modelled as an arbitrary script: for
readers a list of events, each a chunk of scalar values with a status or an
error, followed by end-of-stream for ever; for writers a list of outcomes of
the calls on the underlying stream. Theorems quantify over all scripts.

## How each property is proved

* **Normalization core (C12, C13, C11, C14, C15).** `Norm.v` is proved against
  facts about the Unicode tables that are each a finite check over the
  table (`forallb` + `vm_compute`, lifted by induction on the table). Canonical
  equivalence is the congruence generated by swapping adjacent non-starters
  with different combining classes. Idempotence of NFC: recomposition
  preserves canonical equivalence of the full decomposition. Soundness of the
  quick check: each QC=Yes segment re-composes stepwise; anything QC=No is
  changed. Stream-Safe: the starter/non-starter pattern of the compatibility
  decomposition is an invariant of canonical equivalence. Substring closure:
  removing the last or the first character of a stable string leaves a stable
  string.
* **Reader (C01, C02, C04-C11, C39, C42, C43).** An invariant relates the state
  of the reader to a specification of the whole conversion: delivered text ++
  pending text = concatenation of pieces, each piece the pipeline applied to a
  block of translated characters ending in '\n' or U+34F. The escape state machine is
  proved equal to an independent grammar-based function.
* **Character tables (C02, C03).** Case analysis on ranges / finite checks.
* **Strings (C16-C25).** From the reader/writer theorems plus closure
  properties. Where the code violates the property, a `_refuted` theorem
  gives the witness and a `_partial` theorem the part that holds.
* **Isolation (C26, C27).** Induction on the state machine, with the two characters before each place
  as its state; the statements (SpecGap.v) say place by place where U+34F is put, and C04, C05, C20, C70
  and C84 are stated with them.
* **Writer (C28-C35, C41).** Invariants over arbitrary histories of operations
  and inner failures.
* **UTF-8 (C07, C32, C38).** Arithmetic on `N`.
* **Copy, exact reads, lines, duplexer (C36, C37, C44, C49-C53).** Composition
  of the above: induction on the script's remaining length for the loops,
  induction on the operations for the duplexer, whose specification
  (`SpecDuplex.v`) knows only the text written and the results of the reads. With
  colours (`SpecDuplexColour.v`) it also keeps the part of a sequence written; for any
  writes at all, an invariant says where the text sent since a given moment ends.

* **Combinations (C54-C61).** From the reader, writer and string theorems: what
  the fuzz target asserts, generated values, canonical equivalence, fixed points of
  reading, agreement of writer and strings, writing in pieces, round trips.

* **Documented form (C62).** `SpecDoc.v` states the definitions of
  `docs/BasicText.md` with the Grapheme_Cluster_Break data; range checks both ways
  compare them with the code's tables, the rest follows from C01, C12, C13 and C26.

* **Errors (C63).** `DocErrors.v` is generated from the Error column; a check over
  all its rows against `Errors.v` (the format strings of `BasicTextError`). The cell
  in which `Categorize` leaves its error is a fold over the characters read so far.
  How far the normalizer has read when a refused character comes out is proved in
  `NormAhead.v` about `NormIter.v`, by an invariant of each iterator that relates what
  it has taken in to what the list functions give for that prefix.

* **Where reads are cut (C05, C24, C54, C57).** `SpecCut.v` names the cuts between
  U+34F and an unassigned character; the text delivered is written piece by piece and
  compared with that of one read: equal lengths exactly without such cuts.
* **Concatenation and pushes (C69, C70).** `SpecCat.v` and `SpecPush.v` describe streams
  that are put one after the other, and the texts between pushes (`segments`). `PushProps.v`
  follows the translated text over all events; each segment is translated on its own by the
  theorem about the state machine behind C04. `CatPush.v` combines the two: streams with
  pushes in them, and pushes between streams. `SpecCertain.v` says what of the converted text
  is known after each read (the replacements that are the same however the text goes on), and
  `CertainProps.v` proves that the text of every stream is what becomes known, converted step
  by step, and so exactly when the cuts between reads matter, with no condition on the text.

  `WellCut.v` uses this to give C69 and C92 for any text: the condition is only where the
  reads are cut (`SpecWellCut.v`); `LossyCut.v` has the same for the lossy conversion (`SpecLossyCut.v`).
* **Order, search, lines (C64-C66).** UTF-8 preserves the order of scalar values and
  is self-synchronizing: a byte match starts at a character. `SpecSearch.v` states
  occurrences and lines on characters.

* **std::io (C67, C68).** `SpecStd.v` says what is written for given bytes; the loops are
  unfolded with the UTF-8 theorems. Copying is a trace of reads and writes, as for C36; each
  piece is a slice of converted text, on which the conversion only acts at its start.
  `StdAny.v` treats copies in which reads or writes fail.

* **ASCII (C71), readers over readers (C72).** The 128 characters are checked against the
  tables; then the theorems about sessions with pushes and about the writer's specification
  apply, as the conversion does nothing. A second reader gets valid text, so C57 says what
  it delivers. `OptionProps.v` shows the options to have no effect without the separators
  they are about (C43, C57, C72). With pushes (LayerPush.v) every needed guard adds a U+34F, and
  the conversion loses none, so counting U+34F shows when the text is changed. Where no guard is
  needed a push changes nothing (LayerAny.v), which leaves the theorem without pushes.

* **What is held back (C08, C10, C42, C76).** `SpecPrompt.v` compares a session with one
  over a stream that ends where the session stopped. The invariant of the reader says that
  the queue then has no line end, and what the end would add. `LineEnd.v` follows the
  reader's state over a text without escapes: it is at the beginning of a line exactly if the
  last character ended one, and then nothing is held.

* **Size bound (C78).** An amortised bound: every character is given a weight (its decomposition,
  the U+34F around it if unassigned, its share of the U+34F in a long run of non-starters), the
  weight of what a reader or writer holds plus what it has given out never grows by more than four
  times what it is given (`BoundProps.v`, `BoundWrite.v`), and the weights are checked against the
  tables (`BoundTables.v`).
* **Example filters (C79).** Both normalizations split at a line feed, so the concatenation of the
  converted lines is the conversion of the whole; idempotence by counting what a second run drops.
* **Writers over writers (C77), seams (C34).** A simulation between the specification of one
  writer and of two: what the outer writer sends is a fixed point of the conversion. Where
  writes that begin with starters meet, only Hangul syllable parts can combine.
* **Compatibility ideographs (C80).** The unified ideograph and the selector of every sequence are
  inert for Stream-Safe and NFC (checked over the table), so conversion splits at each ideograph; no
  other character decomposes or composes to a selector.  Induction over the ideographs of each piece
  that the reader converts gives the ideographs back from the output.

* **Colours (C81).** A complete colour sequence is ASCII that nothing is reordered across, so
  conversion splits before its final "m". Either the "m" stays, and the text after it is converted
  by itself, or a mark is put on it; the result is then not ASCII (`pipe_m`) and the write is refused.
  The writer then refines the text-level writer with the sequences as part of the text, and the
  texts between them meet like separate writes (`SpecColour.v`, `ColourProps.v`). For sequences
  cut into several writes the state also has the part already written; a writer inside a sequence
  is a ground writer that has run over that part (`SpecFrag.v`, `FragProps.v`).
* **Precomposed text (C82).** The quick check accepts it (tables: a starter that may begin a text
  has no leading non-starter in its decomposition), so every layer leaves it alone; the scripts
  listed in `SpecLone.v` are disjoint from the tables of exceptions.
* **Histories of values (C83).** `SpecValues.v` defines the values a program can make as an
  inductive predicate with one rule per operation, under rules for what comes in and what is
  joined, trimmed and repeated. Induction over the history with the theorems on single operations
  (C14-C22, C46, C48, C51); for texts that need no checks the invariant is `loose`.
* **Strict streams (C84).** From the refinement of the writer (C45); the pipeline commutes with
  putting U+D before line ends, which are boundaries for every layer (`StreamProps.v`).
* **Lines from a source in pieces (C85, C37, C50).** `LineIo.v` models the same functions
  over a source that arrives in pieces and may fail; `SpecLine.v` says what the next part of
  such a source is. `LineIoProps.v` gives the outcome in every case and shows that for a
  source that does not fail the pieces do not matter, so that the theorems about `Lines.v`
  carry over. After an I/O error in a line the TextString can be invalid (refutation).
* **Exact reads into a TextSubstr, and through a duplexer (C49, C53, C42).** `ExactBuf.v`
  follows the provided exact reads, with and without a status, when the buffer has one byte
  characters, and the reader's own exact read with a status; `ExactFull.v` gives the
  result of every exact read from what reads into a large buffer give, since a smaller
  buffer takes a prefix of the same piece; `DuplexExact.v` reduces those of a duplexer to the reader's and says what
  abandoning a duplexer does.
  `ExactAny.v` does the same for any buffer: the provided exact reads panic exactly when the
  text ends inside one of its characters.
* **Bytes that are not UTF-8 (C25, C55).** `SpecArb.v` defines the UTF-8 at the front of some
  bytes; `ArbExact.v` says what the Arbitrary instances and error positions are in terms of it.
* **Copying whatever fails; abandoned readers (C36, C42).** `CopyAny.v` follows
  `copy_text_using_status` call by call: a writer with nothing kept back emits a beginning of
  each text, all of it if the call succeeds, and flushing emits nothing. It also shows that a
  reader abandoned after a read that left room has an empty queue and supplies no line end.
  `StatusExact.v` follows it for reads that do not fail and any pushes (`SpecStatus.v`).
* **Streams given back (C86).** The specification of histories (C45) gives the state of the writer
  at the end of any history; `close_into_inner` looks at nothing else (`WriteInner.v`).

* **Buffer sizes (C87).** `Sizes.v` models the sizes asked for; arithmetic, and C36 for copying.

* **Later versions of Unicode (C88, C89).** Future.v writes the normalization functions of
  Norm.v once more, for arbitrary tables, and says what a later version is: it agrees
  with the present tables on assigned characters, has no decomposition that is empty or
  longer than 30 characters and no composition with U+34F. With the present tables the
  functions are those of Norm.v (C88_present). U+34F separates the text for all of them,
  the pieces are either assigned, where the versions agree, or one new character. The
  converse adds one composition to the present tables. For C89 each part of assigned
  characters of a newer text is Stream-Safe NFC now, so the conversion is the isolation.
* **When the stream is read (C90).** Case analysis of one call gives the two conditions; the bound is
  amortized: a call that does not read has filled its buffer, or repays one that had to put off a status.
* **The Unicode Standard (C91).** `SpecUnicode.v` states the definitions of sections 3.11 and 3.12 and of UAX #15
  as relations over the raw data. Canonical ordering: exchanges of neighbours end only in the sorted
  text. Composition: a simulation between the recomposition loop and the steps of D117; that the pairs of the
  composition table are exactly the primary composites follows from the stepwise recomposition of every composite.
  The lazily running iterators (`NormIter.v`) are proved to deliver the lists of `Norm.v`: for every state, what is
  still to come is a function of its buffers and of the characters left.
* **Universal newlines (C92).** `SpecNewlines.v` says when one text is another with some LF written CR LF or CR. Both texts
  are taken through the escape-sequence relation of C04 step by step: a CR and a LF leave the machine in the same state in
  all of its states but the one after "ESC [ [", where one character is dropped; that one gives the refutation.
* **Bytes of texts (C93).** UTF-8 is self-synchronizing, so an encoded character found in encoded text is a character of
  the text (`SearchProps.v`); with C02 and C28 nothing excluded is found. The list of excluded characters in `SpecBytes.v`
  is checked against the table of the documentation.
* **Bounded memory (C94).** An invariant of each iterator of `NormIter.v`: the run of combining characters at the end of
  the decomposition buffer is at most what the Stream-Safe iterator has counted, so at most 30; at most one starter waits;
  what recomposition keeps back and what is still to come of the same run are together at most 30.
* **Buffered readers and writers (C95, C96).** Reader: an invariant relates every state of the `BufReader` to a session of
  plain reads; a weight made of the measure of C09 and the buffered bytes goes down with each request. Lines: what is still to
  come is an inductive relation on the reader, and `read_until` is followed over it. Writer: what a `BufWriter` or `LineWriter`
  passes on is a plan computed from the pieces; the plan consists of the text cut after line ends, so C84 applies.
  The lossy lines (`StdLines.v`, `LossyBuf.v`) follow the same way; the conversion they take
  is shown to exist (C50_conversion).
* **Adaptors of std (C97).** The invariant of C95 for a reader without a buffer; for a chain, one such session for each
  reader, the second empty until the first has reached its end.
* **Formatting (C98).** StdFmt.v models std's `write_fmt` over a TextWriter: each piece
  goes to write_all, the first error ends the call. The pieces are arbitrary (what an
  argument's Display prints is not modelled). Proved from the specification of writers
  (SpecWrite.v) and a lemma on where the conversion distributes over concatenation: at a
  character that is assigned, may begin a text and is not U+34F, exactly if no Hangul
  characters join there. False of the code in general: pieces are converted alone.
* **Reading all (C99).** StdRead.v models layered_io's `default_read_to_end`, which the
  readers call with their own minimum and suggested sizes: the loop over the model's
  `read`, with the buffer growing, and on top of it `read_to_string` and
  `read_to_text_string`.  Termination by the measure of the reading model; the text by
  the theorem that a session to the end delivers the converted stream; that a call fails
  exactly when the stream does by an invariant on what is left of the stream.  Layered_io's
  source is not in /repo and could not be consulted, so the loop is an assumption about
  it: a read that did not end the stream is followed by another one, into at least the
  minimum size, and any error ends the call.
* **Copying through buffers (C100).** StdCopy.v models `std::io::copy` from a BufReader
  to a LineWriter with pieces of any size.  LineBytes.v follows the bytes that the
  LineWriter holds: if the lines fit, what it passes on always ends with a line feed, so
  characters cut by a piece are put together again before the TextWriter sees them
  (also C96_linewriter_bytes).  With the end of the reads (C95) and the fact that the
  text of a session is its own conversion, the copy is exact.
  For buffers of any size SpecGroup.v defines the groups of bytes that are passed on;
  Group.v shows that buffering is writing the groups one after the other, which decides
  when a copy succeeds and when it is exact.
* **Reading all through a duplexer (C101).** StdDuplex.v is the loop of StdRead.v over the
  duplexer's reads; DuplexAll.v shows that it is the reader's loop, from the state that any
  history leaves (C51), and follows what the writing side is told.
* **Copying between duplexers (C102).** DuplexCopy.v runs the loops of copy.rs on two
  duplexers.  CopyDuplex.v reduces them to the loops of Copy.v on the reading side of one
  and the writing side of the other, shows that the two other sides are left alone (but
  for the line end that was read), and decides the result from the specification of the
  receiving side (SpecDuplex.v) and the text that is left.
* **A conversation between two duplexers (C103).** Talk.v connects two duplexers: a read
  at one end takes the next characters that the other end has sent, as many as have
  arrived.  TalkProps.v shows by an invariant that each end runs as a duplexer by itself
  on the stream of events it has taken, and that the text of these events is a beginning
  of what the other end has sent.  TalkHeard.v combines this with the theorems about what
  a duplexer sends (C51) and what a reader gives and holds back (C76).  TalkLive.v: enough
  further reads hear everything.  TalkPush.v does the same for connections that report
  pushes after line ends: the texts between the pushes are lines, each converted alone.
  TalkColour.v: an end that writes with colours (C44, C81), and the state of the reader
  after a line end, which no colour sequence has left open.
* **Chains of copies (C104).** `SpecRelay.v` says what one hop is (a copy from a stream, cut
  in any way, to a writer that is then closed) and what a chain of hops is.  `RelayProps.v`
  shows by induction over the hops that each one after the first keeps the text, or makes
  it longer if its reads are badly cut.
* **Debugging output (C105).** `StdDebug.v` models `escape_debug` and the derived `Debug` with
  std's two character tables as parameters, so the theorems hold for every version of std.
  Escapes begin with a backslash, which never combines, so the text between two escapes can
  be looked at alone; only the letters n, r and t can combine with what follows an escape.
* **Formatted text (C106).** `StdPad.v` models std's `Formatter::pad`, to which `Display`
  delegates, as the list of pieces it writes; the pieces put together are what `format!`
  gives, and written to a TextWriter they are converted one by one (C98). The fill and the
  text begin with characters that can begin a text, so only Hangul letters can join.
* **Crashes (C107).** No new model: what a writer has sent under any failures is a beginning of
  what it would have sent (from the specification of the writer), the bytes of a beginning
  decode to characters and at most one U+FFFD, and the reader's translation of a beginning
  differs from it only at the end. With colours, a cut leaves whole sequences and at most the
  beginning of one, which is read as nothing.
* **Damaged lines (C108).** No new model: decoding with U+FFFD splits before any byte that is
  not a continuation byte, so at line ends; unless an escape sequence takes its line end, the
  translation of a line does not depend on its surroundings; and normalization splits at line ends.
* **Several writers (C109).** `Shared.v` has any number of writers over one stream; a call on
  one of them runs the modelled writer with what the stream has accepted so far. The
  specification of one writer is applied to each call. A call of which the stream takes a part
  leaves text that is not converted further than the next line end (as for C108).
  `SharedColour.v` repeats this for writers with colours, and `SharedColourCut.v` for texts of
  which the stream takes a part, if the texts begin with a colour sequence or a line end.
* **Echo (C110).** `Echo.v` reads from a duplexer and writes each text back, with or without a
  flush after it.  The reads are those of a plain reader, and the writes those of a plain writer
  given the texts of the reads, because writing text does not depend on what reading sets in the
  duplexer's writing side (`write_text_newline`).  So the facts about copying (C36), reading back
  (C60) and prompt lines (C76) apply.
* **BufReader over a duplexer (C111).** `DuplexBuf.v` is the BufReader of `StdBuf.v` over a
  duplexer.  Forgetting the writing side gives the BufReader over a reader, with the same bytes
  (`until_proj`), so C95's lemmas give the lines.  Forgetting the buffer gives a history of the
  duplexer (`talk_history`), so the theorems about histories (C44, C52) give what is sent.
* **A line server (C112).** `Serve.v` is the loop that reads a line through the BufReader of
  `DuplexBuf.v` and writes the answer. It is shown to be a conversation of C111. Without
  failures, an invariant on the writing side (nothing failed, the text sent ends with a line
  end) together with the lines of C95 shows that it reads, answers and sends everything.
  `ServeWait.v`: a failure of the stream marks the moment when the server waits; with C90 it
  follows what has been answered by then; with C76 and C78 it follows that a server whose
  peer has sent little has answered every line that ended.
* **Errors, views, escapes (C73-C75).** Inductions over the text; `SpecViews.v` has the
  definition of UTF-16 text and of Rust's escape notation, read back by a small automaton.

Properties that the reading of the code suggests are violated (C08, C10, C16,
C17, C18, C26, C34, C40, C42 and parts of others) get a refutation theorem with a concrete
witness, and the strongest positive part as `_partial`.

## Trusted base

* Coq's kernel (and `vm_compute`; the gate re-checks everything with `coqchk`).
* No axioms: every theorem is followed by `Print Assumptions`
  ("Closed under the global context") in the `Prop*.v` files.
* `coqchk` lists, as part of the loaded standard library, the abstract module
  `Coq.ssr.ssrunder.Under_rel` (7 fields). It is loaded by the standard
  library's `lia` preprocessing; no theorem depends on it.
* The correspondence between the model and the Rust text, documented by the
  file/line comment on each definition. As a test of it, `Fidelity.v` runs the
  model on the expectations of the repository's own tests (some 1,900 cases and
  the two sample files, collected by `tools/gen_tests.py`); all are met. It also compares the
  model's normalization forms with those of perl's `Unicode::Normalize` on 600 random strings
  (`tools/gen_nfc_tests.pl`; 4,000 others were tried outside the build).
* The behaviour of the dependencies, which are not in the repository:
  `unicode-normalization` 0.1.23 (modelled in `Ucd.v`/`Norm.v` as list
  functions and in `NormIter.v` as iterators, which are proved to deliver the same; the functions are proved to be the forms that the Unicode Standard defines, C91), `layered_io`/`utf8_io`
  (modelled as scripts), the Rust standard library (`str`, `String`, `VecDeque`).
* `UcdTables.v` is generated by `tools/gen_ucd.pl` from the Unicode 15.0 data
  shipped with perl 5.38, plus the 627 characters added by 15.1 (which have no
  combining class and no decomposition). CJK standardized variants are taken from the
  expectations in `tests/basic-text-string.rs`. `TextTables.v` is generated
  from the Rust source by `tools/gen_text_tables.py`. `GcbTable.v` (specification)
  is generated by `tools/gen_gcb.pl` from perl's Unicode 15.0 data.

## Not modelled

`AsRawFd`/`From` boilerplate, token handling of the `literals` macros, terminal queries
(`terminal-io`), `parse`, performance
and allocation, `restricted-text` (an empty sibling crate).
