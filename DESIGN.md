# Formal model of warcio in Rocq (Coq 8.16.1)

Sources modelled: `/repo/warcio/*.py` at the pinned commit.  Everything below
lives in `/verif/rocq/theories` (logical name `Verif`).

## 1. How the code is modelled

* `bytes` and `str` are both `list N` (octets / code points).  Sizes are `Z`.
* A Python exception is a value: `res A := Ok a | Err e`.  Operations on objects
  are functions `state -> res A * state`, so state changed before a raise stays
  changed, as in Python.
* Every loop that Python runs "until" takes a `fuel : nat`; running out is the
  distinguished exception `OutOfFuel`.  Theorems are stated for all fuel above
  an explicit bound computed from the input, and conclude with a result that is
  not `OutOfFuel` (so termination is part of the theorem).
* Layering of streams is generic: `sops S` is the read/readline/tell interface
  of a stream whose state is `S`.  The file at the bottom is `raw`: remaining
  bytes, position, and a *schedule* of short reads (a list of positive sizes);
  theorems quantify over all schedules.
* External libraries are oracles, passed as arguments (records), never axioms:
  - zlib decompression: byte-at-a-time automaton `zenv` (`zinit`, `zstep`), with
    the block-level behaviour of `decompressobj` (`unused_data`, errors lose
    the block's output) built on top as CPython does;
  - zlib compression: `kenv` (`kinit`, `kcompress`, `kflush`);
  - hashing: `henv : name -> option (bytes -> bytes)`;
  - uuid and current time: string arguments.
  Theorems that need a correct codec take the hypothesis `codec_ok` (compress
  then decompress is the identity and stops exactly at the last byte).  A toy
  codec satisfying every hypothesis is defined and used in the Examples, so
  the hypotheses are satisfiable.

### Files

Model (each definition cites the lines it models):

| file | models |
|------|--------|
| PyBase.v | Python str/bytes/int primitives used by warcio |
| Utf8.v | utf-8 strict encode/decode, latin-1 |
| Codecs.v | base64 module functions used by utils.py / digestverifyingreader.py |
| Headers.v | statusandheaders.py |
| StrHeaders.v | utils.headers_to_str_headers and the constructor of StatusAndHeaders on str or bytes |
| Streams.v | limitreader.py, bufferedreaders.py, digestverifyingreader.py |
| Loader.v | recordloader.py, record.py |
| Iterator.v | archiveiterator.py; `run_iter` is a consumer driving it |
| Writer.v | recordbuilder.py, warcwriter.py, utils.py (Digester) |
| TimeUtils.v, HttpDate.v | timeutils.py; HttpDate the parts of `email.utils` it calls |
| Capture.v | capture_http.py over a heap of connections, sockets and recorders |
| Locks.v | the lock of RequestRecorder.write_record_pair under any thread schedule |
| Cli.v | indexer.py, checker.py, extractor.py, recompressor.py |
| Commands.v | cli.py and utils.fsspec_open: the four commands on a file system and standard input |
| Sinks.v | BufferWARCWriter on a temporary file; the file name, append and gzip arguments of capture_http |
| Toy.v | a concrete codec, hash and set of options that meet the hypotheses; used by Examples only |
| Tests.v | vm_compute regression checks of the model against the repository's own tests (not counted as proofs) |

Specifications (independent of the model's helpers): StreamSpec, ChunkSpec,
AllSpec, HeaderSpec, TimeSpec, DigestSpec, WriterSpec, IterSpec, RoundSpec,
CliSpec, ReportSpec, RewriteSpec, ArcSpec, CaptureSpec, TermSpec, ReadSpec,
ToolsSpec, IndepSpec, ModeSpec, FrameSpec, SelfSpec, EncSpec.

Lemmas: Facts, StreamProofs, BufProofs, FillProofs, CallProofs (readers
relative to an arbitrary relation "state s still delivers bytes d"),
ChunkProofs, AllProofs, HeaderProofs, TimeProofs, CodecProofs, DigestProofs,
DigStep, SimProofs, WriterProofs, IterProofs, CutProofs, GzProofs, RoundProofs,
CliProofs, TraceProofs, CheckProofs, ExtractProofs, RewriteProofs, ArcProofs,
CaptureProofs, CapturePair, CaptureWorld, CaptureToy, TermProofs, TermLoad,
TermIter, TermContent, TermRead, TermTools, AdvProofs, KeepProofs, IndepProofs,
IndepIter, BlankProofs, JunkProofs, JunkGz, ReportProofs, TwoRuns, CheckModes, EnsureProofs, FrameProofs.

`Thm_X.v` proves the theorems of group X as `NAME_pf`; `Props_X.v` states them
again, closes each with `exact NAME_pf`, prints its assumptions and puts the
Examples beside it.

## 2. Plan per property

Ids refer to `properties.jsonl`.  "refuted" means the property as a user would
expect it is false of the code: the deliverable is then a theorem
`..._refuted` exhibiting a counterexample (kernel-computed on the model) and a
`..._partial` theorem under the side condition which makes it true.

* C01, C02 invariant over arbitrary call lists on `LimitReader` above an
  arbitrary (possibly short-reading) stream meeting a small stream spec.
* C03 refuted with a BytesIO-like stream; C04 case analysis + refuted `tell`.
* C05 refinement: BufferedReader over any schedule/block size refines the
  in-memory stream, by induction over call lists.
* C06 refuted (length subtracted twice); partial: exact when the line lies in
  two buffers, always a non-empty prefix of the line.
* C07 refinement with the zlib automaton: content = output of the automaton.
* C08 partial (first read >= 2 bytes), refuted for 1.  C09 same with deflate.
* C10 partial/refuted for read_all_members.
* C11–C14 induction on the chunk list; C14 refuted.
* C15 composition of C11 and the decompressing path; for records of an archive (`C15_archive`, `C61_payload_encoded`)
  the record's stream is an abstract stream with known content (`SR`), which follows from the iterator theorem for
  all consumer programs.  Refuted for bodies of several gzip members (finding).
* C16–C18 list theorems; C17 refuted for duplicates, partial otherwise.
* C19–C21 parser theorems over arbitrary bytes; C22 partial/refuted; C23 refuted.
* C24–C26, C29–C31 the written bytes are computed in closed form and compared
  to an independent serialisation spec; C32 refuted.
* C27, C28, C34, C36 iterator refinement: by induction over the record list with
  an invariant relating reader state and remaining file; consumer programs are
  arbitrary.  C33 concatenation law.
* C35 for arbitrary file contents: reading is a deterministic advance byte by
  byte through the decompressor's output (`adv`); every consumer program ends in
  a position from which draining the record leads to the same state
  (`ends_at`), so the runs agree record by record.  Refuted for negative sizes
  and for check_digests='raise'.
* C37 prefix theorem; C38 proved for cuts inside a block (CutProofs: `lim_R` with a limit
  larger than what is left, then C85), refuted for cuts in headers; C40 refuted; what a leading blank line does is proved for
  every file (`BlankProofs`).
* C81 (separators) is an instance of the generic item theorem of `IterProofs`.
* C39 by a well-founded lexicographic measure: (4 x bytes left in the file +
  2 x bytes in the schedule + state of the decompressor, bytes buffered).  Every
  loop strictly lowers it or ends; "ends" is: from some fuel on, the result does
  not change and is not `OutOfFuel`.  Every file, codec automaton, schedule,
  block size, option set and consumer program; gzip included.
* C41 refuted; the exact set of exceptions is proved over the same runs
  (`may_leave`, `may_read`), and each is shown to occur.
* C42 theorem on the iterator for a member holding two records.
* C43, C44 string theorems on the ARC parser.
* C45, C49 invariant of the digest reader; C46 codec theorems + refuted (md5
  hex); C47, C48 refuted.
* C50–C54 arithmetic theorems on the calendar functions.
* C55, C58, C59, C76 by an invariant over the events of a world with any number
  of connections, threads and captures; C56, C57 refuted with exact
  characterisations; C77 invariant over all schedules of a lock machine.
* C60–C63 composition of the iterator theorems with the tools; C64, C65
  refuted with partial versions.
* C82 (what check prints) by the same simulation as C63, plus the invariant that a
  checker that failed knows a problem (`ReportProofs.told`).
* C83, C84 (modes of digest checking): `TwoRuns` runs two iterators over the same file in lock step; related
  streams give equal results until the second raises.  `CheckModes` gives the three relations (True/'log', True/'raise', off/any).
* C85 (`FrameProofs`): the same for no_record_parse on and off.  Whatever the HTTP parser reads of a record lies
  inside it, and draining the rest leads both iterators to the same state (`aft`, as in C35).  Without HTTP
  parsing nothing is read by lines from a block, so the restriction on lines disappears from C34 and C36
  (`C34_framing`, `C36_framing`).
* C86 (`SelfSpec`): composition of C26 (what digests are written), the round trip (`written_full`) and
  C63/C82 (what check reports), file by file.  For encoded content (`C63_encoded`, `C86_encoded`) no
  characterisation of what is read is needed: the digests are over the raw payload, and `check` ends (C80).
* C87 (`EnsureProofs`): `TwoRuns` again, with records related by `ensured` instead of equality.
* C88 (`Props_Link`): C60 and C61 composed.  The archive is described once, with the options of extract; the
  index may skip HTTP parsing (`record_parse`), so its entries are the same records seen without HTTP headers (`bare`).
* C89: C65 and C63 composed.  C90: `rewritten` says that a record in which nothing is to be changed
  (`settled`) is written as it was read, and that a record written is settled; then C62 twice.
* C91: the round trip of C86 and C60; the positions of the entries are the sums of the sizes written.
* C92 (`Props_Uri`): `load_record` is proved for a record as written and the record as read (`normalised`), so
  the theorems about abstract items of an archive apply; C34 is the case in which both are the same.
* C93 (`ConvSpec`, `Props_Conv`): an ARC record is read as the WARC record of C44/C75 (`arc_as_warc`), which
  `rewrite_any` (the core of C62, here without the condition that the declared length is that of the block, which
  the description of an ARC file does not meet) writes; `copy_any` does this for whole files; C93_check uses C63_encoded.
* C94, C95, C97 (`BuildSpec`, `Props_Build`): the final header list of `write_plain` computed exactly (`layout`:
  each header that is new is appended); C94_given by the lookups of C25.  C97 by the text of a filtered block.
* C96, C19_accepted (`Props_Version`): lists of versions and methods written out in the statement, by cases; C96_unknown_refuted
  lifts C43_load_failed to the iterator over a plain file.
* C98 RfcSpec.v defines base16/32/64 by cutting the bit string into groups; Thm_Rfc.v proves that
  the arithmetic of Codecs.v (used by C26, C45, C46) computes it, by induction over groups of bytes.
* C99 ChunkSpec.decodes is a total, functional relation between inputs and outputs of ChunkedDataReader
  (totality and uniqueness are proved); the reader refines it for every input (Thm_AnyChunk.v, from the
  general `yields` relation of ChunkProofs.v and completeness of int(b, 16)).  C99_rfc_sizes_refuted:
  sizes such as -1, +3, 0x3, 1_0 are accepted (finding).
* C100 (Thm_StrHdr, model StrHeaders.v): `headers_to_str_headers` and the constructor of
  StatusAndHeaders: what list results from str/bytes names and values in a mapping or a
  sequence (C100_text), the only errors (C100_error), what is read back after writing
  (C100_roundtrip, on top of C19_accepted), and the bytes written for ASCII headers
  (C100_verbatim_partial). False outside ASCII (C100_verbatim_refuted): UTF-8 bytes
  given as bytes are decoded as Latin-1 and encoded again as UTF-8.
* C22 exactly (AsciiSpec, Thm_Ascii): C22_exact says for every header block whose values
  are encodable when to_ascii_bytes succeeds and what is then written; C22_parts that the
  parts of a value and the text written are unique. Every parameter of a rewritten value
  is rewritten, also the ASCII ones (`c=d` becomes `c*=UTF-8''d`, see C22_exact_ex).
* Short reads (C68): C11_chunked, C12, C13, C14_*, C15_content_stream, C66_cut, C67 and C99
  hold for every source whose reads may be short as long as read(2) returns two bytes when
  two are left (`paired`, `no_single` in ChunkSpec). C68_short_reads_partial states it for
  a LimitReader over a file; C68_short_reads_refuted is a single-byte answer to read(2).
* C101 (Thm_IsoDate): iso_date_to_datetime on every text made of numbers with single separators: three to six
  numbers (C101_read), seven (C101_fraction), any other count (C101_count, TypeError). False for a year or a year
  with a month (C101_year_month_refuted) and for times without seconds but with an offset, whose offset is read as
  seconds and fraction (C101_offset_refuted).
* C78 (Thm_Http): also the two obsolete formats of RFC 9110 (C78_rfc850, C78_asctime) and the conversion from and
  to timestamps (C78_timestamp).
* C102 (Thm_Commands): C102_frame and C102_reads for every command on every file system; false where input and
  output are the same file (C102_in_place_refuted) and for an output that exists when index fails
  (C102_failed_refuted).
* C103 (Thm_Commands): the commands on existing files are the functions on their contents (C103_check,
  C103_check_missing, C103_index, C103_recompress, C103_recompress_verbose, C103_recompress_failed); with C63, C88 and C89 this gives exit statuses and the
  composition of commands (C103_check_archives, C103_index_extract, C103_recompress_check).
* C104 (Thm_Commands): true for index (C104_index_partial), false for the others (C104_dash_refuted).
* C20_total, C100_request_text (Thm_HdrTotal): the length a parse reports, counted in characters of the lines read
  (C20_total_refuted: not bytes); request objects built from text headers.
* C105 (Thm_CapHdr): invariants of the recorders over all runs (C105_once, C105_no_ip, C105_no_proxy) and the step
  that sets the address (C105_ip); false for later requests of a capture, which inherit the headers of earlier ones
  (C105_stale_refuted).
* C106, C107 (Thm_Sinks, model Sinks.v): induction over the operations on the buffer; a simulation between the
  captures with and without old contents in the file. get_stream returns the file the writer writes to, so a record
  written before the stream was read to its end is written over the beginning (C106_overwrite_refuted).
* C57 exactly (Thm_CapLocal): the thread local recorder is the last beginning or end of a capture in the thread
  (C57_exact, for nested captures too); a connection keeps its recorder after its capture (C57_kept, C57_late_refuted).
* C108 (Thm_CapRaise): from the exchange lemma of C55 and the parser on a status line with an unknown verb. False for
  verbs outside the nine known ones (C108_verb_refuted) and for closing twice (C108_again_refuted).
* C06 exactly (Thm_LineLimit): induction over the rounds of readline(limit) on a line without an end; after m rounds the
  limit has been reduced by B*(1+...+m) (C06_exact_refuted).
* C109 and C74 for all files (JunkProofs, JunkGz, Thm_Junk, Thm_JunkFrame, Thm_JunkGzip, Thm_JunkWarn, Thm_JunkTwo): the iteration induction of C81 redone for tails whose first line is
  any text; only the second and later lines must be blank. C74 follows by reading the data-less record as the stray line
  of the record before it. False for two stray lines (C109_second_line_refuted, for every file).
* C09 when the first block does not decide (Thm_Late): two rounds of the fill loop computed, then an induction for the
  reader without a decompressor; the first block is lost (C09_late_refuted).
* C66-C68 chunked corner cases (refuted, exact outputs); C69 digest checking
  while iterating (mode 'raise': C83 with the records before the first wrong digest, which are `digests_ready` in any mode); C70-C73 header utilities; C74, C75 ARC files (`C75_framing` by C85, as C34); C78 HTTP dates.
* C79, C80 extend the measure of C39 by what a content stream has buffered
  (`lt3`), generic in the stream underneath; the tools follow loop by loop.

## 3. Not modelled

* `brotli` content encoding, stderr messages, the parsing of arguments by
  `argparse` (Commands.v starts from its result), `pkg_resources`, and `fsspec`:
  Commands.v has one flat name space of files, each opened once for reading from
  its first byte or emptied when opened for writing. A command sees what it has
  written itself, other processes do not write, and a file that can be opened
  can be read and written to the end. Output to a file is shown as it is after
  the command has ended. When the output of recompress is '-' the code raises
  on the first write; the model does so after the records have been read, which
  prints the same.
* gzip/deflate, hash functions: oracles as above; `uuid4` and the clock:
  arguments.
* `str.lower/upper` and regex case folding outside ASCII: identity (Python
  folds non-ASCII letters too).
* The 4300-digit limit of `int()`.
* Python 2 branches (`six`), `tz_aware` flags of datetimes.
* Threads: only the lock of capture_http (Locks.v) and the interleaving of
  whole operations (Capture.v); the memory model of CPython is not modelled.
* Sinks.v: a file opened by name is looked at before and after the capture; a response closed after
  the capture has ended writes to a closed file, which is not modelled; SpooledTemporaryFile
  is its bytes and a position.
* http.client itself: Capture.v models the sequence of calls it makes on the
  patched classes (`connect`, `putrequest`, `send`, `begin`, `readinto`, `read1`,
  `close`), taken from CPython's source as cited there.

## 4. Trusted base

* Coq 8.16.1's kernel (and `vm_compute` for the Examples and the witnesses of
  `_refuted` theorems).
* No axioms: `Print Assumptions` follows every theorem in `Props_*.v` and
  reports "Closed under the global context" for each of them.  No axiom of the
  standard library is used either.  (Loading `lia` and `List` brings the seven
  constants of the sealed module `Coq.ssr.ssrunder.Under_rel` into the environment;
  no theorem depends on them.)
* That the definitions in the model files mirror the Python source.  The model
  was written from the source text, function by function; nothing is extracted
  or generated.
* Hypotheses about oracles, which appear in the theorems that need them:
  - `gz_magic`: an inflate automaton started for gzip rejects data that does not
    start with 1f 8b (pass-through and uncompressed archives);
  - `is_member`, `gzip_codec`: the automaton consumes a member completely and
    returns its text; the compressor produces such members (gzip archives);
  - hash functions: arbitrary; base16 comparison needs a length other than 16;
  - `enough fuel d`: the fuel exceeds a bound computed from the data.  The
    Term theorems (C39, C41) show that sufficient fuel always exists.
  - `first_two`, `reads_fit`, `gz_fit`: the side conditions that findings 3, 4
    and 6 make necessary (first read of two bytes; lines within one block; a gzip
    member fits into one block, or its first block decompresses to all headers and
    the consumer does not use readline on the record).

## Reading seeded/LOG.jsonl

`lemmas_failed`, where present, lists the lemmas that coqc rejected after the edit. `theorems_failed` in those entries
is derived: the theorems that refer, directly or through other lemmas, to a rejected lemma (references as resolved in
the .glob files of a later build). Such a theorem lost its proof; that it is false for the edit is not shown. An earlier
version matched lemmas by bare name and listed too many theorems; the 51 entries this changed say so in `note`.
Entries without `lemmas_failed` from the batch runs name the first lemma or theorem that failed. `claim` was written
before the run; a note says where no theorem of a named claim failed.
