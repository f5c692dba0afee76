{"id": "C01", "title": "LimitReader never hands out more than its limit", "statement": "Whatever sequence of read(n)/readline(n) calls (n omitted or non-negative) is made on a LimitReader, the bytes returned so far are a prefix of the wrapped stream no longer than the limit, exactly those bytes have been taken from the wrapped stream, and tell() equals the number of bytes returned.", "quantifier": "all wrapped streams (including ones that return short reads), all limits >= 0, all finite call sequences with non-negative or omitted lengths", "why_tests_cant": "the set of call sequences and short-read patterns is infinite", "anchors": ["warcio/limitreader.py:LimitReader.read", "warcio/limitreader.py:LimitReader.readline", "warcio/limitreader.py:LimitReader.tell"]}
{"id": "C02", "title": "Draining a LimitReader yields exactly the limited region", "statement": "Reading a LimitReader repeatedly with positive lengths until it returns b\"\" yields exactly the first min(limit, length) bytes of the wrapped stream, for every choice of read sizes and every short-read behaviour of the wrapped stream.", "quantifier": "all contents, limits, read sizes, short-read schedules", "why_tests_cant": "unbounded contents and read-size sequences", "anchors": ["warcio/limitreader.py:LimitReader.read"]}
{"id": "C03", "title": "Limit is respected for negative lengths", "statement": "A LimitReader never returns more than limit bytes even when called with a negative length (the file-API convention for \"everything\").", "quantifier": "all streams, limits and integer lengths", "why_tests_cant": "universally quantified; tests only use positive lengths", "anchors": ["warcio/limitreader.py:LimitReader.read", "warcio/limitreader.py:LimitReader.readline"]}
{"id": "C04", "title": "wrap_stream installs the tighter limit", "statement": "LimitReader.wrap_stream(s, n) returns a stream limited to n bytes (or to the smaller of the two limits when s is already limited); for a content length that is not a non-negative integer it returns s itself; tell() on the result is the number of bytes read since wrapping.", "quantifier": "all streams, current limits and content-length strings", "why_tests_cant": "infinite domain of header strings and reader states", "anchors": ["warcio/limitreader.py:LimitReader.wrap_stream"]}
{"id": "C05", "title": "BufferedReader is transparent for uncompressed data", "statement": "For every block size and every short-read behaviour of the wrapped stream, any sequence of read(n)/read()/readline() calls on a BufferedReader without decompression returns the same bytes as the same calls on the whole content held in memory.", "quantifier": "all contents, block sizes >= 1, short-read schedules, call sequences (read(n), read(), readline())", "why_tests_cant": "interleavings of calls, block boundaries and short reads are unbounded", "anchors": ["warcio/bufferedreaders.py:BufferedReader.read", "warcio/bufferedreaders.py:BufferedReader.readline", "warcio/bufferedreaders.py:BufferedReader._fillbuff"]}
{"id": "C06", "title": "BufferedReader.readline(limit) honours the limit exactly", "statement": "readline(n) on a BufferedReader returns the first n bytes of the current line (or the whole line if shorter), as BytesIO.readline(n) does, for every block size and short-read behaviour.", "quantifier": "all contents, n >= 0, block sizes, schedules", "why_tests_cant": "the failing cases need a line spanning three or more buffers and a tight limit", "anchors": ["warcio/bufferedreaders.py:BufferedReader.readline"]}
{"id": "C07", "title": "A gzip member is decoded exactly and never over-run", "statement": "Reading a DecompressingBufferedReader positioned at a gzip member returns exactly the decompressed content of that member for any read sizes, block size and short reads, then b\"\" until read_next_member() is called; read_next_member() then returns True iff bytes follow the member, and reading continues with the next member.", "quantifier": "all member contents, trailing bytes, block sizes, short-read schedules, read sequences", "why_tests_cant": "unbounded member/block alignment space", "anchors": ["warcio/bufferedreaders.py:BufferedReader._fillbuff", "warcio/bufferedreaders.py:BufferedReader.read_next_member", "warcio/bufferedreaders.py:BufferedReader.rem_length"]}
{"id": "C08", "title": "Uncompressed data passes through a decompressing reader unchanged", "statement": "Data that is not gzip is returned byte for byte by a DecompressingBufferedReader (the automatic format detection loses nothing), for every block size and short-read behaviour of the source.", "quantifier": "all non-gzip contents, block sizes >= 1, short-read schedules", "why_tests_cant": "the loss needs a first read of a single byte", "anchors": ["warcio/bufferedreaders.py:BufferedReader._decompress", "warcio/bufferedreaders.py:DecompressingBufferedReader"]}
{"id": "C09", "title": "Deflate detection falls back from zlib to raw deflate and then to plain data", "statement": "With decomp_type 'deflate', a zlib stream and a raw deflate stream are both decoded to their content, and data that is neither is returned unchanged, whatever read sizes are used.", "quantifier": "all contents, block sizes large enough for the first block to decide the format, read sequences", "why_tests_cant": "unbounded contents and codecs", "anchors": ["warcio/bufferedreaders.py:BufferedReader._decompress"]}
{"id": "C10", "title": "read_all_members yields the concatenation of all members", "statement": "A DecompressingBufferedReader with read_all_members=True, read repeatedly until it returns b\"\", yields the concatenation of the contents of all gzip members of the stream.", "quantifier": "all lists of members (including empty ones), block sizes, read sizes", "why_tests_cant": "early b\"\" needs particular member/block alignments", "anchors": ["warcio/bufferedreaders.py:BufferedReader.empty", "warcio/bufferedreaders.py:BufferedReader.read", "warcio/recompressor.py:Recompressor.decompress_and_recompress"]}
{"id": "C11", "title": "Chunked transfer encoding is decoded exactly", "statement": "For every division of a payload into non-empty chunks, with any chunk extensions that keep the size line within 64 bytes, ChunkedDataReader returns exactly the payload for every sequence of reads, leaving the bytes after the terminating chunk unread.", "quantifier": "all payloads, chunk divisions, extensions, read sequences, trailing bytes", "why_tests_cant": "infinite family of chunkings", "anchors": ["warcio/bufferedreaders.py:ChunkedDataReader._fillbuff", "warcio/bufferedreaders.py:ChunkedDataReader._try_decode"]}
{"id": "C12", "title": "Truncated chunked data yields the available prefix, or raises when asked", "statement": "If a chunked body is cut off inside chunk data, ChunkedDataReader returns all data bytes before the cut and then b\"\" when raise_exceptions is False, and raises ChunkedDataException when it is True.", "quantifier": "all payloads, chunkings, cut points inside chunk data", "why_tests_cant": "every cut point of every encoding", "anchors": ["warcio/bufferedreaders.py:ChunkedDataReader._try_decode"]}
{"id": "C13", "title": "Non-chunked data behind a chunked header passes through unchanged", "statement": "If the data does not start with a valid chunk-size line, ChunkedDataReader returns it unchanged, byte for byte.", "quantifier": "all byte strings whose first line is not a chunk-size line, all read sequences", "why_tests_cant": "infinite set of non-chunked inputs", "anchors": ["warcio/bufferedreaders.py:ChunkedDataReader._fillbuff"]}
{"id": "C14", "title": "Falling back from chunked to plain mid-stream loses no bytes", "statement": "When chunk framing breaks after some data, the bytes returned by ChunkedDataReader are those of the decoded chunks followed by all remaining raw bytes.", "quantifier": "all chunked prefixes followed by arbitrary bytes", "why_tests_cant": "needs reasoning over all continuations", "anchors": ["warcio/bufferedreaders.py:ChunkedDataReader._try_decode"]}
{"id": "C15", "title": "content_stream undoes chunking and compression together", "statement": "For a record whose HTTP headers declare Transfer-Encoding: chunked and a gzip Content-Encoding, content_stream() read to the end yields the original uncompressed payload for every chunking of the compressed data.", "quantifier": "all payloads, chunk divisions, read sizes", "why_tests_cant": "product of chunkings, codecs and reads", "anchors": ["warcio/recordloader.py:ArcWarcRecord.content_stream", "warcio/bufferedreaders.py:ChunkedDataReader._fillbuff"]}
{"id": "C16", "title": "Header lookup is case-insensitive and returns the first match", "statement": "get_header(name) returns the value of the first header whose name equals name ignoring ASCII case, and the default when there is none; add_header appends one header at the end and changes nothing else.", "quantifier": "all header lists, names, values", "why_tests_cant": "arbitrary lists and names", "anchors": ["warcio/statusandheaders.py:StatusAndHeaders.get_header", "warcio/statusandheaders.py:StatusAndHeaders.add_header"]}
{"id": "C17", "title": "replace_header followed by get_header returns the new value", "statement": "After replace_header(name, v), get_header(name) returns v, all other headers keep their values and order, and the return value is the previous value or None.", "quantifier": "all header lists, names, values", "why_tests_cant": "duplicate-name lists are what breaks it", "anchors": ["warcio/statusandheaders.py:StatusAndHeaders.replace_header", "warcio/statusandheaders.py:StatusAndHeaders.get_header"]}
{"id": "C18", "title": "remove_header deletes exactly one matching header", "statement": "remove_header(name) returns True and deletes exactly the last header matching name ignoring case if there is one, otherwise returns False and changes nothing; all other headers keep their order.", "quantifier": "all header lists and names", "why_tests_cant": "arbitrary lists", "anchors": ["warcio/statusandheaders.py:StatusAndHeaders.remove_header"]}
{"id": "C19", "title": "Headers survive serialisation and parsing", "statement": "For every well-formed header block (protocol, status line, header list over Unicode text), parsing the bytes produced by to_bytes() gives back the same protocol, status line and headers, and leaves the stream exactly at the body.", "quantifier": "all well-formed header blocks, all bodies following them", "why_tests_cant": "unbounded Unicode header content", "anchors": ["warcio/statusandheaders.py:StatusAndHeaders.to_bytes", "warcio/statusandheaders.py:StatusAndHeadersParser.parse"]}
{"id": "C20", "title": "The header parser stops exactly after the first blank line", "statement": "On any byte stream, parse() consumes exactly the lines up to and including the first blank line (or end of stream) and nothing of what follows.", "quantifier": "all byte strings, valid UTF-8 or not", "why_tests_cant": "all byte strings", "anchors": ["warcio/statusandheaders.py:StatusAndHeadersParser.parse"]}
{"id": "C21", "title": "The header parser fails only in documented ways", "statement": "On any byte stream parse() either returns, raises EOFError exactly when the stream is empty, or (only with verification on) raises StatusAndHeadersParserException exactly when the first line is not blank and has none of the expected prefixes.", "quantifier": "all byte strings, all expected-prefix lists", "why_tests_cant": "all byte strings including malformed UTF-8", "anchors": ["warcio/statusandheaders.py:StatusAndHeadersParser.parse", "warcio/statusandheaders.py:StatusAndHeadersParser.decode_header"]}
{"id": "C22", "title": "to_ascii_bytes always produces an ASCII header block", "statement": "For headers with ASCII names and an ASCII status line, to_ascii_bytes() returns a pure ASCII block, leaves ASCII-only values untouched, and percent-encodes the others.", "quantifier": "all header lists with arbitrary Unicode values", "why_tests_cant": "unbounded Unicode values with parameter syntax", "anchors": ["warcio/statusandheaders.py:StatusAndHeaders.to_ascii_bytes", "warcio/statusandheaders.py:StatusAndHeaders.percent_encode_non_ascii_headers"]}
{"id": "C23", "title": "A header value cannot inject further headers", "statement": "Serialising a header list and parsing it back yields the same number of headers, for every header value.", "quantifier": "all header values, including values containing CR/LF", "why_tests_cant": "values with line breaks", "anchors": ["warcio/statusandheaders.py:StatusAndHeaders.to_str"]}
{"id": "C24", "title": "Written Content-Length equals the block length", "statement": "For every record created by create_warc_record and written with write_record, the Content-Length header in the output is the decimal number of bytes between the end of the WARC headers and the final CRLF CRLF.", "quantifier": "all payloads, HTTP headers, record types, lengths given (correctly) or unknown, seekable or not", "why_tests_cant": "every payload and header combination", "anchors": ["warcio/warcwriter.py:BaseWARCWriter._write_warc_record", "warcio/recordbuilder.py:RecordBuilder.create_warc_record"]}
{"id": "C25", "title": "Written record framing", "statement": "write_record emits exactly: the version line, one \"Name: value\" line per WARC header, an empty line, the HTTP header block if any, the payload (none for revisit records), and CRLF CRLF; nothing else.", "quantifier": "all records", "why_tests_cant": "all records", "anchors": ["warcio/warcwriter.py:BaseWARCWriter._write_warc_record"]}
{"id": "C26", "title": "Written digests are the digests of what is written", "statement": "For a record created without digests, the WARC-Block-Digest written is the sha1 (base32) of the written block and the WARC-Payload-Digest is that of the payload; payload digests are omitted for warcinfo and revisit records.", "quantifier": "all payloads, http headers and hash functions", "why_tests_cant": "all contents", "anchors": ["warcio/recordbuilder.py:RecordBuilder.ensure_digest", "warcio/utils.py:Digester"]}
{"id": "C27", "title": "Write then read is the identity on records", "statement": "Writing any list of well-formed records uncompressed and iterating over the output returns the same records in order: same WARC headers, same record type, same HTTP headers and same content bytes.", "quantifier": "all lists of well-formed records, block sizes, payloads including ones that look like WARC records", "why_tests_cant": "unbounded record lists and binary payloads", "anchors": ["warcio/warcwriter.py:WARCWriter.write_record", "warcio/archiveiterator.py:ArchiveIterator._iterate_records", "warcio/recordloader.py:ArcWarcRecordLoader.parse_record_stream"]}
{"id": "C28", "title": "Write gzip then read is the identity on records", "statement": "The same with gzip=True: each record is one gzip member, iteration returns the same records, and reported offsets and lengths are the member boundaries.", "quantifier": "all lists of records, any correct gzip codec, block sizes, schedules", "why_tests_cant": "unbounded; codec-independent", "anchors": ["warcio/warcwriter.py:GzippingWrapper", "warcio/archiveiterator.py:ArchiveIterator._iterate_records"]}
{"id": "C29", "title": "Revisit records carry headers only", "statement": "A revisit record created by create_revisit_record is written with only its HTTP headers as block, keeps the payload digest given, names the referred URI and date, and its Content-Length counts only those headers.", "quantifier": "all uris, digests, http headers", "why_tests_cant": "all inputs", "anchors": ["warcio/recordbuilder.py:RecordBuilder.create_revisit_record", "warcio/warcwriter.py:BaseWARCWriter._write_warc_record"]}
{"id": "C30", "title": "Request/response pairs are linked", "statement": "write_request_response_pair writes the response first and then the request, and the written request has the WARC-Target-URI and WARC-Date of the response and a WARC-Concurrent-To naming the response record id.", "quantifier": "all record pairs", "why_tests_cant": "all header lists", "anchors": ["warcio/warcwriter.py:BaseWARCWriter.write_request_response_pair"]}
{"id": "C31", "title": "Unknown length and unseekable payloads are written like known ones", "statement": "A record created from a payload of unknown length or from an unseekable stream is written with the same block, digests and Content-Length as one created from the same bytes with the correct length.", "quantifier": "all payloads, stream kinds, short-read schedules", "why_tests_cant": "all schedules", "anchors": ["warcio/recordbuilder.py:RecordBuilder.ensure_digest", "warcio/warcwriter.py:BaseWARCWriter._write_warc_record"]}
{"id": "C32", "title": "Writing a record twice writes it twice", "statement": "Calling write_record twice with the same record object emits two identical records.", "quantifier": "all records", "why_tests_cant": "state left behind by the first write", "anchors": ["warcio/warcwriter.py:BaseWARCWriter._write_warc_record"]}
{"id": "C33", "title": "Writers compose by concatenation", "statement": "The output of writing a list of records is the concatenation of the outputs of writing each to a fresh file, so appending to an existing archive (append mode) yields an archive whose iteration is the old records followed by the new ones.", "quantifier": "all lists of records and existing archives", "why_tests_cant": "all splits", "anchors": ["warcio/warcwriter.py:WARCWriter.write_record", "warcio/capture_http.py:capture_http"]}
{"id": "C34", "title": "Iteration visits every record once with its offset and length", "statement": "Iterating over a concatenation of well-formed WARC records yields each record once, in order; get_record_offset() is its byte position and get_record_length() the size of headers plus block (uncompressed), for every block size and short-read behaviour.", "quantifier": "all well-formed archives, block sizes >= 2, schedules whose first read returns at least two bytes (C08 treats the others); options without verify_http, ensure_http_headers and check_digests", "why_tests_cant": "unbounded archives", "anchors": ["warcio/archiveiterator.py:ArchiveIterator._iterate_records", "warcio/archiveiterator.py:ArchiveIterator.read_to_end", "warcio/archiveiterator.py:ArchiveIterator._consume_blanklines"]}
{"id": "C35", "title": "Iteration is independent of what the consumer reads", "statement": "The sequence of records, offsets and lengths seen when iterating does not depend on how much of each record (none, part, all; by raw_stream read/readline) the consumer reads before advancing.", "quantifier": "all archives, all finite consumer read programs between steps", "why_tests_cant": "all consumer behaviours", "anchors": ["warcio/archiveiterator.py:ArchiveIterator.read_to_end"]}
{"id": "C36", "title": "Random access by reported offset", "statement": "Opening the archive at a reported record offset and iterating yields that record and all following ones; the reported offset/length slice contains exactly the record.", "quantifier": "all archives of well-formed records and record positions; files and options as in C34", "why_tests_cant": "unbounded", "anchors": ["warcio/archiveiterator.py:ArchiveIterator.get_record_offset", "warcio/extractor.py:Extractor.extract"]}
{"id": "C37", "title": "A truncated archive still yields every complete record", "statement": "For every prefix of a well-formed uncompressed archive (a crash while writing), iteration first yields every record wholly contained in the prefix, with unchanged headers and content, before anything else happens.", "quantifier": "all archives and all cut points", "why_tests_cant": "all crash points", "anchors": ["warcio/archiveiterator.py:ArchiveIterator._iterate_records"]}
{"id": "C38", "title": "Truncation is never mistaken for a complete record stream", "statement": "If an archive is cut inside a record, iterating (and reading the contents) either raises, or yields a record whose content is shorter than its length; it does not end silently as if the archive were complete.", "quantifier": "all cut points inside a record", "why_tests_cant": "all crash points", "anchors": ["warcio/archiveiterator.py:ArchiveIterator._iterate_records", "warcio/recordloader.py:ArcWarcRecordLoader.load_http_headers"]}
{"id": "C39", "title": "Iteration terminates on every input", "statement": "For every byte string, iterating an ArchiveIterator over it (not gzip) ends after finitely many records, with normal end or an exception.", "quantifier": "all byte strings, block sizes, schedules", "why_tests_cant": "all inputs", "anchors": ["warcio/archiveiterator.py:ArchiveIterator._iterate_records"]}
{"id": "C40", "title": "Leading blank lines do not hide records", "statement": "If blank lines precede the first WARC record, iteration still yields the records.", "quantifier": "all archives preceded by blank lines", "why_tests_cant": "universal over archives", "anchors": ["warcio/statusandheaders.py:StatusAndHeadersParser.parse", "warcio/archiveiterator.py:ArchiveIterator._next_record"]}
{"id": "C41", "title": "Only documented exceptions escape iteration", "statement": "Iterating over arbitrary data raises nothing other than ArchiveLoadFailed.", "quantifier": "all byte strings", "why_tests_cant": "all inputs", "anchors": ["warcio/archiveiterator.py:ArchiveIterator._iterate_records", "warcio/recordloader.py:ArcWarcRecordLoader.load_http_headers"]}
{"id": "C42", "title": "Non-record-compressed gzip archives are reported", "statement": "If a single gzip member holds two or more records, iteration raises ArchiveLoadFailed after the first record instead of continuing with wrong offsets.", "quantifier": "all such archives, codecs, block sizes", "why_tests_cant": "all archives", "anchors": ["warcio/archiveiterator.py:ArchiveIterator._raise_invalid_gzip_err"]}
{"id": "C43", "title": "ARC header lines are split into their five fields", "statement": "Parsing an ARC record header line made of URL, IP, date, content type and length joined by single spaces returns exactly those fields, even when the URL contains spaces; lines with fewer than five fields are rejected.", "quantifier": "all field values without spaces and all URLs", "why_tests_cant": "all strings", "anchors": ["warcio/recordloader.py:ARCHeadersParser.parse"]}
{"id": "C44", "title": "arc2warc maps ARC fields to WARC headers", "statement": "With arc2warc, an ARC response line becomes a WARC response header block with the URL, IP, ISO date of the timestamp, the HTTP response content type and the length; an ARC file header becomes a warcinfo record with WARC-Filename.", "quantifier": "all ARC header lines", "why_tests_cant": "all strings", "anchors": ["warcio/recordloader.py:ARC2WARCHeadersParser._get_protocol_and_headers"]}
{"id": "C45", "title": "Digest verification verdict", "statement": "After a record read with digest checking is read to the end, in any sequence of reads, passed is False if some digest header is unusable (no algorithm, unknown algorithm) or does not match the content, otherwise True if at least one digest matches, otherwise None.", "quantifier": "all contents, hash functions, digest values in every RFC 3548 encoding, read sequences, header/payload boundary", "why_tests_cant": "all contents and read chunkings", "anchors": ["warcio/digestverifyingreader.py:DigestVerifyingReader._update", "warcio/digestverifyingreader.py:DigestVerifyingReader.begin_payload", "warcio/digestverifyingreader.py:DigestChecker.problem"]}
{"id": "C46", "title": "Digests are accepted in every RFC 3548 encoding", "statement": "A WARC digest value that encodes the correct hash in base32, base16 (any case) or base64 (either alphabet) is accepted, and one that encodes a different hash is rejected, for every supported hash algorithm.", "quantifier": "all hash values and lengths", "why_tests_cant": "all hash values", "anchors": ["warcio/digestverifyingreader.py:_compare_digest_rfc_3548", "warcio/digestverifyingreader.py:_to_b32"]}
{"id": "C47", "title": "Truncated content is reported by digest checking", "statement": "If the content of a record with a digest ends before its Content-Length, digest checking does not leave the record unflagged.", "quantifier": "all records and cut points", "why_tests_cant": "all cut points", "anchors": ["warcio/digestverifyingreader.py:DigestVerifyingReader._update", "warcio/checker.py:Checker.process_one"]}
{"id": "C48", "title": "Malformed digest headers are reported as problems, not crashes", "statement": "A record with an arbitrary digest header string can be read to the end without an exception other than ArchiveLoadFailed.", "quantifier": "all digest header strings", "why_tests_cant": "all strings", "anchors": ["warcio/digestverifyingreader.py:_to_b32"]}
{"id": "C49", "title": "Raise mode raises exactly when plain mode fails", "statement": "With check_digests='raise', reading a record raises ArchiveLoadFailed iff reading it with check_digests=True ends with passed False.", "quantifier": "all records, digests, read sequences", "why_tests_cant": "all reads", "anchors": ["warcio/digestverifyingreader.py:DigestChecker.problem"]}
{"id": "C50", "title": "timestamp_to_datetime is total and clamps to valid dates", "statement": "For every string, timestamp_to_datetime returns a valid calendar date-time with year 1900..2999.", "quantifier": "all strings", "why_tests_cant": "all strings", "anchors": ["warcio/timeutils.py:timestamp_to_datetime"]}
{"id": "C51", "title": "Timestamps round-trip through datetimes", "statement": "datetime_to_timestamp(timestamp_to_datetime(t)) == t for every valid 14-digit timestamp with year 1900..2999, and timestamp_to_datetime(datetime_to_timestamp(d)) == d for every such whole-second datetime.", "quantifier": "all valid timestamps", "why_tests_cant": "about 3.5e10 values", "anchors": ["warcio/timeutils.py:timestamp_to_datetime", "warcio/timeutils.py:datetime_to_timestamp"]}
{"id": "C52", "title": "ISO dates round-trip through datetimes", "statement": "iso_date_to_datetime(datetime_to_iso_date(d, use_micros=True)) == d for every datetime with a four-digit year, and without micros the result is d truncated to whole seconds; fractional digits beyond six are ignored and fewer are padded.", "quantifier": "all datetimes with year 1000..9999", "why_tests_cant": "about 2.8e17 values", "anchors": ["warcio/timeutils.py:iso_date_to_datetime", "warcio/timeutils.py:datetime_to_iso_date"]}
{"id": "C53", "title": "Timestamp/epoch-second conversion is a bijection", "statement": "sec_to_timestamp(timestamp_to_sec(t)) == t for every valid 14-digit timestamp with year 1900..2999, and timestamp order agrees with second order.", "quantifier": "all valid timestamps", "why_tests_cant": "about 3.5e10 values", "anchors": ["warcio/timeutils.py:timestamp_to_sec", "warcio/timeutils.py:sec_to_timestamp"]}
{"id": "C54", "title": "Partial timestamps denote the end of their period", "statement": "A valid timestamp prefix (4, 6, 8, 10 or 12 digits) maps to the latest valid datetime having that prefix.", "quantifier": "all valid prefixes", "why_tests_cant": "all prefixes and completions", "anchors": ["warcio/timeutils.py:timestamp_to_datetime", "warcio/timeutils.py:pad_timestamp"]}
{"id": "C55", "title": "Recorded traffic is the traffic", "statement": "For requests made one after another on a captured connection, the recorded request and response bytes are exactly the bytes sent and the bytes returned to the HTTP client by read and readline.", "quantifier": "all byte sequences and call sequences", "why_tests_cant": "all traffic", "anchors": ["warcio/capture_http.py:RequestRecorder", "warcio/capture_http.py:RecordingStream"]}
{"id": "C56", "title": "Short readinto calls are recorded correctly", "statement": "When readinto fills only part of the buffer, only the filled part is recorded.", "quantifier": "all buffers and counts", "why_tests_cant": "short reads depend on the peer", "anchors": ["warcio/capture_http.py:RecordingStream.readinto"]}
{"id": "C57", "title": "Leaving a nested capture restores the outer one", "statement": "After an inner capture_http block ends inside an outer one, new connections record to the outer writer again.", "quantifier": "all nestings of capture contexts", "why_tests_cant": "all nestings", "anchors": ["warcio/capture_http.py:capture_http"]}
{"id": "C58", "title": "Recorded URL is the requested URL", "statement": "For a direct request, the recorded target URI is scheme://host[:port]path with the port omitted iff it is the default; for a request to a proxy with an absolute URI it is that URI; after CONNECT it uses the tunnelled host and port.", "quantifier": "all hosts, ports, request lines", "why_tests_cant": "all strings", "anchors": ["warcio/capture_http.py:RequestRecorder.extract_url"]}
{"id": "C59", "title": "A rejecting filter writes nothing", "statement": "If the filter function returns no request or no response the archive is unchanged; otherwise exactly the pair is appended, response first.", "quantifier": "all filters and recorded exchanges", "why_tests_cant": "all filters", "anchors": ["warcio/capture_http.py:RequestRecorder.done"]}
{"id": "C60", "title": "The index agrees with the iterator", "statement": "For every well-formed archive the index has one line per record, in order, whose offset and length fields are those of the record, and header fields are the header values.", "quantifier": "all archives and field lists", "why_tests_cant": "all archives", "anchors": ["warcio/indexer.py:Indexer.process_one", "warcio/indexer.py:Indexer.get_field"]}
{"id": "C61", "title": "extract prints the record at an offset", "statement": "extract at a reported offset outputs the WARC headers, HTTP headers and content of exactly that record; --payload only its decoded content; --headers only headers.", "quantifier": "all archives and offsets", "why_tests_cant": "all archives", "anchors": ["warcio/extractor.py:Extractor.extract"]}
{"id": "C62", "title": "Recompressing preserves the archive", "statement": "Recompressing a readable archive produces a record-compressed archive whose iteration gives the same records (headers, HTTP headers, content) as the original.", "quantifier": "all archives", "why_tests_cant": "all archives", "anchors": ["warcio/recompressor.py:Recompressor.load_and_write"]}
{"id": "C63", "title": "Check exit status", "statement": "warcio check exits 1 iff some file raises ArchiveLoadFailed or some record fails a digest check, whatever the verbosity and the order of the files.", "quantifier": "all inputs", "why_tests_cant": "all inputs", "anchors": ["warcio/checker.py:Checker.process_all", "warcio/checker.py:Checker.process_one"]}
{"id": "C64", "title": "Rewriting a read record keeps the archive well framed", "statement": "Writing a record obtained from iteration emits a record whose Content-Length equals its block length, whatever the record contained.", "quantifier": "all input records", "why_tests_cant": "all records, including odd HTTP blocks", "anchors": ["warcio/warcwriter.py:BaseWARCWriter._write_warc_record", "warcio/statusandheaders.py:StatusAndHeaders.__bool__"]}
{"id": "C65", "title": "Rewriting a read record keeps its digests valid", "statement": "If a record passes digest checking when read, the record written from it passes digest checking when read back.", "quantifier": "all input records", "why_tests_cant": "all header spellings", "anchors": ["warcio/recordbuilder.py:RecordBuilder.ensure_digest", "warcio/warcwriter.py:BaseWARCWriter._write_warc_record"]}
{"id": "C66", "title": "A chunked body cut anywhere yields a prefix of the payload", "statement": "If a correct chunked body is cut off at any byte, ChunkedDataReader (raise_exceptions False) returns a prefix of the payload.", "quantifier": "all chunked bodies, all cut points", "why_tests_cant": "the outcome depends on where in the framing the cut falls; tests cut at a few places", "anchors": ["warcio/bufferedreaders.py:ChunkedDataReader._try_decode"]}
{"id": "C67", "title": "Chunked bodies with trailer fields are decoded", "statement": "A chunked body whose last chunk is followed by trailer header fields (RFC 7230 4.1.2) is decoded to its payload.", "quantifier": "all payloads, chunkings and trailers", "why_tests_cant": "the space of trailers is unbounded and no test has one", "anchors": ["warcio/bufferedreaders.py:ChunkedDataReader._try_decode"]}
{"id": "C68", "title": "Chunk decoding does not depend on how the source splits its reads", "statement": "For every source that may return fewer bytes than asked (but none only at its end), ChunkedDataReader decodes a correct chunked body to its payload.", "quantifier": "all chunked bodies, all schedules of short reads", "why_tests_cant": "the schedules of short reads are unbounded; tests use in-memory files, which never return short reads", "anchors": ["warcio/bufferedreaders.py:ChunkedDataReader._try_decode"]}
{"id": "C69", "title": "Digest checking judges every record and does not disturb iteration", "statement": "With check_digests enabled (not 'raise'), iterating over a well-formed archive gives the same records, HTTP headers, data, offsets and lengths as without it, and digest_checker.passed of every record left behind is False iff its block or payload digest is wrong, True iff none is wrong and one was compared, whatever part of the record the consumer read. With check_digests='raise' the records before the first one with a wrong digest are seen in the same way and ArchiveLoadFailed is raised at that record; without a wrong digest nothing differs.", "quantifier": "all well-formed archives, all consumer read programs, all digests", "why_tests_cant": "the verdict must not depend on how reads of the consumer and of the iterator split the record", "anchors": ["warcio/archiveiterator.py:ArchiveIterator.read_to_end", "warcio/digestverifyingreader.py:DigestVerifyingReader", "warcio/recordloader.py:ArcWarcRecordLoader.parse_record_stream"]}
{"id": "C70", "title": "add_range turns the headers into those of the requested part", "statement": "add_range(start, n, total) sets the status line 206 Partial Content and the headers Content-Range 'bytes start-(start+n-1)/total', Content-Length n and Accept-Ranges bytes (in place of the last header of that name, or added), and changes no other header.", "quantifier": "all header lists, with and without such headers, all numbers", "why_tests_cant": "unbounded header lists with repeated and differently cased names", "anchors": ["warcio/statusandheaders.py:StatusAndHeaders.add_range"]}
{"id": "C71", "title": "name in headers agrees with looking the name up", "statement": "name in headers is True iff the headers contain a header with that name, ignoring case.", "quantifier": "all header lists and names", "why_tests_cant": "the space of header lists is unbounded; tests only use non-empty values", "anchors": ["warcio/statusandheaders.py:StatusAndHeaders.__contains__"]}
{"id": "C72", "title": "Equality of StatusAndHeaders is agreement of status line, headers and protocol", "statement": "a == b iff status line, header list and protocol are equal; in particular == is reflexive.", "quantifier": "all pairs of StatusAndHeaders objects", "why_tests_cant": "quantifies over all pairs of objects", "anchors": ["warcio/statusandheaders.py:StatusAndHeaders.__eq__"]}
{"id": "C73", "title": "Status codes are the text before the first space; validate_statusline repairs exactly the invalid ones", "statement": "get_statuscode gives the status line up to its first space; validate_statusline returns True and changes nothing iff the code is a positive number, else it puts the given status line and changes nothing else.", "quantifier": "all status lines", "why_tests_cant": "unbounded text", "anchors": ["warcio/statusandheaders.py:StatusAndHeaders.get_statuscode", "warcio/statusandheaders.py:StatusAndHeaders.validate_statusline"]}
{"id": "C74", "title": "ARC records need no blank line between them", "statement": "Iterating over an ARC file whose records follow each other without a blank line (which the code that skips blank lines documents as possible) yields every record.", "quantifier": "all ARC files without blank lines between records", "why_tests_cant": "quantifies over all files; the test files all have a newline after each record", "anchors": ["warcio/archiveiterator.py:ArchiveIterator._consume_blanklines", "warcio/archiveiterator.py:ArchiveIterator.read_to_end"]}
{"id": "C75", "title": "Iterating over an ARC file yields its records in order", "statement": "Iterating over an ARC file (plain, or one gzip member per record; native or with arc2warc) yields every record once, in order, with its fields, type, length, HTTP headers, payload, offset and length, whatever the consumer reads from each record, and then stops.", "quantifier": "all lists of records, all blank lines after them, all consumers, all ways the file delivers its data", "why_tests_cant": "unbounded files, consumers and read schedules", "anchors": ["warcio/archiveiterator.py:ArchiveIterator._iterate_records", "warcio/recordloader.py:ArcWarcRecordLoader.parse_record_stream", "warcio/recordloader.py:ARCHeadersParser.parse"]}
{"id": "C76", "title": "Capturing does not change the traffic", "statement": "If no operation raises, every connection has sent the same bytes and is in the same state as when the same program runs outside capture_http.", "quantifier": "all programs: any captures, threads, connections, tunnels, requests, responses", "why_tests_cant": "quantifies over all programs; needs a comparison of two executions", "anchors": ["warcio/capture_http.py:RecordingHTTPConnection", "warcio/capture_http.py:RequestRecorder.extract_url"]}
{"id": "C77", "title": "Threads recording to one archive do not mix their records", "statement": "At every moment and under every schedule the archive consists of complete outputs of finished exchanges, in an order that respects each thread's order, followed by at most the beginning of one more.", "quantifier": "all numbers of threads and exchanges, all schedules", "why_tests_cant": "schedules cannot be enumerated by tests", "anchors": ["warcio/capture_http.py:RequestRecorder.done", "warcio/capture_http.py:RequestRecorder.__init__"]}
{"id": "C78", "title": "HTTP dates round-trip and name the right day", "statement": "datetime_to_http_date gives the RFC 1123 date with the right day of the week, and http_date_to_datetime reads it back.", "quantifier": "all date-times of the years 1 to 9999", "why_tests_cant": "about 3e11 values; the day of the week is a function of the whole calendar", "anchors": ["warcio/timeutils.py:datetime_to_http_date", "warcio/timeutils.py:http_date_to_datetime", "warcio/timeutils.py:http_date_to_timestamp"]}
{"id": "C79", "title": "Reading a record's content always ends and raises nothing new", "statement": "For every file and every consumer, reading record.content_stream() (chunked, gzip, deflate, damaged or not) by read, readline or to the end comes to an end, iteration can go on afterwards, and nothing is raised except what reading the raw record may raise (digest failures when digests are checked).", "quantifier": "all byte strings, codecs, block sizes, schedules of short reads, options, consumer programs", "why_tests_cant": "non-termination and exceptions on arbitrary damaged input cannot be excluded by finitely many files", "anchors": ["warcio/recordloader.py:ArcWarcRecord.content_stream", "warcio/bufferedreaders.py:ChunkedDataReader._fillbuff", "warcio/bufferedreaders.py:BufferedReader.read", "warcio/archiveiterator.py:ArchiveIterator.read_to_end"]}
{"id": "C80", "title": "The command line tools end on every input", "statement": "index, check, extract and recompress come to an end on any files, and the exceptions that can leave them are the listed ones; check ends with exit status 0 or 1 otherwise.", "quantifier": "all lists of files with arbitrary content, all fields and offsets, all codecs and hash functions", "why_tests_cant": "all inputs", "anchors": ["warcio/indexer.py:Indexer.process_one", "warcio/checker.py:Checker.process_one", "warcio/extractor.py:Extractor.extract", "warcio/recompressor.py:Recompressor.recompress"]}
{"id": "C81", "title": "Any white space may separate records", "statement": "Whatever blank lines or white space separate the records of an uncompressed archive (after the CRLF CRLF, instead of it, or none after the last one), iteration yields the same records at the right offsets with the right lengths.", "quantifier": "all archives, all separators of white space that end with a line feed, all record contents, all schedules of short reads and all programs of reads", "why_tests_cant": "universal over separators, contents and read boundaries", "anchors": ["warcio/archiveiterator.py:ArchiveIterator._consume_blanklines", "warcio/archiveiterator.py:ArchiveIterator.read_to_end"]}
{"id": "C82", "title": "check prints exactly the failing records", "statement": "For each file in order, warcio check prints the file name once, then every record whose digest check failed (offset, WARC-Record-ID, WARC-Type, at least one problem) and no other record, except that verbose mode prints one text about every other record, the right one; a file that cannot be read to its end is reported as failed after the records before the failure.", "quantifier": "all inputs on which check does not raise", "why_tests_cant": "all inputs; the output depends on every record of every file", "anchors": ["warcio/checker.py:Checker.process_all", "warcio/checker.py:Checker.process_one", "warcio/digestverifyingreader.py:DigestChecker.problem"]}
{"id": "C83", "title": "Raise and log mode agree with plain digest checking during iteration", "statement": "Iterating with check_digests='log' shows exactly what check_digests=True shows; with 'raise' it shows the same up to the first record whose digests fail and raises ArchiveLoadFailed at that record.", "quantifier": "all files, all schedules of short reads, all programs of reads, all hash functions", "why_tests_cant": "quantifies over whole iterations of arbitrary files; the point of failure may be anywhere inside a record", "anchors": ["warcio/digestverifyingreader.py:DigestChecker.problem", "warcio/digestverifyingreader.py:DigestVerifyingReader._update", "warcio/recordloader.py:ArcWarcRecordLoader.parse_record_stream"]}
{"id": "C84", "title": "Digest checking does not disturb iteration, on any input", "statement": "On every file, iterating with digest checking shows the same records, HTTP headers, data, offsets and lengths as iterating without it, except where checking itself raises.", "quantifier": "all files, all modes, all programs of reads (negative lengths included)", "why_tests_cant": "two runs over all inputs", "anchors": ["warcio/recordloader.py:ArcWarcRecordLoader.wrap_digest_verifying_stream", "warcio/digestverifyingreader.py:DigestVerifyingReader"]}
{"id": "C85", "title": "Parsing HTTP headers does not change which records are found", "statement": "On every file, iterating with and without no_record_parse shows the same records with the same headers, offsets and lengths, and what can be read of a record with HTTP parsing is what can be read without it minus a prefix, until a record is met whose HTTP headers cannot be parsed (no target URI, no content, or verify_http).", "quantifier": "all files, block sizes, schedules of short reads and options without digest checking", "why_tests_cant": "two runs over all inputs; the HTTP parser may stop anywhere inside a record", "anchors": ["warcio/recordloader.py:ArcWarcRecordLoader.load_http_headers", "warcio/recordloader.py:ArcWarcRecordLoader.parse_record_stream", "warcio/archiveiterator.py:ArchiveIterator._iterate_records"]}
{"id": "C86", "title": "Archives written by warcio pass warcio check", "statement": "Checking files that WARCWriter wrote, plain or gzip, from records made by create_warc_record without digest headers: the exit status is 0, nothing is printed without --verbose and no problem is printed with it.", "quantifier": "all lists of files and records, contents, hash functions and gzip codecs; records that can be read back (C27), content without encodings", "why_tests_cant": "composition of record builder, writer, serialiser, reader, digest verifier and tool over unbounded input", "anchors": ["warcio/checker.py:Checker.process_all", "warcio/warcwriter.py:BaseWARCWriter._write_warc_record", "warcio/recordbuilder.py:RecordBuilder.create_warc_record", "warcio/digestverifyingreader.py:DigestVerifyingReader"]}
{"id": "C87", "title": "ensure_http_headers only adds HTTP headers where there are none", "statement": "Iterating with ensure_http_headers=True shows the same records, data, offsets, lengths, digest results and end as without it, and the same HTTP headers where there are any; every other record gets the status line HTTP/1.0 200 OK, its Content-Type if it has one and its length if known.", "quantifier": "all files (any bytes, any schedule of short reads), all block sizes, options and consumers", "why_tests_cant": "two unbounded runs over arbitrary bytes are compared", "anchors": ["warcio/recordloader.py:ArcWarcRecordLoader.default_http_headers", "warcio/recordloader.py:ArcWarcRecordLoader.parse_record_stream"]}
{"id": "C88", "title": "Offsets of the index let extract find the records", "statement": "The index of an archive of well-formed records, plain or with one gzip member for each record, has one line for each record, and the offset in line k, read as an integer, makes extract print record k.", "quantifier": "all archives of complete records, all lists of fields with offset, all contents", "why_tests_cant": "composition of indexer, iterator and extractor over unbounded archives", "anchors": ["warcio/indexer.py:Indexer.process_one", "warcio/indexer.py:Indexer.get_field", "warcio/extractor.py:Extractor.extract"]}
{"id": "C89", "title": "Recompressing does not change the verdict of check", "statement": "After recompressing an archive whose blocks are written as they were read (or that have no block digest), check exits with the same status for the new file as for the old one: 1 if some record has a wrong digest, 0 if none has.", "quantifier": "all archives of complete records, plain or with one gzip member per record, all contents (encoded or not), hash functions and codecs", "why_tests_cant": "composition of recompressor, writer, reader and checker over unbounded archives", "anchors": ["warcio/recompressor.py:Recompressor.load_and_write", "warcio/checker.py:Checker.process_one", "warcio/warcwriter.py:BaseWARCWriter._write_warc_record"]}
{"id": "C90", "title": "Recompressing is idempotent", "statement": "Recompressing a recompressed archive gives the same number of members, which decompress to the same bytes; records in which the writer has nothing to change are copied byte for byte.", "quantifier": "all archives of complete records with rewritable HTTP headers, all codecs and hash functions", "why_tests_cant": "two unbounded passes over arbitrary archives are compared", "anchors": ["warcio/recompressor.py:Recompressor.load_and_write", "warcio/recordbuilder.py:RecordBuilder.create_warc_record", "warcio/warcwriter.py:BaseWARCWriter.ensure_digest", "warcio/statusandheaders.py:StatusAndHeaders.replace_header"]}
{"id": "C91", "title": "The index of a written file lists the writes", "statement": "For a file that WARCWriter wrote, plain or gzip, the index with the fields offset and length is the list of the positions at which write_record started to write and of the number of bytes written (in uncompressed files without the two empty lines after the record).", "quantifier": "all lists of records made by create_warc_record that can be read back, all contents, hash functions and gzip codecs", "why_tests_cant": "composition of builder, writer, reader and indexer over unbounded files", "anchors": ["warcio/indexer.py:Indexer.process_one", "warcio/warcwriter.py:BaseWARCWriter._write_warc_record", "warcio/archiveiterator.py:ArchiveIterator.read_to_end"]}
{"id": "C92", "title": "Target URIs are read without brackets and spaces", "statement": "Every record of an archive whose WARC-Target-URI is written in angle brackets or contains spaces is found once, in order, at its offset, with its block and all its headers, except that the URI is without the pair of brackets and each of its spaces is %20; reading it again changes nothing more.", "quantifier": "all archives of readable records with at most one such header, plain or one gzip member per record; all block sizes, read schedules and consumers", "why_tests_cant": "unbounded archives, URIs and read schedules", "anchors": ["warcio/recordloader.py:ArcWarcRecordLoader._ensure_target_uri_format", "warcio/recordloader.py:ArcWarcRecordLoader.parse_record_stream", "warcio/archiveiterator.py:ArchiveIterator._iterate_records"]}
{"id": "C93", "title": "Recompressing an ARC file converts it to a WARC file", "statement": "Recompressing an ARC file whose records can be written as WARC records (fields that fit on a line, HTTP headers spelled as the writer spells them or ASCII) reports no error and writes, for each ARC record in order, one gzip member with a WARC record: a response (or, for the description of the file, a warcinfo record) with the URL, IP address, ISO date and content type of the ARC record, its HTTP headers and content, a Content-Length that is the length of the block, and digests. Reading the output gives these records, and checking it exits with 0.", "quantifier": "all ARC files, plain or one gzip member per record, with lines inside records read in one piece (as in C75); all gzip codecs and hash functions", "why_tests_cant": "unbounded files, fields and contents", "anchors": ["warcio/recompressor.py:Recompressor.load_and_write", "warcio/recordloader.py:ARC2WARCHeadersParser._get_protocol_and_headers", "warcio/warcwriter.py:WARCWriter.write_record"]}
{"id": "C94", "title": "The headers of a new record", "statement": "A record made by create_warc_record and written has the builder's version line; the given headers in order, followed by the type, a new <urn:uuid:...> identifier, the target URI if there is one, the date, the payload digest (not for warcinfo and revisit records), the block digest, the content type (the argument, or the one that belongs to the record type) and the length of the block, and nothing else. An identifier, date or content type among the given headers is used instead of a new one; the type, identifier, date, content type and length occur exactly once.", "quantifier": "all arguments of create_warc_record (without ready-made WARC headers), payload streams, known and unknown lengths, header filters", "why_tests_cant": "unbounded arguments and combinations of given headers", "anchors": ["warcio/recordbuilder.py:RecordBuilder.create_warc_record", "warcio/recordbuilder.py:RecordBuilder._init_warc_headers", "warcio/warcwriter.py:BaseWARCWriter._write_warc_record"]}
{"id": "C95", "title": "Warcinfo records", "statement": "create_warcinfo_record makes a record whose block has one line 'name: value' for each pair with a non-empty value, in order, in UTF-8, and whose headers are exactly the type, the identifier, the file name if one is given, the date, the block digest, application/warc-fields and the length; text without UTF-8 form raises UnicodeEncodeError.", "quantifier": "all versions, file names and lists of pairs", "why_tests_cant": "unbounded lists and texts", "anchors": ["warcio/recordbuilder.py:RecordBuilder.create_warcinfo_record"]}
{"id": "C96", "title": "Versions that are written can be read", "statement": "A builder made with any warc_version writes records that warcio can read: the version line is that version with the prefix WARC/, 1.0 by default.", "quantifier": "all values of warc_version, records, files, block sizes and read schedules", "why_tests_cant": "unbounded version texts and files", "anchors": ["warcio/recordbuilder.py:RecordBuilder._parse_warc_version", "warcio/recordloader.py:ArcWarcRecordLoader.WARC_TYPES"]}
{"id": "C97", "title": "Header filter", "statement": "With a header filter, the HTTP headers written are exactly the results of the filter, in order, without those it drops; Content-Length and block digest are those of what is written; the payload and the WARC headers are not changed by the filter.", "quantifier": "all filters (functions on name and value), records with ASCII results", "why_tests_cant": "quantifies over functions", "anchors": ["warcio/statusandheaders.py:StatusAndHeaders.to_str", "warcio/warcwriter.py:BaseWARCWriter._write_warc_record"]}
{"id": "C98", "title": "Digest texts are RFC 4648 base32", "statement": "The text of a digest that warcio writes or compares is the algorithm name, a colon and the RFC 4648 base32 text of the hash bytes: bits most significant first, groups of five, zero filled, padded with '=' to a multiple of eight characters. The base16 and base64 encodings in which digests are accepted are RFC 4648's as well.", "quantifier": "all byte strings of any length", "why_tests_cant": "the grouping of bits differs for each length modulo five (and three); tests only see 20 byte hashes", "anchors": ["warcio/utils.py:Digester.__str__", "warcio/digestverifyingreader.py:_to_b32", "warcio/digestverifyingreader.py:_b64_wrapper"]}
{"id": "C99", "title": "What ChunkedDataReader returns is determined for every input", "statement": "For every byte string, chunked or not, ChunkedDataReader returns exactly one well-defined output: the data of complete chunks, the available part of a chunk that is cut off, everything from the first line that is no size line, and, where the CRLF after chunk data is missing, the size line, the data and the rest without its first two bytes. With raise_exceptions it returns the payload of a properly ended body and raises ChunkedDataException for everything else. Only size lines that RFC 7230 allows are taken for size lines.", "quantifier": "all byte strings, all sequences of read and readline calls, all block sizes", "why_tests_cant": "tests contain a handful of broken bodies; the claim is about all byte strings", "anchors": ["warcio/bufferedreaders.py:ChunkedDataReader._fillbuff", "warcio/bufferedreaders.py:ChunkedDataReader._try_decode"]}
{"id": "C100", "title": "Headers given as bytes or text, in a mapping or a list", "statement": "StatusAndHeaders accepts header names and values as str or bytes, in a mapping or in a sequence of pairs. The header list it keeps has one header per pair in the order given, text unchanged and bytes as one character per byte; the only error is ValueError for an element that is not a pair (or a request line without a space). Written and parsed again, the headers show the names and values given. The bytes written for a header given as bytes are those bytes.", "quantifier": "all mappings and sequences of names and values, all byte strings, all parsers of the loader, all bodies and read schedules", "why_tests_cant": "tests give a few ASCII headers; the claim is about every mixture of str and bytes and every byte value", "anchors": ["warcio/utils.py:headers_to_str_headers", "warcio/statusandheaders.py:StatusAndHeaders.__init__", "warcio/statusandheaders.py:StatusAndHeaders.to_bytes"]}
{"id": "C101", "title": "ISO dates of reduced precision", "statement": "iso_date_to_datetime reads the date formats that WARC 1.1 allows for WARC-Date (the W3C profile of ISO 8601): YYYY, YYYY-MM, YYYY-MM-DD, then hours and minutes, seconds, and a fraction, the time with 'Z' or an offset; parts that are missing count as zero (one for month and day), a date that does not exist is a ValueError.", "quantifier": "all texts made of numbers separated by single ASCII characters, with any number of digits", "why_tests_cant": "unbounded lengths and all combinations of fields", "anchors": ["warcio/timeutils.py:iso_date_to_datetime"]}
{"id": "C102", "title": "The tools change no file but their output", "statement": "Each command (index, recompress, extract, check) leaves every file as it is except the one it is told to write; what it prints, writes and returns depends on the files it is told to read only. The input survives, also when it is named as output; an existing output file survives a command that fails.", "quantifier": "all commands with all arguments, all file systems, all contents of files and standard input", "why_tests_cant": "tests run each tool on a few files in a fresh directory; a frame property is about every other file", "anchors": ["warcio/cli.py:main", "warcio/utils.py:fsspec_open", "warcio/indexer.py:Indexer", "warcio/recompressor.py:Recompressor", "warcio/checker.py:Checker", "warcio/extractor.py:Extractor"]}
{"id": "C103", "title": "The commands on files compose", "statement": "On files that exist the commands do what the functions do on their contents: check exits with 1 if some record of some file has a wrong digest and 0 otherwise, and stops with 1 at a missing file; index prints one line per record of each file in order; an offset that index printed, given to extract, prints that record; recompress keeps the exit status of check.", "quantifier": "all file systems, all lists of files, all well-formed archives in them", "why_tests_cant": "unbounded numbers of files and records, and compositions of two commands through the file system and the text of an offset", "anchors": ["warcio/cli.py:indexer", "warcio/cli.py:checker", "warcio/cli.py:extractor", "warcio/cli.py:recompressor"]}
{"id": "C104", "title": "'-' is standard input for every command", "statement": "A command that is given '-' as input file reads standard input and does what it does for a file with the same contents; index without inputs does so too.", "quantifier": "all contents of standard input, all arguments", "why_tests_cant": "tests pipe one file into index only", "anchors": ["warcio/utils.py:fsspec_open", "warcio/indexer.py:Indexer.process_all", "warcio/checker.py:Checker.process_all", "warcio/extractor.py:Extractor.extract"]}
{"id": "C105", "title": "The connection headers of captured records describe their exchange", "statement": "Records written by capture_http carry at most one WARC-IP-Address and at most one WARC-Proxy-Host. The address is that of the peer of the exchange, and only if asked for; the proxy is the one the request went through, and there is none if it went directly.", "quantifier": "all programs using capture_http, all sequences of requests on all connections of a capture, all addresses and proxies", "why_tests_cant": "tests make one request per capture; the headers are state that survives requests", "anchors": ["warcio/capture_http.py:RequestRecorder.set_remote_ip", "warcio/capture_http.py:RequestRecorder.extract_url", "warcio/capture_http.py:RequestRecorder.start"]}
{"id": "C106", "title": "What was written to a BufferWARCWriter can be got back at any time", "statement": "get_contents returns the bytes of all records written so far, in order, and disturbs nothing; the stream of get_stream gives the same bytes from the beginning, in reads of any sizes. Writing goes on after what was written.", "quantifier": "all sequences of records, get_contents, get_stream and reads of all sizes", "why_tests_cant": "tests call get_contents or get_stream once, after the last record", "anchors": ["warcio/warcwriter.py:BufferWARCWriter.get_contents", "warcio/warcwriter.py:BufferWARCWriter.get_stream"]}
{"id": "C107", "title": "capture_http never destroys a file", "statement": "capture_http(name) keeps the contents of a file that exists and adds exactly what it would have written to a new file, or (append=False) refuses it before anything is done; no other file changes.", "quantifier": "all file systems, file names and contents, all options, all operations done in the capture", "why_tests_cant": "tests use one file and one or two requests", "anchors": ["warcio/capture_http.py:capture_http"]}
{"id": "C108", "title": "Capturing does not make the client fail", "statement": "No operation of an HTTP client that works without capture_http raises an exception inside it.", "quantifier": "all programs, all requests (any verb) and responses, any number of calls to close", "why_tests_cant": "tests use GET and POST and close once", "anchors": ["warcio/capture_http.py:RequestRecorder.done", "warcio/capture_http.py:RecordingStream.close", "warcio/recordloader.py:ArcWarcRecordLoader.load_http_headers"]}
{"id": "C109", "title": "One stray line after a record loses no record", "statement": "If a record is followed by one line that is not blank (for example because its Content-Length is too small by part of a line), iteration skips that line and yields every record of the archive, with the offset and length that count no byte of the stray line.", "quantifier": "all archives, all stray lines, all blank lines after them, all record contents, all schedules of short reads and all programs of reads", "why_tests_cant": "universal over stray lines, contents and read boundaries; the tests use one broken file", "anchors": ["warcio/archiveiterator.py:ArchiveIterator._consume_blanklines", "warcio/archiveiterator.py:ArchiveIterator.read_to_end"]}
