{
 "claims": [
  {
   "property": "C01",
   "status": "proved",
   "theorems": [
    "C01_limit_confined",
    "C01_limit_file",
    "C01_limit_exact"
   ],
   "note": "Any wrapped stream that delivers its content, any sequence of read/readline calls with non-negative or absent lengths; short reads allowed."
  },
  {
   "property": "C02",
   "status": "proved",
   "theorems": [
    "C02_limit_drain",
    "C02_limit_drain_file"
   ],
   "note": "Draining a LimitReader consumes exactly the limit and leaves the source at the first byte after it."
  },
  {
   "property": "C03",
   "status": "partial",
   "theorems": [
    "C03_negative_length_refuted",
    "C03_limit_length_partial"
   ],
   "note": "The property is false for negative lengths (read(-1) reads past the limit): C03_negative_length_refuted. C03_limit_length_partial proves it for non-negative lengths and None."
  },
  {
   "property": "C04",
   "status": "partial",
   "theorems": [
    "C04_wrap_fresh",
    "C04_wrap_limited",
    "C04_wrap_invalid",
    "C04_wrap_tell_refuted"
   ],
   "note": "wrap_stream is proved right for fresh streams, limited streams and invalid lengths; tell() of a rewrapped stream is wrong: C04_wrap_tell_refuted."
  },
  {
   "property": "C05",
   "status": "proved",
   "theorems": [
    "C05_buffered_transparent",
    "C05_buffered_file"
   ],
   "note": "BufferedReader without decompression is transparent for every wrapped stream, block size, schedule of short reads and call sequence (full lines)."
  },
  {
   "property": "C06",
   "status": "partial",
   "theorems": [
    "C06_readline_limit_refuted",
    "C06_readline_limit_prefix_partial",
    "C06_readline_limit_partial",
    "C06_exact_refuted"
   ],
   "note": "False: bufferedreaders.py:195 subtracts the running total in every round. C06_exact_refuted gives the exact number of bytes for every long line, block size and limit: less than the limit whenever the limit exceeds two blocks. Proved: the result is a non-empty prefix of the line within the limit and nothing is lost; and it is exact when no line exceeds the block size and reads are full."
  },
  {
   "property": "C07",
   "status": "proved",
   "theorems": [
    "C07_gzip_member",
    "C07_all_members"
   ],
   "note": "zlib is an arbitrary byte-wise inflate automaton (zenv); a member is a string it consumes completely."
  },
  {
   "property": "C08",
   "status": "partial",
   "theorems": [
    "C08_passthrough_partial",
    "C08_passthrough_refuted"
   ],
   "note": "False when the first read returns a single byte: C08_passthrough_refuted (every codec satisfying gz_magic). Proved when the first read has two bytes or more."
  },
  {
   "property": "C09",
   "status": "proved",
   "theorems": [
    "C09_deflate",
    "C09_late_refuted"
   ],
   "note": "zlib-wrapped, raw deflate and undecodable data, for any codec automaton. C09_late_refuted: outside the quantifier (first block does not decide), the first block can be lost."
  },
  {
   "property": "C10",
   "status": "partial",
   "theorems": [
    "C10_read_all_refuted",
    "C10_read_all_empty_refuted",
    "C10_read_all_partial",
    "C10_read_all_prefix_partial",
    "C10_nothing_lost_partial"
   ],
   "note": "The unrestricted claim is refuted: with read_all_members=True a read returns b\"\" early both on an empty member and when a member ends exactly at a block boundary. Proved: reads concatenate to a prefix of the joined contents, nothing is lost, and they are complete when every member is non-empty and the data fits in the first block."
  },
  {
   "property": "C11",
   "status": "proved",
   "theorems": [
    "C11_chunked",
    "C11_chunked_file"
   ],
   "note": "Sources with full reads (a file, a LimitReader on a BufferedReader); chunk sizes up to 2^31 and size lines of the RFC form (hex digits, optional extension)."
  },
  {
   "property": "C12",
   "status": "proved",
   "theorems": [
    "C12_cut_returns_prefix",
    "C12_cut_raises"
   ],
   "note": "Both values of raise_exceptions."
  },
  {
   "property": "C13",
   "status": "proved",
   "theorems": [
    "C13_not_chunked",
    "C13_nothing_before"
   ],
   "note": "no_size_line spells out what int(.., 16) accepts; for raise_exceptions=True the reader raises instead."
  },
  {
   "property": "C14",
   "status": "partial",
   "theorems": [
    "C14_fallback_refuted",
    "C14_fallback_partial",
    "C14_broken_terminator_partial"
   ],
   "note": "False as stated (C14_fallback_refuted): two bytes are lost when the CRLF after chunk data is missing. Proved for breaks at a size line; the exact output of the other case is also proved, and C99_any_input gives the output for every input."
  },
  {
   "property": "C15",
   "status": "proved",
   "theorems": [
    "C15_content_stream",
    "C15_chunked_only",
    "C15_encoded_only",
    "C15_file",
    "C15_archive",
    "C15_members_refuted"
   ],
   "note": "C15_content_stream (chunked gzip), C15_chunked_only, C15_encoded_only for a LimitReader over any stream; C15_archive for records found by the iterator, with [decodes] covering the other cases. Transfer-Encoding must be exactly 'chunked'. C15_members_refuted: a body of several gzip members is cut after the first."
  },
  {
   "property": "C16",
   "status": "proved",
   "theorems": [
    "C16_get_header_first",
    "C16_get_header_none",
    "C16_add_header"
   ],
   "note": "get_header is the first value under a case-insensitive name, None otherwise; add_header appends."
  },
  {
   "property": "C17",
   "status": "partial",
   "theorems": [
    "C17_replace_last",
    "C17_replace_get_partial",
    "C17_replace_get_refuted"
   ],
   "note": "replace_header changes the LAST matching header (proved) while get_header reads the FIRST, so replace-then-get is false with duplicates: C17_replace_get_refuted. C17_replace_get_partial proves it when the name occurs at most once."
  },
  {
   "property": "C18",
   "status": "proved",
   "theorems": [
    "C18_remove_last"
   ],
   "note": "remove_header drops exactly the last matching header."
  },
  {
   "property": "C19",
   "status": "proved",
   "theorems": [
    "C19_roundtrip",
    "C19_file",
    "C19_accepted"
   ],
   "note": "Parsing the serialised header block gives the same block back, for every line reader that delivers its content, and for files; C19_accepted: with the versions and methods written out."
  },
  {
   "property": "C20",
   "status": "proved",
   "theorems": [
    "C20_total",
    "C20_total_refuted",
    "C20_stops_after_blank"
   ],
   "note": "The parser stops exactly after the first blank line, whatever the block contains. C20_total adds the length it reports (total_len); C20_total_refuted is about that length only (characters, not bytes) and is not part of the statement."
  },
  {
   "property": "C21",
   "status": "proved",
   "theorems": [
    "C21_failures"
   ],
   "note": "Every outcome of the parser on a stream that delivers its content."
  },
  {
   "property": "C22",
   "status": "partial",
   "theorems": [
    "C22_exact",
    "C22_parts",
    "C22_ascii_partial",
    "C22_parameter_partial",
    "C22_ascii_refuted"
   ],
   "note": "False: a non-ASCII character outside a parameter, in a value that has a parameter, is left alone and raises UnicodeEncodeError (C22_ascii_refuted). C22_exact says for every block with encodable values exactly when to_ascii_bytes succeeds and what is then written; C22_ascii_partial and C22_parameter_partial are the two common cases. Values with lone surrogates are not covered."
  },
  {
   "property": "C23",
   "status": "partial",
   "theorems": [
    "C23_injection_refuted",
    "C23_no_injection_partial"
   ],
   "note": "False: a header value with CR LF injects headers (C23_injection_refuted). Proved for values without CR/LF."
  },
  {
   "property": "C24",
   "status": "partial",
   "theorems": [
    "C24_content_length_partial",
    "C24_blank_line_refuted",
    "C24_position_refuted",
    "C24_revisit_refuted"
   ],
   "note": "False for an HTTP header object with no status line and no fields (falsy, bytes lost), for a payload stream not at position 0, and for revisit records created with a payload and no HTTP headers: C24_*_refuted. C24_content_length_partial proves it in all other cases."
  },
  {
   "property": "C25",
   "status": "proved",
   "theorems": [
    "C25_framing",
    "C25_write_succeeds"
   ],
   "note": "Every record object with a stream position >= 0; C25_write_succeeds: nothing is written if an exception is raised."
  },
  {
   "property": "C26",
   "status": "proved",
   "theorems": [
    "C26_digests"
   ],
   "note": "Every hash function; records created without digest headers."
  },
  {
   "property": "C27",
   "status": "partial",
   "theorems": [
    "C27_write_read_partial"
   ],
   "note": "Proved for every list of records made by create_warc_record that satisfies round_ok, every block size and schedule when no HTTP header line exceeds M (M <= 1, or M <= block size and no short reads). Missing: longer HTTP header lines / short reads, where it is false (C34_short_reads_refuted)."
  },
  {
   "property": "C28",
   "status": "partial",
   "theorems": [
    "C28_write_read_gzip_partial"
   ],
   "note": "As C27 with gzip=True for every compressor/decompressor pair with gzip_codec; a member of any size is covered when its first block decompresses to everything before the payload, other members must fit into one block (written_fit)."
  },
  {
   "property": "C29",
   "status": "proved",
   "theorems": [
    "C29_revisit"
   ],
   "note": "create_revisit_record then write_record."
  },
  {
   "property": "C30",
   "status": "partial",
   "theorems": [
    "C30_pair_partial",
    "C30_no_uri_refuted"
   ],
   "note": "False when the response has no WARC-Target-URI: TypeError after the response was written (C30_no_uri_refuted). C30_pair_partial proves it when the call finishes and the request had no WARC-Concurrent-To."
  },
  {
   "property": "C31",
   "status": "proved",
   "theorems": [
    "C31_unknown_length"
   ],
   "note": "Any two payload streams over the same bytes, seekable or not, any short reads."
  },
  {
   "property": "C32",
   "status": "partial",
   "theorems": [
    "C32_write_twice_partial",
    "C32_refuted"
   ],
   "note": "False for records with a payload (C32_refuted). Proved for records with nothing left to write (revisit, empty payload)."
  },
  {
   "property": "C33",
   "status": "proved",
   "theorems": [
    "C33_append_framing",
    "C33_append",
    "C33_append_gzip",
    "C33_concatenation",
    "C33_append_partial"
   ],
   "note": "C33_concatenation: all record lists and options. C33_append, C33_append_gzip: archives of well-formed records to which records made by create_warc_record are appended (round_ok), every block size and schedule (options as in C34); C33_append_framing: any bytes appended. C33_append_partial adds the parsed HTTP headers when their lines are read in one piece."
  },
  {
   "property": "C34",
   "status": "proved",
   "theorems": [
    "C34_framing",
    "C34_framing_gzip",
    "C34_iterate_partial",
    "C34_short_reads_refuted",
    "C34_iterate_gzip_partial"
   ],
   "note": "C34_framing and C34_framing_gzip: every archive of well-formed records (a response, request or revisit with a block has a target URI), every block size and every schedule whose first read returns two bytes; digests not checked, verify_http and ensure_http_headers off.  What can be read of a record is its block without a prefix.  That this prefix is the HTTP header block needs HTTP header lines to be read in one piece (C34_iterate_partial, C34_iterate_gzip_partial, also with digest checking), and is false otherwise (C34_short_reads_refuted)."
  },
  {
   "property": "C35",
   "status": "partial",
   "theorems": [
    "C35_independent",
    "C35_checked",
    "C35_negative_refuted",
    "C35_raise_refuted"
   ],
   "note": "Proved for every file content, gzip codec, schedule of short reads, option set and every consumer whose read/readline sizes are absent or at least 0 (C35_independent; C35_checked with digest checking, when no digest error is raised). Refuted for negative sizes (readline(-1) reads past the record) and for check_digests=raise with a failing digest."
  },
  {
   "property": "C36",
   "status": "proved",
   "theorems": [
    "C36_framing",
    "C36_framing_gzip",
    "C36_random_access_partial",
    "C36_random_access_gzip_partial"
   ],
   "note": "C36_framing and C36_framing_gzip as for C34; C36_random_access_partial and C36_random_access_gzip_partial add the HTTP headers and digest checking when lines are read in one piece."
  },
  {
   "property": "C37",
   "status": "proved",
   "theorems": [
    "C37_framing",
    "C37_truncated_partial"
   ],
   "note": "C37_framing: all prefixes, cut points, block sizes and schedules whose first read returns two bytes (options as in C34).  C37_truncated_partial adds the HTTP headers and digest checking when HTTP header lines are read in one piece."
  },
  {
   "property": "C38",
   "status": "partial",
   "theorems": [
    "C38_cut_block_partial",
    "C38_silent_cut_refuted",
    "C38_headers_cut_refuted"
   ],
   "note": "C38_cut_block_partial: a cut inside the block of a record (any block size, short reads as in C34): the record is yielded with its declared length and read() returns fewer bytes; all records before it are complete. False otherwise: a cut directly after the WARC headers of a response ends iteration silently (C38_silent_cut_refuted), and a cut inside the WARC headers can give a record without a length (C38_headers_cut_refuted). Uncompressed archives; digests not checked."
  },
  {
   "property": "C39",
   "status": "proved",
   "theorems": [
    "C39_offsets",
    "C39_terminates"
   ],
   "note": "Every byte string (gzip included), codec automaton, option set, block size, schedule and consumer program: the run reaches a final result that no further fuel changes."
  },
  {
   "property": "C40",
   "status": "partial",
   "theorems": [
    "C40_leading_blank_refuted",
    "C40_swallowed"
   ],
   "note": "False: a first line of white space swallows the archive (C40_leading_blank_refuted); C40_swallowed proves for every such file what is yielded instead."
  },
  {
   "property": "C41",
   "status": "partial",
   "theorems": [
    "C41_exceptions_refuted",
    "C41_exceptions_partial",
    "C41_raw_records"
   ],
   "note": "False: AttributeError for a response without WARC-Target-URI (C41_exceptions_refuted). C41_exceptions_partial gives the exact list of exceptions that can leave iteration or a raw read, C41_raw_records that only ArchiveLoadFailed leaves with no_record_parse."
  },
  {
   "property": "C42",
   "status": "partial",
   "theorems": [
    "C42_multi_record_partial",
    "C42_followed_refuted"
   ],
   "note": "Proved when the member with several records is the last (or only) one; refuted when another member follows: the second record is yielded with a wrong offset before the error."
  },
  {
   "property": "C43",
   "status": "proved",
   "theorems": [
    "C43_fields",
    "C43_complete",
    "C43_load_failed"
   ],
   "note": "Fields are determined by the text; lines with fewer fields are refused, at the parser and when loading."
  },
  {
   "property": "C44",
   "status": "proved",
   "theorems": [
    "C44_headers"
   ],
   "note": "Every date text: timestamps are total (C50)."
  },
  {
   "property": "C45",
   "status": "partial",
   "theorems": [
    "C45_verdict",
    "C45_empty_block_refuted"
   ],
   "note": "Proved for every non-empty block, all read sequences and digests in every RFC 3548 encoding (base16 for hashes longer than 16 bytes). Refuted for an empty block, whose block digest is never compared."
  },
  {
   "property": "C46",
   "status": "partial",
   "theorems": [
    "C46_compare_partial",
    "C46_md5_hex_refuted"
   ],
   "note": "Proved except for base16 digests of 16-byte hashes; for those every correct digest is rejected (refutation)."
  },
  {
   "property": "C47",
   "status": "partial",
   "theorems": [
    "C47_truncated_partial",
    "C47_refuted"
   ],
   "note": "Refuted: a truncated record is not flagged. Proved that it is never reported as passed."
  },
  {
   "property": "C48",
   "status": "partial",
   "theorems": [
    "C48_exceptions_partial",
    "C48_refuted"
   ],
   "note": "Refuted by a malformed value (binascii.Error). Proved that no other exception occurs, for all header strings."
  },
  {
   "property": "C49",
   "status": "proved",
   "theorems": [
    "C49_raise"
   ],
   "note": "For arbitrary streams and call sequences, with begin_payload at any point."
  },
  {
   "property": "C50",
   "status": "proved",
   "theorems": [
    "C50_total",
    "C50_field_clamping"
   ],
   "note": "Every string; and the clamping of each field of 14 digits."
  },
  {
   "property": "C51",
   "status": "proved",
   "theorems": [
    "C51_timestamp_roundtrip"
   ],
   "note": "All valid whole-second date-times with year 1900..2999."
  },
  {
   "property": "C52",
   "status": "proved",
   "theorems": [
    "C52_iso_roundtrip",
    "C52_iso_fraction",
    "C52_iso_timestamp"
   ],
   "note": "Round trip with and without microseconds; any number of fraction digits; the two string forms convert into each other."
  },
  {
   "property": "C53",
   "status": "proved",
   "theorems": [
    "C53_seconds",
    "C53_seconds_roundtrip",
    "C53_order"
   ],
   "note": "Round trip through epoch seconds, and the three orders agree."
  },
  {
   "property": "C54",
   "status": "proved",
   "theorems": [
    "C54_prefix_is_period_end"
   ],
   "note": "For prefixes of 4, 6, 8, 10 and 12 digits."
  },
  {
   "property": "C55",
   "status": "partial",
   "theorems": [
    "C55_exchange_partial",
    "C55_written_partial",
    "C55_rewritten_refuted",
    "C55_interleaved_refuted",
    "C55_lazy_tunnel_refuted"
   ],
   "note": "Proved for every world and all traffic of other connections, threads and captures that does not use the same recorder: the recorder holds exactly what was sent and got (C55_exchange_partial), and the written pair has exactly these blocks when the messages' headers are in canonical form (C55_written_partial). Refuted (findings): headers in another form are rewritten, two connections of one capture used at the same time are mixed, a tunnel opened by the request itself is not recorded, short readinto (C56)."
  },
  {
   "property": "C56",
   "status": "partial",
   "theorems": [
    "C56_exact",
    "C56_short_refuted"
   ],
   "note": "Characterised exactly: a readinto is recorded exactly iff it fills the buffer (C56_exact), so the property is false (C56_short_refuted, finding)."
  },
  {
   "property": "C57",
   "status": "partial",
   "theorems": [
    "C57_exact",
    "C57_after_end_refuted",
    "C57_kept",
    "C57_late_refuted",
    "C57_unnested_partial",
    "C57_nested_refuted"
   ],
   "note": "False: after any capture of a thread has ended its new connections are not recorded (C57_after_end_refuted, for all programs). The exact behaviour is proved for all programs, nested or not (C57_exact), and agrees with the claim when captures are not nested (C57_unnested_partial). Connections keep their recorder after the capture (C57_kept, C57_late_refuted, finding)."
  },
  {
   "property": "C58",
   "status": "partial",
   "theorems": [
    "C58_direct_partial",
    "C58_tunnel_partial",
    "C58_stale_refuted",
    "C58_ipv6_refuted"
   ],
   "note": "Proved for direct and proxied requests in executions without tunnels, and for tunnels opened before the request. Refuted (findings): after a tunnel the host and port of the tunnel are used for later direct requests of the same capture; a tunnel to an IPv6 address raises ValueError."
  },
  {
   "property": "C59",
   "status": "partial",
   "theorems": [
    "C59_reject",
    "C59_replaced_partial"
   ],
   "note": "Rejecting filters: proved from any world (C59_reject). Accepting filters: C55_written_partial; filters that return other records: C59_replaced_partial, with the restrictions of C30 on the returned records."
  },
  {
   "property": "C60",
   "status": "partial",
   "theorems": [
    "C60_index_partial",
    "C60_any_input",
    "C60_fields",
    "C60_text"
   ],
   "note": "C60_index_partial: archives of well-formed records, plain or one gzip member per record, any field list; C60_any_input: any file, relative to what iteration observes; C60_fields, C60_text: the list of fields as text, the output text. Restricted like C34 (short reads, HTTP header lines longer than a block). json.dumps is an argument."
  },
  {
   "property": "C61",
   "status": "partial",
   "theorems": [
    "C61_extract_partial",
    "C61_verbatim",
    "C61_payload_encoded"
   ],
   "note": "C61_extract_partial and C61_verbatim: whole record and --headers; --payload for content that is not encoded, and C61_payload_encoded for chunked, gzip, deflate (with or without zlib header) and both, and for content wrongly announced as compressed. Restricted like C34; gzip members of chunked records must fit in the buffer."
  },
  {
   "property": "C62",
   "status": "partial",
   "theorems": [
    "C62_recompress_partial",
    "C62_fix_partial",
    "C62_records_lost_refuted",
    "C62_non_ascii_refuted"
   ],
   "note": "Proved for plain archives and gzip archives with one record per member (C62_recompress_partial), and for archives that need fixing and fit into one block (C62_fix_partial), of records the writer can copy (their HTTP headers are ASCII, have a status line, and the record is not a revisit without payload digest; see RewriteSpec.rewritable). Refuted in general: non-ASCII HTTP headers come back changed (C62_non_ascii_refuted) and records after an empty gzip member are dropped without an error (C62_records_lost_refuted)."
  },
  {
   "property": "C63",
   "status": "partial",
   "theorems": [
    "C63_exit_status",
    "C63_order",
    "C63_archives_partial",
    "C63_empty_block_refuted",
    "C63_uncaught_refuted",
    "C63_encoded"
   ],
   "note": "C63_exit_status and C63_order hold for any input when no exception other than ArchiveLoadFailed escapes; C63_archives_partial (content not encoded) and C63_encoded (any content, also wrongly encoded) give the status in terms of the digests (gzip members of any size for records without chunked encoding, as in C34); false for wrong digests of empty blocks (C63_empty_block_refuted) and malformed digests (C63_uncaught_refuted)."
  },
  {
   "property": "C64",
   "status": "partial",
   "theorems": [
    "C64_framed_partial",
    "C64_no_status_refuted",
    "C64_revisit_refuted",
    "C64_truncated_refuted"
   ],
   "note": "Proved for records with a full status line whose payload is as long as the headers say and that are not revisit records with a payload (C64_framed_partial); refuted otherwise (C64_no_status_refuted, C64_revisit_refuted, C64_truncated_refuted)."
  },
  {
   "property": "C65",
   "status": "partial",
   "theorems": [
    "C65_digests_partial",
    "C65_respelled_refuted"
   ],
   "note": "Proved for records whose digest headers the writer keeps and whose HTTP headers are written as they were read (C65_digests_partial); refuted for headers spelled differently (C65_respelled_refuted)."
  },
  {
   "property": "C66",
   "status": "partial",
   "theorems": [
    "C66_cut_anywhere_refuted",
    "C66_cut_partial"
   ],
   "note": "False (C66_cut_anywhere_refuted): the size line leaks when the cut is in the CRLF after chunk data or inside a size line. C66_cut_partial gives the exact output for every cut of every chunked body and every sequence of calls."
  },
  {
   "property": "C67",
   "status": "partial",
   "theorems": [
    "C67_trailers_refuted",
    "C67_trailers_partial"
   ],
   "note": "False (C67_trailers_refuted); C67_trailers_partial gives the exact output."
  },
  {
   "property": "C68",
   "status": "partial",
   "theorems": [
    "C68_short_reads_partial",
    "C68_short_reads_refuted"
   ],
   "note": "False (C68_short_reads_refuted): if read(2) after chunk data is answered with one byte, the body is taken for plain data. C68_short_reads_partial (and C11 to C14, C66, C67, C99) prove it for all sources whose reads may be short otherwise."
  },
  {
   "property": "C69",
   "status": "partial",
   "theorems": [
    "C69_check_partial",
    "C69_raise_partial"
   ],
   "note": "Uncompressed archives, with the restriction of C34 on line lengths; compressed archives through C34_iterate_gzip_partial (field ob_verdict). C69_raise_partial: check_digests='raise', same restrictions. The block digest of an empty block is not compared (C45_empty_block_refuted)."
  },
  {
   "property": "C70",
   "status": "proved",
   "theorems": [
    "C70_add_range"
   ],
   "note": "str(int) is the model's str_of_Z"
  },
  {
   "property": "C71",
   "status": "partial",
   "theorems": [
    "C71_membership_partial",
    "C71_membership_refuted"
   ],
   "note": "the exact meaning is proved (first header of that name exists and is not empty); the property itself is refuted for headers with an empty value"
  },
  {
   "property": "C72",
   "status": "partial",
   "theorems": [
    "C72_equality_partial",
    "C72_equality_refuted"
   ],
   "note": "proved for a right-hand side that is not empty; refuted for empty objects, which are not equal to themselves"
  },
  {
   "property": "C73",
   "status": "proved",
   "theorems": [
    "C73_statuscode",
    "C73_validate"
   ],
   "note": "int() is the model's py_int"
  },
  {
   "property": "C74",
   "status": "partial",
   "theorems": [
    "C74_no_blank_line_refuted",
    "C74_lost_refuted"
   ],
   "note": "Refuted: the next record's line is thrown away (witness C74_no_blank_line_refuted; for all files with a record without data after a record without blank line: C74_lost_refuted)."
  },
  {
   "property": "C75",
   "status": "partial",
   "theorems": [
    "C75_iterate_partial",
    "C75_gzip_partial",
    "C75_framing",
    "C75_framing_gzip"
   ],
   "note": "C75_framing and C75_framing_gzip: every block size and every schedule (first read of two bytes for plain files), every URL, without a condition on lines; digests not checked, verify_http and ensure_http_headers off.  C75_iterate_partial and C75_gzip_partial add the HTTP headers.  Missing: HTTP headers when a line inside a record is not read in one piece (as in C34)."
  },
  {
   "property": "C76",
   "status": "proved",
   "theorems": [
    "C76_transparent"
   ],
   "note": "For every program whose operations do not raise; the operations are the modelled ones (connect, tunnel, putrequest, send, response reads, close)."
  },
  {
   "property": "C77",
   "status": "proved",
   "theorems": [
    "C77_whole_pairs",
    "C77_two_captures_refuted",
    "C77_progress"
   ],
   "note": "For every number of threads and every schedule with one recorder per file; two captures sharing a writer have two locks and can mix their records (C77_two_captures_refuted, finding). One write() call is one step."
  },
  {
   "property": "C78",
   "status": "partial",
   "theorems": [
    "C78_http_date",
    "C78_roundtrip",
    "C78_day_optional",
    "C78_timestamp",
    "C78_rfc850",
    "C78_asctime",
    "C78_early_years_refuted"
   ],
   "note": "The format and the day of the week are proved for all years 1..9999 (C78_http_date); reading back for years 100..9999 (C78_roundtrip), also without a space after the comma and without the name of the day (C78_day_optional), in asctime format (C78_asctime), and in RFC 850 format for 1969..2068 (C78_rfc850); timestamps (C78_timestamp). Years below 100 are read as 1969..2068 (C78_early_years_refuted, finding). email.utils.formatdate and parsedate are modelled from the standard library."
  },
  {
   "property": "C79",
   "status": "proved",
   "theorems": [
    "C79_content_ends"
   ],
   "note": "Any sequence of calls on content streams and raw streams; runs that end are runs whose result no further fuel changes."
  },
  {
   "property": "C80",
   "status": "proved",
   "theorems": [
    "C80_index_ends",
    "C80_check_ends",
    "C80_extract_ends",
    "C80_recompress_ends"
   ],
   "note": "All four tools as modelled in Cli.v. UnicodeEncodeError is listed for extract and recompress; it is not shown to occur for extract."
  },
  {
   "property": "C81",
   "status": "proved",
   "theorems": [
    "C81_framing",
    "C81_blank_lines_partial"
   ],
   "note": "C81_framing: any white-space separators, block size and short reads (options as in C34); C81_blank_lines_partial adds HTTP headers when their lines are read in one piece."
  },
  {
   "property": "C82",
   "status": "proved",
   "theorems": [
    "C82_report",
    "C82_archives_partial"
   ],
   "note": "C82_report covers every input on which check does not end with an uncaught exception (C63_uncaught_refuted shows one that does); C82_archives_partial and, for encoded content, C63_encoded tie the output to the contents of well-formed archives.  Which problem is named is not part of the statement."
  },
  {
   "property": "C83",
   "status": "proved",
   "theorems": [
    "C83_log",
    "C83_raise"
   ],
   "note": "Every input.  That the plain run has passed False (or has raised) where raise mode raises is stated for no_record_parse only: C83_lost shows why."
  },
  {
   "property": "C84",
   "status": "proved",
   "theorems": [
    "C84_undisturbed"
   ],
   "note": "Every input, every mode.  The record objects are compared in all fields but the stream and checker objects."
  },
  {
   "property": "C85",
   "status": "proved",
   "theorems": [
    "C85_framing",
    "C85_complete"
   ],
   "note": "Every input without digest checking (C84 compares with digest checking).  C85_dropped shows a record that is left out silently when HTTP headers are parsed."
  },
  {
   "property": "C86",
   "status": "partial",
   "theorems": [
    "C86_check_own_partial",
    "C86_encoded"
   ],
   "note": "C86_check_own_partial and C86_encoded: any number of files, plain or one gzip member per record, of any number of records made by create_warc_record without digest headers, with any content; restricted as C27/C28 (records that can be read back, lines that fit in the read buffer, gzip members of chunked records that fit in the buffer)."
  },
  {
   "property": "C87",
   "status": "proved",
   "theorems": [
    "C87_ensure"
   ],
   "note": "every file, consumer and option; ARC records included; the two runs are compared record by record"
  },
  {
   "property": "C88",
   "status": "partial",
   "theorems": [
    "C88_index_extract_partial"
   ],
   "note": "restrictions of good_archive (C34): complete WARC records; short reads or long HTTP header lines excluded.  Passing the number from the index to extract is the integer syntax (py_int)"
  },
  {
   "property": "C89",
   "status": "partial",
   "theorems": [
    "C89_recompress_check_partial"
   ],
   "note": "restrictions of C65: rewritable records, blocks with a block digest written as they were read (C65_respelled_refuted), judgeable digests, members whose first block holds all headers; check with enough fuel"
  },
  {
   "property": "C90",
   "status": "partial",
   "theorems": [
    "C90_unchanged",
    "C90_again_partial",
    "C90_empty_digest_refuted"
   ],
   "note": "C90_unchanged for records in which the writer has nothing to change; C90_again for the archives of C62 without empty digest headers (C90_empty_digest_refuted: every pass adds one more digest header).  Equality is of the decompressed members: the codec may be sensitive to how data is split into writes"
  },
  {
   "property": "C91",
   "status": "partial",
   "theorems": [
    "C91_index_own_partial"
   ],
   "note": "records that can be read back (C27), made without digest headers (own_file of C86); for gzip files members whose first block holds all headers"
  },
  {
   "property": "C92",
   "status": "partial",
   "theorems": [
    "C92_framing",
    "C92_framing_gzip",
    "C92_once",
    "C92_nested_refuted",
    "C92_twice_refuted"
   ],
   "note": "C92_framing, C92_framing_gzip: options as in C34_framing.  C92_once: the URI read is unique, has no spaces and is stable unless still bracketed.  False for URIs in two pairs of brackets, which lose one pair with every rewrite (C92_nested_refuted); with two target URI headers the wrong one is replaced (C92_twice_refuted)."
  },
  {
   "property": "C93",
   "status": "proved",
   "theorems": [
    "C93_convert",
    "C93_check"
   ],
   "note": "Conditions in ConvSpec: arc_archive (as in C75) and arc_writable; conditions of this kind are needed, see C62_non_ascii_refuted, C64_no_status_refuted and C92_nested_refuted.  Reading back and checking: members whose first block holds all headers (back_fits)."
  },
  {
   "property": "C94",
   "status": "proved",
   "theorems": [
    "C94_layout",
    "C94_given",
    "C94_empty_id_refuted"
   ],
   "note": "C94_layout: exact bytes when the given headers have none of the builder's own names; C94_given: given values. C94_empty_id_refuted shows that an empty given identifier has to be excluded: the record then has two, the first one empty."
  },
  {
   "property": "C95",
   "status": "proved",
   "theorems": [
    "C95_warcinfo"
   ],
   "note": "str(value) and the test for an empty value are done by the caller in the model (pairs of texts)."
  },
  {
   "property": "C96",
   "status": "partial",
   "theorems": [
    "C96_known_partial",
    "C96_unknown_refuted"
   ],
   "note": "C96_known_partial: None, '', 1.0, 1.1, 0.17, 0.18, with or without prefix. The property is false for all other versions: C96_unknown_refuted (any such version, e.g. '2.0'): the file is written without error and cannot be read."
  },
  {
   "property": "C97",
   "status": "proved",
   "theorems": [
    "C97_filter"
   ],
   "note": "ASCII results; other values are percent-encoded first (C22)."
  },
  {
   "property": "C98",
   "status": "proved",
   "theorems": [
    "C98_base32",
    "C98_encoders"
   ],
   "note": "The encoders of Codecs.v, in which C26, C45 and C46 are stated, are shown to be those of RFC 4648 for byte strings of any length."
  },
  {
   "property": "C99",
   "status": "partial",
   "theorems": [
    "C99_any_input",
    "C99_raise",
    "C99_rfc_sizes_refuted"
   ],
   "note": "C99_any_input and C99_raise hold for every byte string and every file that answers read(2) with two bytes when two are left. The last sentence is false: signs, 0x, underscores and white space are accepted in sizes, and a negative size counts as an empty chunk (C99_rfc_sizes_refuted, finding). Without decompression (C15 adds it for correct bodies)."
  },
  {
   "property": "C100",
   "status": "partial",
   "theorems": [
    "C100_request_text",
    "C100_text",
    "C100_error",
    "C100_request",
    "C100_roundtrip",
    "C100_verbatim_partial",
    "C100_verbatim_refuted"
   ],
   "note": "the header list, its errors and the round trip are proved for all inputs; the bytes written are the bytes given only for ASCII: C100_verbatim_refuted shows UTF-8 bytes encoded twice (finding)"
  },
  {
   "property": "C101",
   "status": "partial",
   "theorems": [
    "C101_read",
    "C101_fraction",
    "C101_count",
    "C101_year_month_refuted",
    "C101_offset_refuted"
   ],
   "note": "C101_read, C101_fraction, C101_count give the result for every text of numbers with single separators. False: YYYY and YYYY-MM raise TypeError (C101_year_month_refuted), an offset after hours and minutes is read as seconds and fraction (C101_offset_refuted); findings."
  },
  {
   "property": "C102",
   "status": "partial",
   "theorems": [
    "C102_frame",
    "C102_reads",
    "C102_in_place_refuted",
    "C102_failed_refuted",
    "C102_missing",
    "C102_unwritable"
   ],
   "note": "C102_frame and C102_reads hold for every command and file system. False (findings): recompress or index onto the input empties it and reports success (C102_in_place_refuted), index with a missing input empties an existing output file (C102_failed_refuted); recompress with a missing input changes nothing (C102_missing)."
  },
  {
   "property": "C103",
   "status": "partial",
   "theorems": [
    "C103_check",
    "C103_check_missing",
    "C103_check_archives",
    "C103_index",
    "C103_index_extract",
    "C103_recompress",
    "C103_recompress_verbose",
    "C103_recompress_failed",
    "C103_recompress_check"
   ],
   "note": "C103_check, C103_check_missing, C103_index, C103_recompress reduce the commands on existing files to the functions on their contents for all inputs; C103_check_archives, C103_index_extract and C103_recompress_check carry the hypotheses on archives of C63, C88 and C89"
  },
  {
   "property": "C104",
   "status": "partial",
   "theorems": [
    "C104_dash_refuted",
    "C104_index_partial"
   ],
   "note": "true for index, unless the field filename is asked for (C104_index_partial); check and extract raise AttributeError for '-' and recompress fails (C104_dash_refuted, finding)"
  },
  {
   "property": "C105",
   "status": "partial",
   "theorems": [
    "C105_once",
    "C105_ip",
    "C105_no_ip",
    "C105_no_proxy",
    "C105_stale_refuted"
   ],
   "note": "at most one header of each name in every reachable state (C105_once), none without record_ip or without a proxy (C105_no_ip, C105_no_proxy), the address of the peer once the response begins (C105_ip). False for requests after others in one capture: headers are never cleared (C105_stale_refuted, finding)"
  },
  {
   "property": "C106",
   "status": "partial",
   "theorems": [
    "C106_contents",
    "C106_stream",
    "C106_resume",
    "C106_overwrite_refuted"
   ],
   "note": "Proved for get_contents at any time, for reading the stream and for writing on after it was read to the end; false (C106_overwrite_refuted, for all contents and records) for records written before that, because the stream is the writer's own file."
  },
  {
   "property": "C107",
   "status": "proved",
   "theorems": [
    "C107_append",
    "C107_no_overwrite",
    "C107_written"
   ],
   "note": "For all files, options and operations. Closing a response after the capture ended is outside the model."
  },
  {
   "property": "C108",
   "status": "partial",
   "theorems": [
    "C108_verb_refuted",
    "C108_exchange_partial",
    "C108_again_refuted"
   ],
   "note": "Proved for exchanges with a known verb and readable headers (C108_exchange_partial); false for all other verbs (C108_verb_refuted: closing the response raises and nothing is written, finding) and for closing twice (C108_again_refuted)."
  },
  {
   "property": "C109",
   "status": "partial",
   "theorems": [
    "C109_stray_line_partial",
    "C109_two_lines_refuted",
    "C109_framing",
    "C109_gzip_partial",
    "C109_framing_gzip",
    "C109_second_line_refuted",
    "C109_arc_partial",
    "C109_skipped"
   ],
   "note": "Proved for one stray line after each record: C109_framing (uncompressed) and C109_framing_gzip (one gzip member per record) for any block size and short reads (options as in C34); C109_stray_line_partial and C109_gzip_partial add HTTP headers when their lines are read in one piece. C109_arc_partial: the same for ARC files. C109_skipped: exactly what is skipped, and when a warning is counted. False for two stray lines (C109_two_lines_refuted), and for every uncompressed file with a second one that looks like no record (C109_second_line_refuted)."
  }
 ]
}