(** * FrameSpec: comparing iterations with and without parsing of HTTP headers (C85) *)
From Coq Require Import String List ZArith NArith Bool.
From Verif Require Import PyBase Headers Streams Loader Iterator Writer WriterSpec IterSpec.
Import ListNotations.
Open Scope Z_scope.

(** the options [o] with another value of no_record_parse *)
Definition with_norec (v : bool) (o : lopts) : lopts :=
  mk_lopts v (lo_verify o) (lo_a2w o) (lo_ensure o) (lo_check o) (lo_uuid o).

(** [a]: a record read in one piece by the loop with no_record_parse=True, [b]: by the loop that
    parses HTTP headers.  Same format, type, WARC or ARC headers, content type, declared length,
    offset and length in the file.  What [b] reads is what [a] reads without a prefix, the bytes
    of the HTTP header block; without HTTP headers the prefix is empty.  payload_length is
    unknown (-1) or the declared length minus the prefix. *)
Record framed {zl : zenv} (o : lopts) (a b : @obs zl) : Prop := {
  fr_format : rc_format (ob_record a) = rc_format (ob_record b);
  fr_type : rc_type (ob_record a) = rc_type (ob_record b);
  fr_headers : rc_headers (ob_record a) = rc_headers (ob_record b);
  fr_ctype : rc_ctype (ob_record a) = rc_ctype (ob_record b);
  fr_length : rc_length (ob_record a) = rc_length (ob_record b);
  fr_info : ob_info a = ob_info b;
  fr_reads : exists head body,
    ob_reads a = [Ok (head ++ body)] /\ ob_reads b = [Ok body]
    /\ (rc_http (ob_record b) = None -> head = [])
    /\ (rc_plen (ob_record b) = -1 \/ exists n, rc_length (ob_record b) = Some n /\ rc_plen (ob_record b) = n - lenZ head)
}.

(** a response, request or revisit whose declared length is not 0 *)
Definition holds_http {zl : zenv} (a : @obs zl) : Prop :=
  is_http_record (rc_type (ob_record a)) = true /\ rc_length (ob_record a) <> Some 0.
(** its target URI *)
Definition target_of {zl : zenv} (a : @obs zl) : option str :=
  get_header (match rc_format (ob_record a) with FArc => lit "uri" | FWarc => lit "WARC-Target-URI" end)
             (rc_headers (ob_record a)).

(** what is left of the two loops ([ra], [ea] without, [rb], [eb] with parsing of HTTP headers)
    after the records they agree on:
    - nothing, and they end alike; or
    - the loop without parsing finds a record after the end of the last gzip member and raises
      ArchiveLoadFailed, and the other one ends too; or
    - the next record [a] is one with HTTP headers, and parsing them raises: AttributeError as
      there is no target URI; StatusAndHeadersParserException, with verify_http; or EOFError, as
      the record has no content. *)
Definition parted {zl : zenv} (o : lopts) (ra : list (@obs zl)) (ea : ending) (rb : list (@obs zl)) (eb : ending) : Prop :=
  (ra = [] /\ rb = [] /\ ea = eb)
  \/ (ra = [] /\ ea = EndExn ArchiveLoadFailed /\ rb = [])
  \/ exists a more, ra = a :: more /\ holds_http a
     /\ ((rb = [] /\ eb = EndExn AttributeErr /\ target_of a = None)
         \/ (rb = [] /\ lo_verify o = true /\ exists l, eb = EndExn (ParserExn l))
         \/ ob_reads a = [Ok []]).

(** ** where the records of a well-formed archive are, whatever the block size *)

(** a response, request or revisit with a block has a target URI *)
Definition http_ready (w : wrc) : Prop :=
  (exists t, w_value "WARC-Type" w = Some t /\ In t [lit "response"; lit "request"; lit "revisit"]) ->
  w_block w <> [] -> w_value "WARC-Target-URI" w <> None.

(** the observation [ob] of the record [w], whose text begins at [off] and has the length [len]:
    what read() returns is the block without a prefix, which is empty without HTTP headers *)
Record found {zl : zenv} (w : wrc) (off len : Z) (ob : @obs zl) : Prop := {
  fo_format : rc_format (ob_record ob) = FWarc;
  fo_type : rc_type (ob_record ob) = w_value "WARC-Type" w;
  fo_version : sh_proto (rc_headers (ob_record ob)) = w_version w;
  fo_headers : sh_headers (rc_headers (ob_record ob)) = w_headers w;
  fo_ctype : rc_ctype (ob_record ob) = w_value "Content-Type" w;
  fo_length : rc_length (ob_record ob) = Some (lenZ (w_block w));
  fo_place : ob_info ob = Ok (Some (off, len));
  fo_data : exists head body,
    w_block w = head ++ body /\ ob_reads ob = [Ok body] /\ (rc_http (ob_record ob) = None -> head = [])
    /\ (rc_plen (ob_record ob) = -1 \/ rc_plen (ob_record ob) = lenZ body)
}.

(** the observation [ob] of the record [w] in a file that ends after the bytes [b] of its block:
    the length is the declared one, but what read() returns are only these bytes, without a
    prefix, which is empty without HTTP headers *)
Record cut_short {zl : zenv} (w : wrc) (b : bytes) (off len : Z) (ob : @obs zl) : Prop := {
  cs_format : rc_format (ob_record ob) = FWarc;
  cs_type : rc_type (ob_record ob) = w_value "WARC-Type" w;
  cs_version : sh_proto (rc_headers (ob_record ob)) = w_version w;
  cs_headers : sh_headers (rc_headers (ob_record ob)) = w_headers w;
  cs_ctype : rc_ctype (ob_record ob) = w_value "Content-Type" w;
  cs_length : rc_length (ob_record ob) = Some (lenZ (w_block w));
  cs_place : ob_info ob = Ok (Some (off, len));
  cs_data : exists head body,
    b = head ++ body /\ ob_reads ob = [Ok body] /\ (rc_http (ob_record ob) = None -> head = [])
    /\ (rc_plen (ob_record ob) = -1 \/ rc_plen (ob_record ob) = lenZ (w_block w) - lenZ head)
}.

(** [t] is the text that is written for the record [r], uncompressed; [w] are its headers and
    block *)
Definition written (fuel : nat) (sha1 : bytes -> bytes) (r : wrec) (w : wrc) (t : bytes) : Prop :=
  exists ws r', write_plain fuel sha1 None r = (Ok tt, ws, r') /\ t = List.concat ws
    /\ w_version w = sh_proto (wr_headers r) /\ w_headers w = sh_headers (wr_headers r').
