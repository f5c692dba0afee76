(** * EncSpec: the content of records with transfer and content encodings (C15, C61, C63) *)
From Coq Require Import String List ZArith NArith Bool.
From Verif Require Import PyBase Utf8 Headers Streams Loader Iterator Writer StreamSpec ChunkSpec WriterSpec IterSpec HeaderSpec CliSpec Toy.
Import ListNotations.
Open Scope Z_scope.

(** the Content-Encoding of [h] is one that warcio decodes: [t] *)
Definition encoding_is (h : sah) (t : dtype) : Prop :=
  match t with
  | Gzip => declares_ci h "content-encoding" "gzip"
  | Deflate => declares_ci h "content-encoding" "deflate"
  | DeflateAlt => declares_ci h "content-encoding" "deflate_alt"
  end.
(** [content] is what content_stream() should give for a record with HTTP headers [http] and
    body [payload] *)
Inductive decodes (zl : zenv) (http : option sah) (payload content : bytes) : Prop :=
(** no encoding *)
| Dec_plain : plain_content http -> content = payload -> decodes zl http payload content
(** chunked *)
| Dec_chunked h : http = Some h -> declares h "transfer-encoding" "chunked" -> value_of (lit "content-encoding") (sh_headers h) = None ->
    chunked_body payload content -> decodes zl http payload content
(** compressed, perhaps cut short, perhaps followed by other data *)
| Dec_compressed h t fin : http = Some h -> value_of (lit "transfer-encoding") (sh_headers h) <> Some (lit "chunked") -> encoding_is h t ->
    zfeed zl (zinit zl t) payload = Some (content, fin) -> decodes zl http payload content
(** Content-Encoding: deflate, but without the zlib header, which the first bytes [p] show *)
| Dec_raw_deflate h p q fin : http = Some h -> value_of (lit "transfer-encoding") (sh_headers h) <> Some (lit "chunked") -> encoding_is h Deflate ->
    payload = p ++ q -> lenZ p <= BUFF_SIZE -> zfeed zl (zinit zl Deflate) p = None ->
    zfeed zl (zinit zl DeflateAlt) payload = Some (content, fin) -> decodes zl http payload content
(** announced as compressed, but it is not, which the first bytes [p] show *)
| Dec_not_compressed h t p q : http = Some h -> value_of (lit "transfer-encoding") (sh_headers h) <> Some (lit "chunked") -> encoding_is h t ->
    payload = p ++ q -> lenZ p <= BUFF_SIZE -> zfeed zl (zinit zl t) p = None ->
    (t = Deflate -> zfeed zl (zinit zl DeflateAlt) p = None) -> content = payload -> decodes zl http payload content
(** compressed, then chunked *)
| Dec_both h t z fin : http = Some h -> declares h "transfer-encoding" "chunked" -> encoding_is h t ->
    chunked_body payload z -> zfeed zl (zinit zl t) z = Some (content, fin) -> decodes zl http payload content.

(** an example: a chunked response with a right or a wrong block digest *)
Definition ec_head : bytes := lit "HTTP/1.1 200 OK" ++ crlf ++ lit "Transfer-Encoding: chunked" ++ crlf ++ crlf.
Definition ec_payload : bytes := lit "2" ++ crlf ++ lit "hi" ++ crlf ++ lit "0" ++ crlf ++ crlf.
Definition ec_w (good : bool) : wrc := mk_wrc (lit "WARC/1.0")
  [(lit "WARC-Type", lit "response"); (lit "WARC-Target-URI", lit "http://a/");
   (lit "WARC-Block-Digest", ck_digest (if good then ec_head ++ ec_payload else lit "other")); (lit "Content-Length", lit "59")]
  (ec_head ++ ec_payload).
Definition ec_text (good : bool) : bytes :=
  match utf8_encode (record_text (w_version (ec_w good)) (w_headers (ec_w good))) with Some h => h ++ w_block (ec_w good) ++ crlf ++ crlf | None => [] end.
Definition ec_http : sah := mk_sah (lit "200 OK") [(lit "Transfer-Encoding", lit "chunked")] (lit "HTTP/1.1") 47 None.
Definition ec_es (good : bool) : list entry := [mk_entry (ec_w good) (ec_text good) (Some ec_http) ec_payload].
