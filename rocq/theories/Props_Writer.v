(** * Props_Writer: record builder and writer (C24-C26, C29-C32) *)
From Coq Require Import String List ZArith NArith Bool Lia.
From Coq Require Import ZifyBool ZifyNat ZifyN.
From Verif Require Import PyBase Utf8 Codecs Headers HeaderSpec Streams Loader Writer WriterSpec Toy.
Import ListNotations.
Open Scope Z_scope.
From Verif Require Import Thm_Writer.

(** the HTTP headers of the record are not an empty StatusAndHeaders object (which is
    false in a condition), or no payload was given *)
Definition http_not_empty (c : creation) (r : wrec) : Prop :=
  osah_bool (wr_http r) = true \/ wr_http r = None \/ cr_payload c = None.
(** a revisit record has no payload unless it has HTTP headers *)
Definition revisit_fits (c : creation) (r : wrec) : Prop :=
  cr_type c = lit "revisit" -> cr_bytes c = [] \/ osah_bool (wr_http r) = true.
(** examples *)
Definition ex_http : sah :=
  sah_new (lit "200 OK") [(lit "Content-Type", lit "text/plain")] (lit "HTTP/1.1").
Definition ex_c (t : string) (p : option pstream) (n : option Z) (h : option sah) : creation :=
  mk_creation (lit "WARC/1.0") (lit "1234") (lit "2000-01-01T00:00:00Z") (Some (lit "http://a/")) (lit t)
              p n [] [(lit "X-One", lit "1")] None h.
(** create and write: output and final headers *)
Definition ex_out (c : creation) : option (bytes * list header) :=
  match create 200 toy_hash None c with
  | Ok r => match write_plain 200 toy_hash None r with
            | (Ok _, ws, r') => Some (concat ws, sh_headers (wr_headers r'))
            | _ => None
            end
  | Err _ => None
  end.

(** C24.  For every call of create_warc_record (any type, payload, headers; the length
    right or unknown, the payload stream seekable or not and with any short reads) and
    write_record: in the output, the value of Content-Length is the decimal number of
    bytes of the block.  Missing: the cases excluded by the hypotheses, where the claim is
    false (theorems below), and headers with two Content-Length. *)
Theorem C24_content_length_partial :
  forall fuel sha1 f f' c r ws r',
  (List.length (cr_bytes c) + 3 <= fuel)%nat -> length_right c -> version_ok c ->
  (occurs (lit "Content-Length") (given_headers c) <= 1)%nat ->
  create fuel sha1 f c = Ok r -> http_not_empty c r -> revisit_fits c r ->
  write_plain fuel sha1 f' r = (Ok tt, ws, r') ->
  exists block,
    is_record (sh_proto (wr_headers r)) (sh_headers (wr_headers r')) block (concat ws)
    /\ value_of (lit "Content-Length") (sh_headers (wr_headers r')) = Some (str_of_Z (lenZ block)).
Proof. exact C24_content_length_partial_pf. Qed.
Print Assumptions C24_content_length_partial.

Definition ex_short : pstream := mk_ps (lit "hello world") 0 [3; 1; 2] false.
(** an unseekable stream of unknown length and short reads, HTTP headers given; and a
    payload that begins with the HTTP headers *)
Example C24_ex :
  match ex_out (ex_c "response" (Some ex_short) None (Some ex_http)),
        ex_out (ex_c "response" (Some (bytesio (lit "HTTP/1.0 200 OK" ++ crlf ++ lit "A:b" ++ crlf ++ crlf ++ lit "hello"))) None None) with
  | Some (_, h1), Some (_, h2) =>
      value_of (lit "Content-Length") h1 = Some (lit "56") /\ value_of (lit "Content-Length") h2 = Some (lit "30")
  | _, _ => False
  end.
Proof. vm_compute. split; reflexivity. Qed.

(** The claim is false when the payload of a response begins with an empty line: the
    builder takes it for an (empty) header block and drops it, but keeps the length. *)
Theorem C24_blank_line_refuted :
  exists c r ws r' block,
  length_right c /\ version_ok c /\ occurs (lit "Content-Length") (given_headers c) = 0%nat
  /\ create 200 toy_hash None c = Ok r /\ write_plain 200 toy_hash None r = (Ok tt, ws, r')
  /\ is_record (sh_proto (wr_headers r)) (sh_headers (wr_headers r')) block (concat ws)
  /\ value_of (lit "Content-Length") (sh_headers (wr_headers r')) = Some (lit "7")
  /\ block = lit "hello".
Proof. exact C24_blank_line_refuted_pf. Qed.
Print Assumptions C24_blank_line_refuted.



(** It is false when the payload stream is not at position 0 and the HTTP headers are
    taken from it: the given length (of what is left) is reduced by tell(). *)
Theorem C24_position_refuted :
  exists c p r ws r' block,
  cr_payload c = Some p /\ cr_length c = Some (lenZ (ps_rest p)) /\ version_ok c
  /\ create 200 toy_hash None c = Ok r /\ write_plain 200 toy_hash None r = (Ok tt, ws, r')
  /\ is_record (sh_proto (wr_headers r)) (sh_headers (wr_headers r')) block (concat ws)
  /\ value_of (lit "Content-Length") (sh_headers (wr_headers r')) = Some (lit "22")
  /\ block = lit "HTTP/1.0 200 OK" ++ crlf ++ crlf ++ lit "hello".
Proof. exact C24_position_refuted_pf. Qed.
Print Assumptions C24_position_refuted.



(** It is false for a revisit record with a payload and no HTTP headers: the payload is
    counted but not written. *)
Theorem C24_revisit_refuted :
  exists c r ws r' block,
  length_right c /\ version_ok c /\ cr_type c = lit "revisit"
  /\ create 200 toy_hash None c = Ok r /\ write_plain 200 toy_hash None r = (Ok tt, ws, r')
  /\ is_record (sh_proto (wr_headers r)) (sh_headers (wr_headers r')) block (concat ws)
  /\ value_of (lit "Content-Length") (sh_headers (wr_headers r')) = Some (lit "5")
  /\ block = [].
Proof. exact C24_revisit_refuted_pf. Qed.
Print Assumptions C24_revisit_refuted.



(** C25.  For every record object (created or read) and header filter, what write_record
    puts out is one record: the version line, one line per WARC header of the record
    afterwards, an empty line, the block, two empty lines.  The block is the HTTP header
    block followed, unless the record is a revisit, by the unread rest of its stream.
    Headers other than Content-Length, Content-Type and the two digests are those the
    record had before. *)
Theorem C25_framing :
  forall fuel sha1 f r ws r',
  0 <= py_pos (wr_stream r) -> (List.length (ps_rest (wr_stream r)) + 3 <= fuel)%nat ->
  sh_status (wr_headers r) = [] -> sh_proto (wr_headers r) <> [] ->
  write_plain fuel sha1 f r = (Ok tt, ws, r') ->
  exists hb block, http_block f (wr_http r) hb
    /\ (wr_type r = Some (lit "revisit") -> block = hb)
    /\ (wr_type r <> Some (lit "revisit") -> block = hb ++ ps_rest (wr_stream r))
    /\ is_record (sh_proto (wr_headers r)) (sh_headers (wr_headers r')) block (concat ws)
    /\ forall n, ~ ci_eq (lit "Content-Length") n -> ~ ci_eq (lit "Content-Type") n ->
         ~ ci_eq (lit "WARC-Block-Digest") n -> ~ ci_eq (lit "WARC-Payload-Digest") n ->
         value_of n (sh_headers (wr_headers r')) = value_of n (sh_headers (wr_headers r)).
Proof. exact C25_framing_pf. Qed.
Print Assumptions C25_framing.

(** a response and a revisit *)
Example C25_ex :
  match ex_out (ex_c "resource" (Some (bytesio (lit "hello"))) (Some 5) None) with
  | Some (out, hs) =>
      map fst hs = [lit "X-One"; lit "WARC-Type"; lit "WARC-Record-ID"; lit "WARC-Target-URI"; lit "WARC-Date";
                    lit "WARC-Payload-Digest"; lit "WARC-Block-Digest"; lit "Content-Type"; lit "Content-Length"]
      /\ out = lit "WARC/1.0" ++ crlf ++ lit "X-One: 1" ++ crlf ++ lit "WARC-Type: resource" ++ crlf
               ++ lit "WARC-Record-ID: <urn:uuid:1234>" ++ crlf ++ lit "WARC-Target-URI: http://a/" ++ crlf
               ++ lit "WARC-Date: 2000-01-01T00:00:00Z" ++ crlf ++ lit "WARC-Payload-Digest: sha1:DMCRDSAF" ++ crlf
               ++ lit "WARC-Block-Digest: sha1:DMCRDSAF" ++ crlf ++ lit "Content-Type: application/warc-record" ++ crlf
               ++ lit "Content-Length: 5" ++ crlf ++ crlf ++ lit "hello" ++ crlf ++ crlf
  | None => False
  end.
Proof. vm_compute. split; reflexivity. Qed.

(** C25, progress.  write_record raises nothing when the HTTP headers have an ASCII form
    and the final WARC headers can be encoded in UTF-8; otherwise nothing is written. *)
Theorem C25_write_succeeds :
  forall fuel sha1 f r,
  0 <= py_pos (wr_stream r) -> (List.length (ps_rest (wr_stream r)) + 3 <= fuel)%nat ->
  match write_plain fuel sha1 f r with
  | (Ok _, _, _) => exists hb, http_block f (wr_http r) hb
  | (Err e, ws, r') => ws = [] /\ ((forall hb, ~ http_block f (wr_http r) hb)
                        \/ (e = UnicodeErr /\ utf8_encode (to_str None (wr_headers r')) = None))
  end.
Proof. exact C25_write_succeeds_pf. Qed.
Print Assumptions C25_write_succeeds.

Example C25_write_succeeds_ex :
  let r v := mk_wrec (Some (lit "resource")) (sah_new [] [(lit "X", v)] (lit "WARC/1.0")) (bytesio (lit "abc")) None None None None (Some 3) in
  (match write_plain 50 toy_hash None (r [233; 8364]%N) with (Ok _, ws, _) => ws <> [] | _ => False end)
  /\ (match write_plain 50 toy_hash None (r [55296]%N) with (Err e, ws, _) => e = UnicodeErr /\ ws = [] | _ => False end).
Proof. vm_compute. split; [discriminate|split; reflexivity]. Qed.

(** C26.  If no digest headers are given, the WARC-Block-Digest written is the sha1 of the
    block in the output and the WARC-Payload-Digest is that of the payload (none for
    warcinfo and revisit records), for every hash function. *)
Theorem C26_digests :
  forall fuel sha1 f f' c r ws r',
  (List.length (cr_bytes c) + 3 <= fuel)%nat -> length_right c -> version_ok c ->
  occurs (lit "WARC-Block-Digest") (given_headers c) = 0%nat ->
  occurs (lit "WARC-Payload-Digest") (given_headers c) = 0%nat ->
  (cr_type c = lit "revisit" -> cr_bytes c = []) ->
  create fuel sha1 f c = Ok r -> write_plain fuel sha1 f' r = (Ok tt, ws, r') ->
  exists hb payload block,
    http_block f' (wr_http r) hb /\ payload_of c (wr_http r) payload /\ block = hb ++ payload
    /\ is_record (sh_proto (wr_headers r)) (sh_headers (wr_headers r')) block (concat ws)
    /\ value_of (lit "WARC-Block-Digest") (sh_headers (wr_headers r')) = Some (sha1_text sha1 block)
    /\ value_of (lit "WARC-Payload-Digest") (sh_headers (wr_headers r'))
       = (if leqb (cr_type c) (lit "warcinfo") || leqb (cr_type c) (lit "revisit") then None
          else Some (sha1_text sha1 payload)).
Proof. exact C26_digests_pf. Qed.
Print Assumptions C26_digests.

Example C26_ex :
  match ex_out (ex_c "response" (Some (mk_ps (lit "hello") 0 [1] false)) None (Some ex_http)) with
  | Some (_, hs) =>
      value_of (lit "WARC-Payload-Digest") hs = Some (sha1_text toy_hash (lit "hello"))
      /\ value_of (lit "WARC-Block-Digest") hs = Some (sha1_text toy_hash
           (lit "HTTP/1.1 200 OK" ++ crlf ++ lit "Content-Type: text/plain" ++ crlf ++ crlf ++ lit "hello"))
  | None => False
  end.
Proof. vm_compute. split; reflexivity. Qed.

(** C29.  A record made by create_revisit_record is written with its HTTP headers as
    block and nothing else; it keeps the given payload digest, names the referred URI and
    date, has the profile of its WARC version, and its Content-Length is the length of that block. *)
Theorem C29_revisit :
  forall fuel sha1 version uuid now f f' uri digest ref_uri ref_date http hdict r ws r',
  version <> [] -> (3 <= fuel)%nat ->
  (forall n, In n [lit "WARC-Payload-Digest"; lit "WARC-Refers-To-Target-URI"; lit "WARC-Refers-To-Date"; lit "WARC-Profile"] ->
             occurs n hdict = 0%nat) ->
  (occurs (lit "Content-Length") hdict <= 1)%nat -> (occurs (lit "WARC-Type") hdict <= 1)%nat ->
  (occurs (lit "WARC-Target-URI") hdict <= 1)%nat -> uri <> [] ->
  create_revisit_record fuel sha1 version uuid now f uri digest ref_uri ref_date http hdict = Ok r ->
  write_plain fuel sha1 f' r = (Ok tt, ws, r') ->
  let hs := sh_headers (wr_headers r') in
  exists hb, http_block f' http hb
    /\ is_record version hs hb (concat ws)
    /\ value_of (lit "Content-Length") hs = Some (str_of_Z (lenZ hb))
    /\ value_of (lit "WARC-Type") hs = Some (lit "revisit")
    /\ value_of (lit "WARC-Target-URI") hs = Some uri
    /\ value_of (lit "WARC-Payload-Digest") hs = Some digest /\ digest <> []
    /\ value_of (lit "WARC-Refers-To-Target-URI") hs = Some ref_uri
    /\ value_of (lit "WARC-Refers-To-Date") hs = Some ref_date
    /\ (version = lit "WARC/1.1" -> value_of (lit "WARC-Profile") hs = Some (lit "http://netpreserve.org/warc/1.1/revisit/identical-payload-digest"))
    /\ (version = lit "WARC/1.0" -> value_of (lit "WARC-Profile") hs = Some (lit "http://netpreserve.org/warc/1.0/revisit/identical-payload-digest"))
    /\ (occurs (lit "WARC-Block-Digest") hdict = 0%nat ->
        value_of (lit "WARC-Block-Digest") hs = Some (sha1_text sha1 hb)).
Proof. exact C29_revisit_pf. Qed.
Print Assumptions C29_revisit.

Example C29_ex :
  match create_revisit_record 50 toy_hash (lit "WARC/1.0") (lit "1234") (lit "2000-01-01T00:00:00Z") None
          (lit "http://a/") (lit "sha1:AAAA") (lit "http://b/") (lit "1999") (Some ex_http) [] with
  | Ok r => match write_plain 50 toy_hash None r with
            | (Ok _, ws, r') =>
                concat ws = lit "WARC/1.0" ++ crlf ++ lit "WARC-Type: revisit" ++ crlf
                  ++ lit "WARC-Record-ID: <urn:uuid:1234>" ++ crlf ++ lit "WARC-Target-URI: http://a/" ++ crlf
                  ++ lit "WARC-Date: 2000-01-01T00:00:00Z" ++ crlf
                  ++ lit "WARC-Profile: http://netpreserve.org/warc/1.0/revisit/identical-payload-digest" ++ crlf
                  ++ lit "WARC-Refers-To-Target-URI: http://b/" ++ crlf ++ lit "WARC-Refers-To-Date: 1999" ++ crlf
                  ++ lit "WARC-Payload-Digest: sha1:AAAA" ++ crlf ++ lit "WARC-Block-Digest: "
                  ++ sha1_text toy_hash (lit "HTTP/1.1 200 OK" ++ crlf ++ lit "Content-Type: text/plain" ++ crlf ++ crlf) ++ crlf
                  ++ lit "Content-Type: application/http; msgtype=response" ++ crlf ++ lit "Content-Length: 45" ++ crlf ++ crlf
                  ++ lit "HTTP/1.1 200 OK" ++ crlf ++ lit "Content-Type: text/plain" ++ crlf ++ crlf ++ crlf ++ crlf
            | _ => False
            end
  | Err _ => False
  end.
Proof. vm_compute. reflexivity. Qed.

(** C30.  If write_request_response_pair finishes, its output is the response record
    followed by the request record (each a gzip member of its own with gzip); the request
    as written has the WARC-Target-URI and WARC-Date the response has as written, and its
    WARC-Concurrent-To is the response's WARC-Record-ID.  Missing: the request must not
    already have a WARC-Concurrent-To, and it does not finish if the response has no URI or
    date (C30_no_uri_refuted). *)
Theorem C30_pair_partial :
  forall fuel sha1 k o req resp ws,
  0 <= py_pos (wr_stream resp) -> (List.length (ps_rest (wr_stream resp)) + 3 <= fuel)%nat ->
  0 <= py_pos (wr_stream req) -> (List.length (ps_rest (wr_stream req)) + 3 <= fuel)%nat ->
  sh_status (wr_headers resp) = [] -> sh_proto (wr_headers resp) <> [] ->
  sh_status (wr_headers req) = [] -> sh_proto (wr_headers req) <> [] ->
  (occurs (lit "WARC-Target-URI") (sh_headers (wr_headers req)) <= 1)%nat ->
  (occurs (lit "WARC-Date") (sh_headers (wr_headers req)) <= 1)%nat ->
  occurs (lit "WARC-Concurrent-To") (sh_headers (wr_headers req)) = 0%nat ->
  write_pair fuel sha1 k o req resp = (Ok tt, ws) ->
  exists ws1 ws2 hs1 hs2 b1 b2 url date,
    is_record (sh_proto (wr_headers resp)) hs1 b1 (concat ws1)
    /\ is_record (sh_proto (wr_headers req)) hs2 b2 (concat ws2)
    /\ concat ws = (if wo_gzip o then deflated k (kinit k) ws1 ++ deflated k (kinit k) ws2 else concat ws1 ++ concat ws2)
    /\ value_of (lit "WARC-Target-URI") hs1 = Some url /\ value_of (lit "WARC-Target-URI") hs2 = Some url
    /\ value_of (lit "WARC-Date") hs1 = Some date /\ value_of (lit "WARC-Date") hs2 = Some date
    /\ forall i, value_of (lit "WARC-Record-ID") hs1 = Some i -> i <> [] ->
                 value_of (lit "WARC-Concurrent-To") hs2 = Some i.
Proof. exact C30_pair_partial_pf. Qed.
Print Assumptions C30_pair_partial.

Example C30_ex :
  match create 200 toy_hash None (ex_c "response" (Some (bytesio (lit "body"))) (Some 4) (Some ex_http)),
        create 200 toy_hash None (ex_c "request" (Some (bytesio [])) (Some 0)
          (Some (sah_new (lit "/ HTTP/1.1") [(lit "Host", lit "a")] (lit "GET")))) with
  | Ok resp, Ok req =>
      match write_pair 200 toy_hash toy_k (mk_wopts (lit "WARC/1.0") None false) req resp with
      | (Ok _, ws) => List.length (concat ws) = 673%nat
      | _ => False
      end
  | _, _ => False
  end.
Proof. vm_compute. reflexivity. Qed.

(** A response without WARC-Target-URI is written, and then the call raises: the output
    has the response but no request. *)
Theorem C30_no_uri_refuted :
  exists req resp ws,
  write_pair 200 toy_hash toy_k (mk_wopts (lit "WARC/1.0") None false) req resp = (Err TypeErr, ws)
  /\ ws <> [] /\ value_of (lit "WARC-Target-URI") (sh_headers (wr_headers resp)) = None.
Proof. exact C30_no_uri_refuted_pf. Qed.
Print Assumptions C30_no_uri_refuted.



(** the same call with another payload stream and another length argument *)
Definition with_payload (c : creation) (p : pstream) (n : option Z) : creation :=
  mk_creation (cr_version c) (cr_uuid c) (cr_now c) (cr_uri c) (cr_type c) (Some p) n
              (cr_ctype c) (cr_hdict c) (cr_whdrs c) (cr_http c).

(** C31.  If a record created from payload stream [p1] with length [n1] can be written,
    then so can the record created with the same arguments from any other stream [p2] over
    the same bytes (unseekable, short reads), with the length unknown or right, and the
    output is the same, byte for byte. *)
Theorem C31_unknown_length :
  forall fuel sha1 f f' c p1 n1 p2 n2 r1 ws1 r1',
  let c1 := with_payload c p1 n1 in let c2 := with_payload c p2 n2 in
  py_all p1 = py_all p2 -> (py_all p1 <> [] \/ osah_bool (cr_http c) = true) ->
  (List.length (py_all p1) + 3 <= fuel)%nat -> length_right c1 -> length_right c2 ->
  occurs (lit "WARC-Block-Digest") (given_headers c) = 0%nat ->
  occurs (lit "WARC-Payload-Digest") (given_headers c) = 0%nat ->
  occurs (lit "Content-Type") (given_headers c) = 0%nat ->
  create fuel sha1 f c1 = Ok r1 -> http_not_empty c1 r1 -> revisit_fits c1 r1 ->
  write_plain fuel sha1 f' r1 = (Ok tt, ws1, r1') ->
  exists r2 ws2 r2',
    create fuel sha1 f c2 = Ok r2 /\ write_plain fuel sha1 f' r2 = (Ok tt, ws2, r2')
    /\ concat ws2 = concat ws1 /\ wr_headers r2' = wr_headers r1'.
Proof. exact C31_unknown_length_pf. Qed.
Print Assumptions C31_unknown_length.

(** known length and seekable; unknown length, unseekable, short reads *)
Example C31_ex :
  let all := lit "HTTP/1.0 200 OK" ++ crlf ++ lit "A: b" ++ crlf ++ crlf ++ lit "hello" in
  match ex_out (ex_c "response" (Some (bytesio all)) (Some (lenZ all)) None),
        ex_out (ex_c "response" (Some (mk_ps all 0 [1; 2; 3] false)) None None) with
  | Some (o1, _), Some (o2, _) => o1 = o2 /\ (100 < lenZ o1)
  | _, _ => False
  end.
Proof. vm_compute. split; reflexivity. Qed.

(** C32.  Writing the same record object a second time gives the same bytes, if there is no
    payload left to write (revisit records; empty payloads) and the digest headers it
    already has are not duplicated or empty.  Missing: records with a payload, for which
    the claim is false (C32_refuted). *)
Theorem C32_write_twice_partial :
  forall fuel sha1 f r ws r',
  0 <= py_pos (wr_stream r) -> (List.length (ps_rest (wr_stream r)) + 3 <= fuel)%nat -> wr_orig r = None ->
  (occurs (lit "WARC-Block-Digest") (sh_headers (wr_headers r)) <= 1)%nat ->
  (occurs (lit "WARC-Payload-Digest") (sh_headers (wr_headers r)) <= 1)%nat ->
  value_of (lit "WARC-Block-Digest") (sh_headers (wr_headers r)) <> Some [] ->
  value_of (lit "WARC-Payload-Digest") (sh_headers (wr_headers r)) <> Some [] ->
  (wr_type r = Some (lit "revisit") \/ ps_rest (wr_stream r) = []) ->
  write_plain fuel sha1 f r = (Ok tt, ws, r') ->
  exists ws2 r2, write_plain fuel sha1 f r' = (Ok tt, ws2, r2) /\ concat ws2 = concat ws.
Proof. exact C32_write_twice_partial_pf. Qed.
Print Assumptions C32_write_twice_partial.

Example C32_ex :
  match create_revisit_record 50 toy_hash (lit "WARC/1.0") (lit "1234") (lit "2000-01-01T00:00:00Z") None
          (lit "http://a/") (lit "sha1:AAAA") (lit "http://b/") (lit "1999") (Some ex_http) [] with
  | Ok r => match write_plain 50 toy_hash None r with
            | (Ok _, ws, r') => match write_plain 50 toy_hash None r' with
                                | (Ok _, ws2, _) => ws = ws2 /\ List.length ws = 3%nat
                                | _ => False
                                end
            | _ => False
            end
  | Err _ => False
  end.
Proof. vm_compute. split; reflexivity. Qed.

(** It is false for a record with a payload: the second time the payload is missing and
    the Content-Length is still 5. *)
Theorem C32_refuted :
  exists r ws r' ws2 r2 b1 b2,
  create 200 toy_hash None (ex_c "resource" (Some (bytesio (lit "hello"))) (Some 5) None) = Ok r
  /\ write_plain 200 toy_hash None r = (Ok tt, ws, r') /\ write_plain 200 toy_hash None r' = (Ok tt, ws2, r2)
  /\ is_record (lit "WARC/1.0") (sh_headers (wr_headers r')) b1 (concat ws) /\ b1 = lit "hello"
  /\ is_record (lit "WARC/1.0") (sh_headers (wr_headers r2)) b2 (concat ws2) /\ b2 = []
  /\ value_of (lit "Content-Length") (sh_headers (wr_headers r2)) = Some (lit "5").
Proof. exact C32_refuted_pf. Qed.
Print Assumptions C32_refuted.


