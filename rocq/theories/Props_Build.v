(** * Props_Build: what the record builder puts into new records (C94, C95, C97) *)
From Coq Require Import String List ZArith NArith Bool Lia.
From Coq Require Import ZifyBool ZifyNat ZifyN.
From Verif Require Import PyBase Utf8 Codecs Headers HeaderSpec Streams Loader Writer WriterSpec BuildSpec Toy.
Import ListNotations.
Open Scope Z_scope.
From Verif Require Import Thm_Build.

(** examples: a stream with short reads that cannot be rewound; create and write *)
Definition bex_short : pstream := mk_ps (lit "hello world") 0 [3; 1; 2] false.
Definition bex_out (c : creation) : option bytes :=
  match create 200 toy_hash None c with
  | Ok r => match write_plain 200 toy_hash None r with
            | (Ok _, ws, _) => Some (concat ws)
            | _ => None
            end
  | Err _ => None
  end.

(** C94.  The bytes of a record made by create_warc_record and written: the given
    version; the given headers in their order, then the type, a new identifier, the
    target URI (if there is one), the date, the payload digest (except for warcinfo and
    revisit records), the block digest, the content type (the given one, or the one of
    the record type) and the length.  For every payload stream, known length or not,
    HTTP headers given separately, contained in the payload, or absent. *)
Theorem C94_layout :
  forall fuel sha1 f f' c r ws r',
  (List.length (cr_bytes c) + 3 <= fuel)%nat -> length_right c -> cr_whdrs c = None -> cr_version c <> [] ->
  (forall n, In n own_names -> occurs n (cr_hdict c) = 0%nat) ->
  create fuel sha1 f c = Ok r -> http_real c r -> revisit_plain c r ->
  write_plain fuel sha1 f' r = (Ok tt, ws, r') ->
  exists payload hb ct block digests,
    payload_of c (wr_http r) payload /\ http_block f' (wr_http r) hb
    /\ (cr_type c = lit "revisit" -> block = hb) /\ (cr_type c <> lit "revisit" -> block = hb ++ payload)
    /\ (cr_ctype c <> [] -> ct = cr_ctype c) /\ (cr_ctype c = [] -> media_type (cr_type c) ct)
    /\ (without_payload (cr_type c) -> digests = [])
    /\ (~ without_payload (cr_type c) -> digests = [(lit "WARC-Payload-Digest", sha1_text sha1 payload)])
    /\ is_record (cr_version c)
         (cr_hdict c
            ++ [(lit "WARC-Type", cr_type c); (lit "WARC-Record-ID", urn_id (cr_uuid c))]
            ++ unless_empty (lit "WARC-Target-URI") (uri_text (cr_uri c))
            ++ [(lit "WARC-Date", cr_now c)]
            ++ digests
            ++ [(lit "WARC-Block-Digest", sha1_text sha1 (hb ++ payload)); (lit "Content-Type", ct);
                (lit "Content-Length", str_of_Z (lenZ block))])
         block (concat ws).
Proof. exact C94_layout_pf. Qed.
Print Assumptions C94_layout.

(** a resource of unknown length on a stream that cannot be rewound *)
Example C94_layout_ex :
  match bex_out (mk_creation (lit "WARC/1.1") (lit "1234") (lit "2000-01-01T00:00:00Z") (Some (lit "dns:a")) (lit "resource")
                  (Some bex_short) None (lit "text/dns") [(lit "X-One", lit "1")] None None) with
  | Some out => out =
      lit "WARC/1.1" ++ crlf ++ lit "X-One: 1" ++ crlf ++ lit "WARC-Type: resource" ++ crlf
      ++ lit "WARC-Record-ID: <urn:uuid:1234>" ++ crlf ++ lit "WARC-Target-URI: dns:a" ++ crlf
      ++ lit "WARC-Date: 2000-01-01T00:00:00Z" ++ crlf
      ++ lit "WARC-Payload-Digest: " ++ sha1_text toy_hash (lit "hello world") ++ crlf
      ++ lit "WARC-Block-Digest: " ++ sha1_text toy_hash (lit "hello world") ++ crlf
      ++ lit "Content-Type: text/dns" ++ crlf ++ lit "Content-Length: 11" ++ crlf ++ crlf
      ++ lit "hello world" ++ crlf ++ crlf
  | None => False
  end.
Proof. vm_compute. reflexivity. Qed.

(** C94, given headers.  A value given by the caller for the identifier or the date is
    used instead of a new one, a given content type is used when the argument is empty,
    the argument for the URI wins over a given URI, and the type is always the argument.
    The five headers occur exactly once, and all others are as given. *)
Theorem C94_given :
  forall fuel sha1 f f' c r ws r',
  (List.length (cr_bytes c) + 3 <= fuel)%nat -> length_right c -> cr_whdrs c = None -> cr_version c <> [] ->
  (forall n, In n own_names -> (occurs n (cr_hdict c) <= 1)%nat) ->
  value_of (lit "WARC-Record-ID") (cr_hdict c) <> Some [] -> value_of (lit "WARC-Date") (cr_hdict c) <> Some [] ->
  create fuel sha1 f c = Ok r ->
  write_plain fuel sha1 f' r = (Ok tt, ws, r') ->
  let hs := sh_headers (wr_headers r') in
  exists block ct, is_record (cr_version c) hs block (concat ws)
    /\ value_of (lit "WARC-Type") hs = Some (cr_type c)
    /\ value_of (lit "WARC-Record-ID") hs = Some (given_or (lit "WARC-Record-ID") (urn_id (cr_uuid c)) (cr_hdict c))
    /\ value_of (lit "WARC-Date") hs = Some (given_or (lit "WARC-Date") (cr_now c) (cr_hdict c))
    /\ (uri_text (cr_uri c) <> [] -> value_of (lit "WARC-Target-URI") hs = Some (uri_text (cr_uri c)))
    /\ (uri_text (cr_uri c) = [] -> value_of (lit "WARC-Target-URI") hs = value_of (lit "WARC-Target-URI") (cr_hdict c))
    /\ value_of (lit "Content-Type") hs = Some ct
    /\ (cr_ctype c <> [] -> ct = cr_ctype c)
    /\ (cr_ctype c = [] -> forall x t, value_of (lit "Content-Type") (cr_hdict c) = Some (x :: t) -> ct = x :: t)
    /\ (cr_ctype c = [] -> (forall x t, value_of (lit "Content-Type") (cr_hdict c) <> Some (x :: t)) -> media_type (cr_type c) ct)
    /\ (forall n, In n [lit "WARC-Type"; lit "WARC-Record-ID"; lit "WARC-Date"; lit "Content-Type"; lit "Content-Length"] -> occurs n hs = 1%nat)
    /\ (forall n, (forall m, In m own_names -> ~ ci_eq m n) ->
          occurs n hs = occurs n (cr_hdict c) /\ value_of n hs = value_of n (cr_hdict c)).
Proof. exact C94_given_pf. Qed.
Print Assumptions C94_given.

(** a given date, identifier and content type; the URI argument replaces the given one *)
Example C94_given_ex :
  match bex_out (mk_creation (lit "WARC/1.0") (lit "1234") (lit "2000-01-01T00:00:00Z") (Some (lit "dns:a")) (lit "metadata")
                  (Some (bytesio (lit "a: b"))) (Some 4) []
                  [(lit "warc-date", lit "1999-01-01T00:00:00Z"); (lit "WARC-Target-URI", lit "dns:b"); (lit "Content-Type", lit "text/x")] None None) with
  | Some out => out =
      lit "WARC/1.0" ++ crlf ++ lit "warc-date: 1999-01-01T00:00:00Z" ++ crlf ++ lit "WARC-Target-URI: dns:a" ++ crlf
      ++ lit "Content-Type: text/x" ++ crlf ++ lit "WARC-Type: metadata" ++ crlf
      ++ lit "WARC-Record-ID: <urn:uuid:1234>" ++ crlf
      ++ lit "WARC-Payload-Digest: " ++ sha1_text toy_hash (lit "a: b") ++ crlf
      ++ lit "WARC-Block-Digest: " ++ sha1_text toy_hash (lit "a: b") ++ crlf
      ++ lit "Content-Length: 4" ++ crlf ++ crlf ++ lit "a: b" ++ crlf ++ crlf
  | None => False
  end.
Proof. vm_compute. reflexivity. Qed.

(** the hypothesis that a given identifier is not empty is needed: an empty one is kept
    as the first identifier of the record, and a new one is added after it *)
Theorem C94_empty_id_refuted :
  exists c r ws r', length_right c /\ cr_whdrs c = None
  /\ create 200 toy_hash None c = Ok r /\ write_plain 200 toy_hash None r = (Ok tt, ws, r')
  /\ occurs (lit "WARC-Record-ID") (sh_headers (wr_headers r')) = 2%nat
  /\ value_of (lit "WARC-Record-ID") (sh_headers (wr_headers r')) = Some [].
Proof. exact C94_empty_id_refuted_pf. Qed.
Print Assumptions C94_empty_id_refuted.

(** C95.  create_warcinfo_record: the block is one line "name: value" for each pair with
    a value, in order, in UTF-8; if the pairs have no such encoding, the exception is
    UnicodeEncodeError.  The record then has the headers listed here, and no others: no
    target URI, no payload digest, and a file name only if one was given. *)
Theorem C95_warcinfo :
  forall fuel sha1 version uuid now f f' filename info,
  version <> [] ->
  match utf8_encode (concat (map field_line (with_value info))) with
  | None => create_warcinfo_record fuel sha1 version uuid now f filename info = Err UnicodeErr
  | Some block =>
      (List.length block + 3 <= fuel)%nat ->
      exists r, create_warcinfo_record fuel sha1 version uuid now f filename info = Ok r
        /\ forall ws r', write_plain fuel sha1 f' r = (Ok tt, ws, r') ->
           is_record version
             ([(lit "WARC-Type", lit "warcinfo"); (lit "WARC-Record-ID", urn_id uuid)]
                ++ unless_empty (lit "WARC-Filename") filename
                ++ [(lit "WARC-Date", now); (lit "WARC-Block-Digest", sha1_text sha1 block);
                    (lit "Content-Type", lit "application/warc-fields");
                    (lit "Content-Length", str_of_Z (lenZ block))])
             block (concat ws)
  end.
Proof. exact C95_warcinfo_pf. Qed.
Print Assumptions C95_warcinfo.

(** a value without text is skipped; one that is not ASCII is written in UTF-8; a
    surrogate cannot be written *)
Example C95_ex :
  match create_warcinfo_record 200 toy_hash (lit "WARC/1.0") (lit "1") (lit "2000-01-01T00:00:00Z") None (lit "a.warc.gz")
          [(lit "software", lit "x"); (lit "operator", []); (lit "isPartOf", [233%N])] with
  | Ok r => match write_plain 200 toy_hash None r with
            | (Ok _, ws, _) => concat ws =
                lit "WARC/1.0" ++ crlf ++ lit "WARC-Type: warcinfo" ++ crlf ++ lit "WARC-Record-ID: <urn:uuid:1>" ++ crlf
                ++ lit "WARC-Filename: a.warc.gz" ++ crlf ++ lit "WARC-Date: 2000-01-01T00:00:00Z" ++ crlf
                ++ lit "WARC-Block-Digest: " ++ sha1_text toy_hash (lit "software: x" ++ crlf ++ lit "isPartOf: " ++ [195; 169]%N ++ crlf) ++ crlf
                ++ lit "Content-Type: application/warc-fields" ++ crlf ++ lit "Content-Length: 27" ++ crlf ++ crlf
                ++ lit "software: x" ++ crlf ++ lit "isPartOf: " ++ [195; 169]%N ++ crlf ++ crlf ++ crlf
            | _ => False
            end
  | _ => False
  end
  /\ create_warcinfo_record 200 toy_hash (lit "WARC/1.0") (lit "1") (lit "2000") None [] [(lit "a", [55296%N])] = Err UnicodeErr.
Proof. vm_compute. split; reflexivity. Qed.

(** C97.  With a header filter, the HTTP headers written are exactly what the filter
    leaves: its results in order, without the headers it drops.  The length and the
    digest follow what is written, the payload stays, and the filter is not applied to
    the WARC headers.  (What is left is ASCII text; otherwise the values are
    percent-encoded first, see C22.) *)
Theorem C97_filter :
  forall fuel sha1 g r h ws r',
  0 <= py_pos (wr_stream r) -> (List.length (ps_rest (wr_stream r)) < fuel)%nat ->
  sh_status (wr_headers r) = [] -> sh_proto (wr_headers r) <> [] ->
  wr_http r = Some h -> sh_proto h <> [] -> sh_status h <> [] ->
  ascii_text (head_text (sh_proto h) (sh_status h) (kept g (sh_headers h))) ->
  write_plain fuel sha1 (Some g) r = (Ok tt, ws, r') ->
  exists block,
    (wr_type r = Some (lit "revisit") -> block = head_text (sh_proto h) (sh_status h) (kept g (sh_headers h)))
    /\ (wr_type r <> Some (lit "revisit") -> block = head_text (sh_proto h) (sh_status h) (kept g (sh_headers h)) ++ ps_rest (wr_stream r))
    /\ is_record (sh_proto (wr_headers r)) (sh_headers (wr_headers r')) block (concat ws)
    /\ ((occurs (lit "Content-Length") (sh_headers (wr_headers r)) <= 1)%nat ->
        wr_plen r = Some (lenZ (ps_rest (wr_stream r))) ->
        value_of (lit "Content-Length") (sh_headers (wr_headers r')) = Some (str_of_Z (lenZ block)))
    /\ (occurs (lit "WARC-Block-Digest") (sh_headers (wr_headers r)) = 0%nat -> wr_type r <> Some (lit "revisit") ->
        value_of (lit "WARC-Block-Digest") (sh_headers (wr_headers r')) = Some (sha1_text sha1 block))
    /\ (forall n, (forall m, In m [lit "WARC-Block-Digest"; lit "WARC-Payload-Digest"; lit "Content-Type"; lit "Content-Length"] -> ~ ci_eq m n) ->
          value_of n (sh_headers (wr_headers r')) = value_of n (sh_headers (wr_headers r))).
Proof. exact C97_filter_pf. Qed.
Print Assumptions C97_filter.

(** a filter that drops one header and renames another *)
Definition bex_filter : hfilter := fun h =>
  if leqb (fst h) (lit "Set-Cookie") then None
  else if leqb (fst h) (lit "Content-Encoding") then Some (lit "X-Content-Encoding", snd h) else Some h.
Example C97_ex :
  match create 200 toy_hash None (mk_creation (lit "WARC/1.0") (lit "1") (lit "2000-01-01T00:00:00Z") (Some (lit "http://a/")) (lit "response")
                  (Some (bytesio (lit "abc"))) (Some 3) [] [] None
                  (Some (sah_new (lit "200 OK") [(lit "Content-Encoding", lit "gzip"); (lit "Set-Cookie", lit "a=b"); (lit "Server", lit "x")] (lit "HTTP/1.1")))) with
  | Ok r => match write_plain 200 toy_hash (Some bex_filter) r with
            | (Ok _, ws, r') =>
                exists h, concat ws = h ++ lit "HTTP/1.1 200 OK" ++ crlf ++ lit "X-Content-Encoding: gzip" ++ crlf ++ lit "Server: x" ++ crlf ++ crlf
                  ++ lit "abc" ++ crlf ++ crlf
                /\ value_of (lit "Content-Length") (sh_headers (wr_headers r')) = Some (lit "59")
            | _ => False
            end
  | Err _ => False
  end.
Proof. vm_compute. match goal with |- exists h, ?l = _ /\ _ => exists (firstn (List.length l - 63) l) end. vm_compute. split; reflexivity. Qed.
