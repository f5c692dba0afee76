(** * Loader: model of /repo/warcio/recordloader.py *)
From Coq Require Import List ZArith NArith Bool String.
From Verif Require Import PyBase Utf8 Headers Streams TimeUtils.
Import ListNotations.
Open Scope Z_scope.

(** ** The stream of a record: the reader itself (no length known), a LimitReader
    on it, or a DigestVerifyingReader on that (recordloader.py:129-135). *)
Inductive rstream (S : Type) :=
| RSbase (s : S)
| RSlim (l : limr S)
| RSdig (d : digr S).
Arguments RSbase {S}. Arguments RSlim {S}. Arguments RSdig {S}.

Section RStream.
  Context {S : Type} (ops : sops S).

  Definition rs_base (r : rstream S) : S :=
    match r with
    | RSbase s => s
    | RSlim l => lm_stream l
    | RSdig d => lm_stream (lm_stream (dr_lim d))
    end.

  (** the object graph shares the reader: put a new reader state underneath *)
  Definition rs_set_base (s : S) (r : rstream S) : rstream S :=
    match r with
    | RSbase _ => RSbase s
    | RSlim l => RSlim (mk_lim s (lm_limit l) (lm_orig l))
    | RSdig d =>
        let l := dr_lim d in
        let i := lm_stream l in
        RSdig (mk_dig (mk_lim (mk_lim s (lm_limit i) (lm_orig i)) (lm_limit l) (lm_orig l))
                      (dr_chk d) (dr_pdig d) (dr_bdig d) (dr_pobj d) (dr_pon d) (dr_bobj d))
    end.

  Definition rs_read (n : option Z) (r : rstream S) : res bytes * rstream S :=
    match r with
    | RSbase s => let (x, s') := o_read ops n s in (x, RSbase s')
    | RSlim l => let (x, l') := lim_read ops n l in (x, RSlim l')
    | RSdig d => let (x, d') := dig_read ops n d in (x, RSdig d')
    end.

  Definition rs_readline (n : option Z) (r : rstream S) : res bytes * rstream S :=
    match r with
    | RSbase s => let (x, s') := o_readline ops n s in (x, RSbase s')
    | RSlim l => let (x, l') := lim_readline ops n l in (x, RSlim l')
    | RSdig d => let (x, d') := dig_readline ops n d in (x, RSdig d')
    end.

  Definition rs_tell (r : rstream S) : Z :=
    match r with
    | RSbase s => o_tell ops s
    | RSlim l => lim_tell l
    | RSdig d => dig_tell d
    end.

  Definition rs_ops : sops (rstream S) := mk_sops rs_read rs_readline rs_tell.
End RStream.

(** ** recordloader.py:20-25 ArcWarcRecord (of a loaded record) *)
Inductive fmt := FWarc | FArc.
Record record (S : Type) := mk_rec {
  rc_format : fmt;
  rc_type : option str;
  rc_headers : sah;
  rc_stream : rstream S;
  rc_http : option sah;
  rc_ctype : option str;
  rc_length : option Z;
  rc_plen : Z;              (* payload_length, -1 = unknown *)
  rc_chk : checker          (* digest_checker before the stream takes it over *)
}.
Arguments mk_rec {S}. Arguments rc_format {S}. Arguments rc_type {S}. Arguments rc_headers {S}.
Arguments rc_stream {S}. Arguments rc_http {S}. Arguments rc_ctype {S}. Arguments rc_length {S}.
Arguments rc_plen {S}. Arguments rc_chk {S}.

Definition rc_set_stream {S} (st : rstream S) (r : record S) : record S :=
  mk_rec (rc_format r) (rc_type r) (rc_headers r) st (rc_http r) (rc_ctype r) (rc_length r)
         (rc_plen r) (rc_chk r).

(** record.digest_checker: the checker object is shared with the verifying reader *)
Definition rc_checker {S} (r : record S) : checker :=
  match rc_stream r with RSdig d => dr_chk d | _ => rc_chk r end.

(** ** recordloader.py:27-44 content_stream *)
Inductive cstream (zl : zenv) (S : Type) :=
| CSraw (r : rstream S)
| CSbuf (b : breader zl (rstream S)).
Arguments CSraw {zl S}. Arguments CSbuf {zl S}.

(** encoding of the Content-Encoding header, None if unsupported (31-37) *)
Definition content_encoding (h : sah) : option dtype :=
  match get_header (lit "content-encoding") h with
  | Some ((_ :: _) as e) =>
      let e := lower e in
      if leqb e (lit "gzip") then Some Gzip
      else if leqb e (lit "deflate") then Some Deflate
      else if leqb e (lit "deflate_alt") then Some DeflateAlt
      else None
  | _ => None
  end.

Definition is_chunked (h : sah) : bool :=
  match get_header (lit "transfer-encoding") h with
  | Some v => leqb v (lit "chunked")
  | None => false
  end.

Definition content_stream {zl : zenv} {S} (http : option sah) (raw : rstream S) : cstream zl S :=
  match http with
  | Some h =>
      if sah_bool h then
        let enc := content_encoding h in
        if is_chunked h then CSbuf (ckr_new raw BUFF_SIZE enc false)
        else match enc with
             | Some t => CSbuf (br_new raw BUFF_SIZE (Some t) None false)
             | None => CSraw raw
             end
      else CSraw raw
  | None => CSraw raw
  end.

Section CStream.
  Context {zl : zenv} {S : Type} (ops : sops S) (fuel : nat).
  Definition cs_read (n : option Z) (c : cstream zl S) : res bytes * cstream zl S :=
    match c with
    | CSraw r => let (x, r') := rs_read ops n r in (x, CSraw r')
    | CSbuf b => let (x, b') := br_read (rs_ops ops) fuel n b in (x, CSbuf b')
    end.
  Definition cs_readline (n : option Z) (c : cstream zl S) : res bytes * cstream zl S :=
    match c with
    | CSraw r => let (x, r') := rs_readline ops n r in (x, CSraw r')
    | CSbuf b => let (x, b') := br_readline (rs_ops ops) fuel n b in (x, CSbuf b')
    end.
  (** the record's raw stream underneath *)
  Definition cs_raw (c : cstream zl S) : rstream S :=
    match c with CSraw r => r | CSbuf b => br_stream b end.
End CStream.

(** ** recordloader.py:48-70 constants and parsers *)
Definition WARC_TYPES : list str := [lit "WARC/1.1"; lit "WARC/1.0"; lit "WARC/0.17"; lit "WARC/0.18"].
Definition HTTP_TYPES : list str := [lit "HTTP/1.0"; lit "HTTP/1.1"].
Definition HTTP_VERBS : list str :=
  [lit "GET"; lit "HEAD"; lit "POST"; lit "PUT"; lit "DELETE"; lit "TRACE"; lit "OPTIONS";
   lit "CONNECT"; lit "PATCH"].

Definition is_http_record (t : option str) : bool :=
  match t with
  | Some t => leqb t (lit "response") || leqb t (lit "request") || leqb t (lit "revisit")
  | None => false
  end.
Definition is_http_uri (u : str) : bool := startswith (lit "http:") u || startswith (lit "https:") u.

Definition otype_is (t : option str) (s : string) : bool :=
  match t with Some t => leqb t (lit s) | None => false end.

Section Load.
  Context {S : Type} (ops : sops S) (fuel : nat) (he : henv).

  (** ** recordloader.py:272-332 ARCHeadersParser, 336-373 ARC2WARCHeadersParser *)
  Definition ARC_HEADERS : list str :=
    [lit "uri"; lit "ip-address"; lit "archive-date"; lit "content-type"; lit "length"].
  Definition ARC_TO_WARC_HEADERS : list str :=
    [lit "WARC-Target-URI"; lit "WARC-IP-Address"; lit "WARC-Date"; lit "Content-Type";
     lit "Content-Length"].

  Definition is_filedesc (l : str) : bool := startswith (lit "filedesc://") l.

  (** recordloader.py:351-373; [uuid]: text of uuid4() *)
  Definition arc2warc_headers (uuid headerline : str) (parts : list str) : res (list header) :=
    match parts with
    | [url; ip; date; ctype; len] =>
        let info := is_filedesc headerline in
        match timestamp_to_iso_date date with
        | Err e => Err e
        | Ok iso =>
            Ok ([(lit "WARC-Type", if info then lit "warcinfo" else lit "response");
                 (lit "WARC-Record-ID", make_warc_id uuid);
                 (if info then (lit "WARC-Filename", dropZ 11 url)
                  else (lit "WARC-Target-URI", url));
                 (lit "WARC-IP-Address", ip);
                 (lit "WARC-Date", iso);
                 (lit "Content-Type", if info then ctype
                                      else lit "application/http;msgtype=response");
                 (lit "Content-Length", len)])
        end
    | _ => Err ValueErr
    end.

  (** recordloader.py:283-320 parse (both classes) *)
  Definition arc_parse (arc2warc : bool) (uuid : str) (full : option hline) (s : S)
    : res sah * S :=
    let '(r, s1) := match full with
                    | Some h => (Ok h, s)
                    | None => match o_readline ops None s with
                              | (Ok b, s') => (Ok (HBytes b), s')
                              | (Err e, s') => (Err e, s')
                              end
                    end in
    match r with
    | Err e => (Err e, s1)
    | Ok h =>
        let line := decode_hline h in
        if is_nil line then (Err EOFError, s1)
        else
          let line := urstrip line in
          let '(t, s2) :=
            if is_filedesc line then
              match o_readline ops None s1 with
              | (Err e, s2) => (Err e, s2)
              | (Ok v, s2) =>
                  match o_readline ops None s2 with
                  | (Err e, s3) => (Err e, s3)
                  | (Ok sp, s3) => (Ok (lenZ (decode_header v) + lenZ (decode_header sp)), s3)
                  end
              end
            else (Ok 0, s1) in
          match t with
          | Err e => (Err e, s2)
          | Ok total =>
              let parts := rsplit 32%N 4 line in
              if negb (lenZ parts =? 5) then (Err (ParserExn []), s2)
              else
                let hs := if arc2warc then arc2warc_headers uuid line parts
                          else Ok (combine ARC_HEADERS parts) in
                match hs with
                | Err e => (Err e, s2)
                | Ok hs => (Ok (mk_sah [] hs (lit "WARC/1.0") total None), s2)
                end
          end
    end.

  (** recordloader.py:212-243 _detect_type_load_headers.  Result: is it the ARC
      parser's result, and the headers. *)
  Definition detect_type (arc2warc : bool) (uuid : str) (statusline : option hline)
             (known : option fmt) (s : S) : res (bool * sah) * S :=
    let arc (st : option hline) (s : S) : res (bool * sah) * S :=
      match arc_parse arc2warc uuid st s with
      | (Ok h, s') => (Ok (true, h), s')
      | (Err (ParserExn _), s') => (Err ArchiveLoadFailed, s')
      | (Err e, s') => (Err e, s')
      end in
    match known with
    | Some FArc => arc statusline s
    | _ =>
        match parse (o_readline ops None) fuel (mk_parser WARC_TYPES true) statusline s with
        | (Ok h, s') => (Ok (false, h), s')
        | (Err (ParserExn line), s') =>
            match known with
            | Some FWarc => (Err ArchiveLoadFailed, s')
            | _ => arc (Some (HStr line)) s'
            end
        | (Err e, s') => (Err e, s')
        end
    end.

  (** recordloader.py:245-268 _ensure_target_uri_format *)
  Definition ensure_target_uri (h : sah) : option str * sah :=
    match get_header (lit "WARC-Target-URI") h with
    | None => (None, h)
    | Some uri =>
        let '(uri, h) :=
          if startswith (lit "<") uri && endswith (lit ">") uri then
            let u := takeZ (lenZ uri - 2) (dropZ 1 uri) in
            (u, replace_header_ (lit "WARC-Target-URI") u h)
          else (uri, h) in
        if has_char 32%N uri then
          let u := replace_spaces uri in
          (Some u, replace_header_ (lit "WARC-Target-URI") u h)
        else (Some uri, h)
    end.

  (** recordloader.py:202-210 default_http_headers *)
  Definition default_http_headers (length : option Z) (ctype : option str) : sah :=
    let hs := match ctype with
              | Some ((_ :: _) as c) => [(lit "Content-Type", c)] | _ => [] end in
    let hs := match length with
              | Some n => if 0 <=? n then hs ++ [(lit "Content-Length", str_of_Z n)] else hs
              | None => hs
              end in
    sah_new (lit "200 OK") hs (lit "HTTP/1.0").
End Load.

(** recordloader.py:173-200 load_http_headers, on any stream *)
Definition load_http_headers {T} (ops : sops T) (fuel : nat) (verify_http : bool)
           (rec_type uri : option str) (length : option Z) (s : T) : res (option sah) * T :=
  if match length with Some 0 => true | _ => false end then (Ok None, s)
  else if negb (is_http_record rec_type) then (Ok None, s)
  else
    match uri with
    | None => (Err AttributeErr, s)
    | Some u =>
        if negb (is_http_uri u) then (Ok None, s)
        else if otype_is rec_type "request" then
          match parse (o_readline ops None) fuel (mk_parser HTTP_VERBS verify_http) None s with
          | (Ok h, s') => (Ok (Some h), s')
          | (Err e, s') => (Err e, s')
          end
        else
          match parse (o_readline ops None) fuel (mk_parser HTTP_TYPES verify_http) None s with
          | (Ok h, s') => (Ok (Some h), s')
          | (Err EOFError, s') => if otype_is rec_type "revisit" then (Ok None, s')
                                  else (Err EOFError, s')
          | (Err e, s') => (Err e, s')
          end
    end.

(** options of ArchiveIterator / parse_record_stream *)
Record lopts := mk_lopts {
  lo_norec : bool;      (* no_record_parse *)
  lo_verify : bool;     (* verify_http *)
  lo_a2w : bool;        (* arc2warc *)
  lo_ensure : bool;     (* ensure_http_headers *)
  lo_check : ckind;     (* check_digests *)
  lo_uuid : str         (* text of uuid4(); simplification: one constant *)
}.

Section Load2.
  Context {S : Type} (ops : sops S) (fuel : nat) (he : henv).

  (** recordloader.py:111-124: effective length *)
  Definition eff_length (length : option str) (sub_len : Z) : option Z :=
    match length with
    | None => None
    | Some l => match py_int l with
                | Some n => if n - sub_len <? 0 then Some 0 else Some (n - sub_len)
                | None => Some 0
                end
    end.

  (** recordloader.py:158-171 wrap_digest_verifying_stream *)
  Definition wrap_digest (l : limr S) (rec_type : option str) (h : sah) (c : checker) (length : Z)
    : res (rstream S) :=
    let pd := get_header (lit "WARC-Payload-Digest") h in
    let bd := get_header (lit "WARC-Block-Digest") h in
    let seg := get_header (lit "WARC-Segment-Number") h in
    if negb (truthy pd) && negb (truthy bd) then Ok (RSlim l)
    else match dig_new he l length c rec_type pd bd seg with
         | Ok d => Ok (RSdig d)
         | Err e => Err e
         end.

  (** recordloader.py:72-156 parse_record_stream.  On an exception the second
      component is the state of the underlying reader. *)
  Definition parse_record_stream (o : lopts) (statusline : option hline) (known : option fmt)
             (s : S) : res (record S) * S :=
    match detect_type ops fuel (lo_a2w o) (lo_uuid o) statusline known s with
    | (Err e, s') => (Err e, s')
    | (Ok (is_arc, h), s1) =>
        let arc_native := is_arc && negb (lo_a2w o) in
        let '(rec_type, uri, h, length, ctype, sub_len) :=
          if arc_native then
            let uri := get_header (lit "uri") h in
            (Some (match uri with
                   | Some u => if is_filedesc u then lit "arc_header" else lit "response"
                   | None => lit "response" end),
             uri, h, get_header (lit "length") h, get_header (lit "content-type") h, sh_total h)
          else
            let t := get_header (lit "WARC-Type") h in
            let (uri, h') := ensure_target_uri h in
            (t, uri, h', get_header (lit "Content-Length") h',
             get_header (lit "Content-Type") h', if is_arc then sh_total h' else 0) in
        let length := eff_length length sub_len in
        let c := chk_new (lo_check o) in
        (* lines 129-135 *)
        let st := match length with
                  | Some n =>
                      let l := lim_new s1 n in
                      if ckind_bool (lo_check o) then wrap_digest l rec_type h c n
                      else Ok (RSlim l)
                  | None => Ok (RSbase s1)
                  end in
        match st with
        | Err e => (Err e, s1)
        | Ok st =>
            (* lines 137-145 *)
            let start := rs_tell ops st in
            let '(r, st') :=
              if lo_norec o then (Ok None, st)
              else load_http_headers (rs_ops ops) fuel (lo_verify o) rec_type uri length st in
            match r with
            | Err e => (Err e, rs_base st')
            | Ok http =>
                let plen := match length with
                            | Some n => if negb (lo_norec o) && negb (n =? 0) && osah_bool http
                                        then n - (rs_tell ops st' - start) else -1
                            | None => -1
                            end in
                let http := if negb (osah_bool http) && lo_ensure o
                            then Some (default_http_headers length ctype) else http in
                let '(r2, st'') :=
                  match st' with
                  | RSdig d => let (x, d') := begin_payload d in (x, RSdig d')
                  | _ => (Ok tt, st')
                  end in
                match r2 with
                | Err e => (Err e, rs_base st'')
                | Ok _ =>
                    (Ok (mk_rec (if arc_native then FArc else FWarc) rec_type h st'' http ctype
                                length plen c), rs_base st'')
                end
            end
        end
    end.
End Load2.
