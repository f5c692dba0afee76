(** * ArcSpec: vocabulary for the statements about ARC files: the five fields of a record
    line, records with their block, and what a consumer of the iterator observes. *)
From Coq Require Import String List ZArith NArith Bool.
From Verif Require Import PyBase Utf8 Headers HeaderSpec Streams StreamSpec DigestSpec TimeUtils TimeSpec Loader Iterator WriterSpec IterSpec.
Import ListNotations.
Open Scope Z_scope.

(** the fields of an ARC 1.0 record line *)
Record fields := mk_fields { f_uri : str; f_ip : str; f_date : str; f_ctype : str; f_length : str }.
Definition arc_text (f : fields) : str :=
  f_uri f ++ 32%N :: f_ip f ++ 32%N :: f_date f ++ 32%N :: f_ctype f ++ 32%N :: f_length f.
(** only the URL may contain spaces; no white space at the end *)
Definition wf_fields (f : fields) : Prop :=
  ~ In 32%N (f_ip f) /\ ~ In 32%N (f_date f) /\ ~ In 32%N (f_ctype f) /\ ~ In 32%N (f_length f)
  /\ no_trail is_uspace (arc_text f).
(** the headers of a native ARC record *)
Definition native_headers (f : fields) : list header :=
  [(lit "uri", f_uri f); (lit "ip-address", f_ip f); (lit "archive-date", f_date f);
   (lit "content-type", f_ctype f); (lit "length", f_length f)].

(** the record that describes the file *)
Definition filedesc (f : fields) : Prop := exists t, f_uri f = lit "filedesc://" ++ t.

(** the headers of the WARC record it is converted to; [iso]: its date, [uri]: its URL, [id]: the record id *)
Definition warc_headers (id : str) (iso uri : str) (f : fields) (hs : list header) : Prop :=
  (forall file, f_uri f = lit "filedesc://" ++ file ->
     hs = [(lit "WARC-Type", lit "warcinfo"); (lit "WARC-Record-ID", id); (lit "WARC-Filename", file);
           (lit "WARC-IP-Address", f_ip f); (lit "WARC-Date", iso); (lit "Content-Type", f_ctype f);
           (lit "Content-Length", f_length f)])
  /\ (~ filedesc f ->
     hs = [(lit "WARC-Type", lit "response"); (lit "WARC-Record-ID", id); (lit "WARC-Target-URI", uri);
           (lit "WARC-IP-Address", f_ip f); (lit "WARC-Date", iso);
           (lit "Content-Type", lit "application/http;msgtype=response"); (lit "Content-Length", f_length f)]).

(** the text of line [l] is [t], followed by white space *)
Definition text_line (l : bytes) (t : str) : Prop :=
  exists ws, decode_header l = t ++ ws /\ (forall c, In c ws -> is_uspace c = true).

(** a record: its line, the version and specification lines that follow the line of a
    filedesc record, and the data *)
Record arec := mk_arec { r_fields : fields; r_line : bytes; r_spec : bytes; r_data : bytes }.
Definition arc_bytes (r : arec) : bytes := r_line r ++ r_spec r ++ r_data r.
Definition wf_arec (r : arec) : Prop :=
  wf_fields (r_fields r) /\ is_line (r_line r) /\ text_line (r_line r) (arc_text (r_fields r))
  /\ (forall q t, In q WARC_TYPES -> upper (arc_text (r_fields r)) <> q ++ t)
  /\ (forall t, r_line r <> 31%N :: 139%N :: t)
  /\ (filedesc (r_fields r) -> exists v sp, r_spec r = v ++ sp /\ is_line v /\ is_line sp /\ ascii_text (r_spec r))
  /\ (~ filedesc (r_fields r) -> r_spec r = [])
  /\ py_int (f_length (r_fields r)) = Some (lenZ (r_spec r ++ r_data r)).

(** HTTP headers and payload: the data read on its own *)
Definition arc_http_view (fuel : nat) (norec verify a2w : bool) (r : arec) (http : option sah) (payload : bytes) : Prop :=
  if norec then http = None /\ payload = r_data r
  else (filedesc (r_fields r) -> http = None /\ payload = r_data r)
    /\ (~ filedesc (r_fields r) ->
        exists m uri, (if a2w then normal_uri (f_uri (r_fields r)) uri else uri = f_uri (r_fields r))
                  /\ load_http_headers raw_ops fuel verify (Some (lit "response")) (Some uri)
                    (Some (lenZ (r_data r))) (raw_open (r_data r) []) = (Ok http, m)
                  /\ payload = rw_rest m).

(** a record of an archive, and the blank lines after it *)
Record aentry := mk_aentry { ae_rec : arec; ae_tail : bytes; ae_http : option sah; ae_payload : bytes }.
Definition ae_text (e : aentry) : bytes := arc_bytes (ae_rec e) ++ ae_tail e.
Definition ae_texts (es : list aentry) : bytes := concat (map ae_text es).
Definition ae_position (k : nat) (es : list aentry) : Z := lenZ (ae_texts (firstn k es)).

(** blank lines *)
Definition white (t : bytes) : Prop := forall c, In c t -> is_bspace c = true.
Definition white_lines (t : bytes) : Prop := white t /\ exists a, t = a ++ [LF].

(** with arc2warc: the ISO form of the date (for the moment a timestamp means, see C50, C51
    and C54), and the URL without brackets and spaces (C92).  Every record has both. *)
Definition converted (f : fields) (iso uri : str) : Prop :=
  (exists d, timestamp_to_datetime (f_date f) = Ok d /\ iso = iso19 d ++ lit "Z") /\ normal_uri (f_uri f) uri.

Definition good_aentry (fuel : nat) (o : lopts) (M : Z) (us : list uop) (e : aentry) : Prop :=
  wf_arec (ae_rec e)
  /\ arc_http_view fuel (lo_norec o) (lo_verify o) (lo_a2w o) (ae_rec e) (ae_http e) (ae_payload e)
  /\ (lo_norec o = false -> ae_http e <> None -> short_lines M (r_data (ae_rec e)))
  /\ nonneg_ops us /\ user_lines M us (ae_payload e).

(** the observation [ob] of ARC record [e], which begins at [off] and has the length [len],
    by a consumer doing [us] *)
Record arc_observed {zl : zenv} (o : lopts) (r : arec) (http : option sah) (payload : bytes) (off len : Z) (us : list uop)
                    (ob : @obs zl) : Prop := {
  ao_native : lo_a2w o = false ->
    rc_format (ob_record ob) = FArc /\ sh_headers (rc_headers (ob_record ob)) = native_headers (r_fields r)
    /\ rc_ctype (ob_record ob) = Some (f_ctype (r_fields r))
    /\ (filedesc (r_fields r) -> rc_type (ob_record ob) = Some (lit "arc_header"))
    /\ (~ filedesc (r_fields r) -> rc_type (ob_record ob) = Some (lit "response"));
  ao_warc : lo_a2w o = true ->
    rc_format (ob_record ob) = FWarc
    /\ (exists iso uri, converted (r_fields r) iso uri /\
          warc_headers (make_warc_id (lo_uuid o)) iso uri (r_fields r) (sh_headers (rc_headers (ob_record ob))))
    /\ (filedesc (r_fields r) -> rc_type (ob_record ob) = Some (lit "warcinfo"))
    /\ (~ filedesc (r_fields r) -> rc_type (ob_record ob) = Some (lit "response"));
  ao_ctype : lo_a2w o = true -> rc_ctype (ob_record ob) = value_of (lit "Content-Type") (sh_headers (rc_headers (ob_record ob)));
  ao_version : sh_proto (rc_headers (ob_record ob)) = lit "WARC/1.0" /\ sh_status (rc_headers (ob_record ob)) = [];
  ao_length : rc_length (ob_record ob) = Some (lenZ (r_data r));
  ao_http : rc_http (ob_record ob) = http;
  ao_plen : rc_plen (ob_record ob) = if osah_bool http then lenZ payload else -1;
  ao_data : ob_reads ob = map Ok (mem_user us payload);
  ao_place : ob_info ob = Ok (Some (off, len));
  ao_verdict : ob_passed ob = None
}.

(** the same whatever the block size: what read() returns is the data without a prefix, which is
    empty without HTTP headers *)
Record arc_found {zl : zenv} (o : lopts) (r : arec) (off len : Z) (ob : @obs zl) : Prop := {
  af_native : lo_a2w o = false ->
    rc_format (ob_record ob) = FArc /\ sh_headers (rc_headers (ob_record ob)) = native_headers (r_fields r)
    /\ rc_ctype (ob_record ob) = Some (f_ctype (r_fields r))
    /\ (filedesc (r_fields r) -> rc_type (ob_record ob) = Some (lit "arc_header"))
    /\ (~ filedesc (r_fields r) -> rc_type (ob_record ob) = Some (lit "response"));
  af_warc : lo_a2w o = true ->
    rc_format (ob_record ob) = FWarc
    /\ (exists iso uri, converted (r_fields r) iso uri /\
          warc_headers (make_warc_id (lo_uuid o)) iso uri (r_fields r) (sh_headers (rc_headers (ob_record ob))))
    /\ (filedesc (r_fields r) -> rc_type (ob_record ob) = Some (lit "warcinfo"))
    /\ (~ filedesc (r_fields r) -> rc_type (ob_record ob) = Some (lit "response"));
  af_version : sh_proto (rc_headers (ob_record ob)) = lit "WARC/1.0" /\ sh_status (rc_headers (ob_record ob)) = [];
  af_length : rc_length (ob_record ob) = Some (lenZ (r_data r));
  af_place : ob_info ob = Ok (Some (off, len));
  af_data : exists head body,
    r_data r = head ++ body /\ ob_reads ob = [Ok body] /\ (rc_http (ob_record ob) = None -> head = [])
    /\ (rc_plen (ob_record ob) = -1 \/ rc_plen (ob_record ob) = lenZ body)
}.

(** archives with one gzip member per record *)
Definition agz_data (ms : list (aentry * bytes)) : bytes := concat (map snd ms).
(** as [member_fit] and [gz_fit] in IterSpec.v: the lines before the payload are read in one piece *)
Definition agz_fit (zl : zenv) (M block : Z) (sched : list Z) (prog : nat -> list uop) (ms : list (aentry * bytes)) : Prop :=
  M <= 1 \/ (sched = [] /\ forall i e m, nth_error ms i = Some (e, m) ->
    lenZ m <= block
    \/ (no_lines (prog i) /\ exists o d, zfeed zl (zinit zl Gzip) (takeZ block m) = Some (o, d)
          /\ lenZ (ae_text e) - lenZ (ae_payload e) - lenZ (ae_tail e) <= lenZ o)).
Definition agz_position (k : nat) (ms : list (aentry * bytes)) : Z := lenZ (agz_data (firstn k ms)).
