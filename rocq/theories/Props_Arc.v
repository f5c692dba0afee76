(** * Props_Arc: ARC files: the record line (C43), conversion to WARC headers (C44), iteration (C74, C75) *)
From Coq Require Import String List ZArith NArith Bool Lia.
From Coq Require Import ZifyBool ZifyNat ZifyN.
From Verif Require Import PyBase Utf8 Codecs Headers HeaderSpec Streams StreamSpec DigestSpec TimeUtils TimeSpec Loader Iterator WriterSpec IterSpec ArcSpec Toy.
Import ListNotations.
Open Scope Z_scope.
From Verif Require Import Thm_Arc.

(** examples: a file with its description and a response whose URL contains a space *)
Definition ex_f0 : fields := mk_fields (lit "filedesc://a.arc") (lit "0.0.0.0") (lit "20131226101112") (lit "text/plain") (lit "34").
Definition ex_f1 : fields := mk_fields (lit "http://a/x y") (lit "127.0.0.1") (lit "20131226101113") (lit "text/html") (lit "25").
Definition ex_r0 : arec :=
  mk_arec ex_f0 (lit "filedesc://a.arc 0.0.0.0 20131226101112 text/plain 34" ++ [10%N])
    (lit "1 0 Org" ++ [10%N] ++ lit "URL IP Date Type Length" ++ [10%N]) (lit "!!").
Definition ex_r1 : arec :=
  mk_arec ex_f1 (lit "http://a/x y 127.0.0.1 20131226101113 text/html 25" ++ [13; 10]%N) []
    (lit "HTTP/1.0 200 OK" ++ crlf ++ lit "A: b" ++ crlf ++ crlf).
Definition ex_http : sah := mk_sah (lit "200 OK") [(lit "A", lit "b")] (lit "HTTP/1.0") 25 None.
Definition ex_es : list aentry := [mk_aentry ex_r0 [10%N] None (lit "!!"); mk_aentry ex_r1 [] (Some ex_http) []].
(** and a record without data *)
Definition ex_f2 : fields := mk_fields (lit "dns:a") (lit "127.0.0.1") (lit "20131226101113") (lit "text/dns") (lit "0").
Definition ex_r2 : arec := mk_arec ex_f2 (lit "dns:a 127.0.0.1 20131226101113 text/dns 0" ++ [10%N]) [] [].
(** the records with no blank lines between them *)
Definition ex_bare2 : list aentry := [mk_aentry ex_r0 [] None (lit "!!"); mk_aentry ex_r1 [] (Some ex_http) []].
Definition ex_bare3 : list aentry := [mk_aentry ex_r0 [] None (lit "!!"); mk_aentry ex_r2 [] None []; mk_aentry ex_r1 [] (Some ex_http) []].
Definition ex_o : lopts := mk_lopts false false false false KFalse (lit "u").
Definition ex_prog (k : nat) : list uop := match k with O => [URead (Some 1)] | _ => [] end.

(** C43.  The ARC parser reading a line made of URL, IP address, date, content type and
    length joined by single spaces, and white space at its end, returns exactly these
    fields, also if the URL contains spaces, and has read the line; after the line of a
    filedesc record it has read two lines more, and reports their length. *)
Theorem C43_fields :
  forall (S : Type) (ops : sops S) (R : S -> bytes -> Prop) uuid f s c,
  exact_full_line ops R -> R s c -> wf_fields f -> text_line (take_line c) (arc_text f) ->
  exists s' n, arc_parse ops false uuid None s = (Ok (mk_sah [] (native_headers f) (lit "WARC/1.0") n None), s')
    /\ (~ filedesc f -> R s' (drop_line c) /\ n = 0)
    /\ (filedesc f -> R s' (drop_line (drop_line (drop_line c)))
        /\ n = lenZ (decode_header (take_line (drop_line c))) + lenZ (decode_header (take_line (drop_line (drop_line c))))).
Proof. exact C43_fields_pf. Qed.
Print Assumptions C43_fields.

Example C43_ex : wf_fields ex_f1 /\ text_line (r_line ex_r1) (arc_text ex_f1)
  /\ fst (arc_parse raw_ops false (lit "u") None (raw_open (r_line ex_r1 ++ lit "data") []))
     = Ok (mk_sah [] [(lit "uri", lit "http://a/x y"); (lit "ip-address", lit "127.0.0.1"); (lit "archive-date", lit "20131226101113");
                      (lit "content-type", lit "text/html"); (lit "length", lit "25")] (lit "WARC/1.0") 0 None).
Proof. split; [exact (proj1 ex_wf1)|]. split; [exact (proj1 (proj2 (proj2 ex_wf1)))|]. vm_compute. reflexivity. Qed.

(** C43.  Every line whose text (without the white space at its end) has at least four
    spaces is accepted, with fields that are determined by the text; every other one, and
    no more, is refused. *)
Theorem C43_complete :
  forall (S : Type) (ops : sops S) (R : S -> bytes -> Prop) uuid s c t,
  exact_full_line ops R -> R s c -> c <> [] -> text_line (take_line c) t -> no_trail is_uspace t ->
  ((4 <= count_occ N.eq_dec t 32%N)%nat ->
     exists f, wf_fields f /\ arc_text f = t /\ (forall g, wf_fields g -> arc_text g = t -> g = f)
       /\ exists h s', arc_parse ops false uuid None s = (Ok h, s') /\ sh_headers h = native_headers f)
  /\ ((count_occ N.eq_dec t 32%N < 4)%nat -> exists l s', arc_parse ops false uuid None s = (Err (ParserExn l), s')).
Proof. exact C43_complete_pf. Qed.
Print Assumptions C43_complete.

Example C43_complete_ex : count_occ N.eq_dec (lit "http://a/ 127.0.0.1 20131226 text/html") 32%N = 3%nat
  /\ fst (arc_parse raw_ops false (lit "u") None (raw_open (lit "http://a/ 127.0.0.1 20131226 text/html" ++ [10%N]) [])) = Err (ParserExn []).
Proof. vm_compute. repeat split. Qed.

(** C43.  A file that begins with a line which is neither a WARC version line nor an ARC
    record line is refused with ArchiveLoadFailed; so is an ARC line where only WARC is
    expected. *)
Theorem C43_load_failed :
  forall (S : Type) (ops : sops S) (R : S -> bytes -> Prop) fuel he o known s c t,
  exact_full_line ops R -> R s c -> text_line (take_line c) t -> no_trail is_uspace t -> t <> [] ->
  (known <> Some FArc -> forall q r, In q WARC_TYPES -> upper t <> q ++ r) ->
  (known <> Some FWarc -> (count_occ N.eq_dec t 32%N < 4)%nat) ->
  exists s', parse_record_stream ops fuel he o None known s = (Err ArchiveLoadFailed, s').
Proof. exact C43_load_failed_pf. Qed.
Print Assumptions C43_load_failed.

Example C43_load_failed_ex : fst (parse_record_stream raw_ops 100 toy_henv ex_o None None (raw_open (lit "<html> <body> garbage" ++ [10%N]) [])) = Err ArchiveLoadFailed.
Proof. vm_compute. reflexivity. Qed.

(** C44.  With arc2warc, every line becomes the headers of a WARC record: a response with
    the URL, IP address, the ISO form of the date, the content type of HTTP responses and
    the length; for the description of an ARC file a warcinfo record with the file name and
    the content type of the line.  The date is the one the timestamp means: for 14 digits
    the moment they write, and the end of the period (C54) or the nearest date (C50) for
    others. *)
Theorem C44_headers :
  forall (S : Type) (ops : sops S) (R : S -> bytes -> Prop) uuid f s c,
  exact_full_line ops R -> R s c -> wf_fields f -> text_line (take_line c) (arc_text f) ->
  exists s' n hs d, arc_parse ops true uuid None s = (Ok (mk_sah [] hs (lit "WARC/1.0") n None), s')
    /\ timestamp_to_datetime (f_date f) = Ok d /\ valid_dt d
    /\ (forall d0, valid_dt d0 -> 1900 <= dt_y d0 <= 2999 -> dt_us d0 = 0 -> f_date f = ts14 d0 -> d = d0)
    /\ warc_headers (lit "<urn:uuid:" ++ uuid ++ lit ">") (iso19 d ++ lit "Z") (f_uri f) f hs
    /\ (~ filedesc f -> R s' (drop_line c) /\ n = 0)
    /\ (filedesc f -> R s' (drop_line (drop_line (drop_line c)))
        /\ n = lenZ (decode_header (take_line (drop_line c))) + lenZ (decode_header (take_line (drop_line (drop_line c))))).
Proof. exact C44_headers_pf. Qed.
Print Assumptions C44_headers.

Example C44_ex :
  let hs r := match fst (arc_parse raw_ops true (lit "u") None (raw_open (arc_bytes r) [])) with Ok h => sh_headers h | Err _ => [] end in
  hs ex_r1 = [(lit "WARC-Type", lit "response"); (lit "WARC-Record-ID", lit "<urn:uuid:u>"); (lit "WARC-Target-URI", lit "http://a/x y");
              (lit "WARC-IP-Address", lit "127.0.0.1"); (lit "WARC-Date", lit "2013-12-26T10:11:13Z");
              (lit "Content-Type", lit "application/http;msgtype=response"); (lit "Content-Length", lit "25")]
  /\ hs ex_r0 = [(lit "WARC-Type", lit "warcinfo"); (lit "WARC-Record-ID", lit "<urn:uuid:u>"); (lit "WARC-Filename", lit "a.arc");
              (lit "WARC-IP-Address", lit "0.0.0.0"); (lit "WARC-Date", lit "2013-12-26T10:11:12Z");
              (lit "Content-Type", lit "text/plain"); (lit "Content-Length", lit "34")]
  /\ f_date ex_f1 = ts14 (mk_dt 2013 12 26 10 11 13 0).
Proof. vm_compute. repeat split. Qed.

(** C75.  Iterating over an uncompressed ARC file (records as their line, for the first one
    two more lines, the data, and blank lines, which may be missing after the last record)
    yields each record once, in order, with its fields, HTTP headers and payload, whatever
    the consumer reads, then stops; with arc2warc, with the headers of the WARC record it
    is converted to (the date in ISO form, the URL without brackets around it and with spaces
    encoded).  Lines inside records are limited as in C34. *)
Theorem C75_iterate_partial :
  forall (zl : zenv) fuel he o M prog p es sched block known n,
  gz_magic zl -> first_two block sched -> reads_fit M block sched -> 0 <= M -> enough fuel (ae_texts es) ->
  (forall i e, nth_error es i = Some e -> good_aentry fuel o M (prog i) e
     /\ white (ae_tail e) /\ (white_lines (ae_tail e) \/ S i = List.length es)) ->
  lo_ensure o = false -> known <> Some FWarc -> (List.length es < n)%nat ->
  exists obs, run_iter (zl:=zl) fuel he o n prog 0 (iter_new (mk_raw (ae_texts es) p sched) block known) = (obs, EndStop)
    /\ List.length obs = List.length es
    /\ forall i e ob, nth_error es i = Some e -> nth_error obs i = Some ob ->
         arc_observed o (ae_rec e) (ae_http e) (ae_payload e) (p + ae_position i es) (lenZ (arc_bytes (ae_rec e))) (prog i) ob.
Proof. exact C75_iterate_partial_pf. Qed.
Print Assumptions C75_iterate_partial.

Example C75_good : forall i e, nth_error ex_es i = Some e -> good_aentry 300 ex_o 200 (ex_prog i) e
  /\ white (ae_tail e) /\ (white_lines (ae_tail e) \/ S i = List.length ex_es).
Proof. exact ex_good_pf. Qed.
Example C75_ex :
  let (obs, en) := run_iter (zl:=toy_z) 300 toy_henv ex_o 3 ex_prog 0 (iter_new (raw_open (ae_texts ex_es) []) 200 None) in
  map (fun ob => (rc_format (ob_record ob), rc_type (ob_record ob), ob_reads ob, ob_info ob)) obs
  = [(FArc, Some (lit "arc_header"), [Ok (lit "!")], Ok (Some (0, 88))); (FArc, Some (lit "response"), [], Ok (Some (89, 77)))]
  /\ map (fun ob => option_map sh_headers (rc_http (ob_record ob))) obs = [None; Some [(lit "A", lit "b")]] /\ en = EndStop.
Proof. vm_compute. repeat split. Qed.

(** C75.  The same for ARC files with one gzip member per record; blank lines may be missing
    in every member; offset and length are those of the member.  (Restrictions of C75_iterate_partial.) *)
Theorem C75_gzip_partial :
  forall (zl : zenv) fuel he o M prog p (ms : list (aentry * bytes)) sched block known n,
  ms <> [] -> agz_fit zl M block sched prog ms -> 0 < block -> 0 <= M ->
  enough fuel (agz_data ms) -> (forall e m, In (e, m) ms -> enough fuel (ae_text e)) ->
  (forall i e m, nth_error ms i = Some (e, m) -> good_aentry fuel o M (prog i) e /\ white (ae_tail e) /\ is_member zl m (ae_text e)) ->
  lo_ensure o = false -> known <> Some FWarc -> (List.length ms < n)%nat ->
  exists obs, run_iter (zl:=zl) fuel he o n prog 0 (iter_new (mk_raw (agz_data ms) p sched) block known) = (obs, EndStop)
    /\ List.length obs = List.length ms
    /\ forall i e m ob, nth_error ms i = Some (e, m) -> nth_error obs i = Some ob ->
         arc_observed o (ae_rec e) (ae_http e) (ae_payload e) (p + agz_position i ms) (lenZ m) (prog i) ob.
Proof. exact C75_gzip_partial_pf. Qed.
Print Assumptions C75_gzip_partial.

Example C75_gzip_ex :
  let ms := map (fun e => (e, toy_gz (ae_text e))) ex_es in
  (forall e m, In (e, m) ms -> is_member toy_z m (ae_text e))
  /\ let (obs, en) := run_iter (zl:=toy_z) 400 toy_henv ex_o 3 ex_prog 0 (iter_new (raw_open (agz_data ms) []) 400 None) in
     map (fun ob => (rc_format (ob_record ob), rc_type (ob_record ob), ob_reads ob, ob_info ob)) obs
     = [(FArc, Some (lit "arc_header"), [Ok (lit "!")], Ok (Some (0, 181))); (FArc, Some (lit "response"), [], Ok (Some (181, 157)))]
     /\ en = EndStop.
Proof. split; [intros e m [[= <- <-]|[[= <- <-]|[]]]; vm_compute; reflexivity|]. vm_compute. repeat split. Qed.

(** C74 is false: the code that skips blank lines between records is documented to accept
    ARC records with no blank line after them, but it throws away the line of the next
    record.  If that record has data, the data is taken for a record line, and the whole
    iteration fails; if it has none, the record is silently skipped. *)
Theorem C74_no_blank_line_refuted :
  (forall es, es = ex_bare2 \/ es = ex_bare3 -> forall i e, nth_error es i = Some e -> good_aentry 300 ex_o 200 [] e /\ ae_tail e = [])
/\ (exists obs, run_iter (zl:=toy_z) 300 toy_henv ex_o 4 (fun _ => []) 0 (iter_new (raw_open (ae_texts ex_bare2) []) BUFF_SIZE None)
      = (obs, EndExn ArchiveLoadFailed) /\ List.length obs = 1%nat)
/\ (exists ob1 ob2, run_iter (zl:=toy_z) 300 toy_henv ex_o 4 (fun _ => []) 0 (iter_new (raw_open (ae_texts ex_bare3) []) BUFF_SIZE None)
      = ([ob1; ob2], EndStop)
      /\ map (fun ob => get_header (lit "uri") (rc_headers (ob_record ob))) [ob1; ob2] = [Some (lit "filedesc://a.arc"); Some (lit "http://a/x y")]).
Proof. exact C74_no_blank_line_refuted_pf. Qed.
Print Assumptions C74_no_blank_line_refuted.


